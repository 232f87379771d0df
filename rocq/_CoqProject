-Q theories Verif
theories/Base.v
theories/HashIter.v
theories/Adj.v
theories/F64.v
theories/Numeric.v
theories/Sq.v
theories/Standard.v
theories/Compressed.v
theories/Spec.v
theories/Api.v
theories/CApi.v
theories/CSpec.v
theories/Py.v
theories/PySpec.v
theories/Abi.v
theories/AbiSpec.v
theories/HashIterProofs.v
theories/AdjProofs.v
theories/GraphProofs.v
theories/SqProofs.v
theories/PoolProofs.v
theories/BitsProofs.v
theories/KeepTable.v
theories/CompressProofs.v
theories/BytesProofs.v
theories/GraphCodecProofs.v
theories/CGraphCodecProofs.v
theories/ApproxProofs.v
theories/GraphMoreProofs.v
theories/TextProofs.v
theories/TextSpec.v
theories/SqTextProofs.v
theories/NumTextProofs.v
theories/SqShowProofs.v
theories/FloatTextProofs.v
theories/SqExactProofs.v
theories/WrapTextProofs.v
theories/CApiProofs.v
theories/CHeapProofs.v
theories/PropCommon.v
theories/PropGraph.v
theories/MatSpec.v
theories/MatrixProofs.v
theories/PropMatrix.v
theories/FloatBridge.v
theories/FloatProofs.v
theories/FloatSpec.v
theories/PoolValueProofs.v
theories/PoolTextProofs.v
theories/PropPool.v
theories/CodecMoreProofs.v
theories/PropCodec.v
theories/PropCompress.v
theories/PropMore.v
theories/PropPoolMore.v
theories/PropText.v
theories/PropTextMore.v
theories/PropWrap.v
theories/Error.v
theories/ErrSpec.v
theories/ErrProofs.v
theories/PropErrors.v
theories/PropC.v
theories/PropAbi.v
theories/PropPy.v
theories/PropExact.v
theories/PyProg.v
theories/PropProg.v
theories/CProg.v
theories/PropCProg.v
theories/PropAbort.v
theories/PropUnchecked.v
theories/PropScriptMore.v
theories/PyArgs.v
theories/ArgsProofs.v
theories/PropArgs.v
theories/Script.v
theories/ScriptSpec.v
theories/ScriptProofs.v
theories/ScriptReadProofs.v
theories/PropScript.v
theories/Demo.v
theories/PropDemo.v
theories/Build.v
theories/PropBuild.v
theories/ModelTests.v
theories/DocTests.v
theories/CModelTests.v
theories/PyModelTests.v
theories/PropSize.v
theories/PropCount.v
theories/PropRelate.v
theories/PropOrder.v
theories/PropDemoMore.v
theories/PropBuilder.v
theories/PropPrograms.v
theories/PropPipeline.v
theories/PropRelabel.v
theories/PropRebuild.v
theories/PropDamage.v
theories/Package.v
theories/PropPackage.v
theories/PropCounting.v
theories/PropSpace.v
theories/PropDel.v
theories/PyRefs.v
theories/PropRefs.v
theories/PropDocs.v
theories/PropNumeric.v
theories/PropIter.v
theories/PropRecords.v
