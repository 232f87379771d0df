# Formal model of graphrox-rs: design

## What is modelled

| Rocq file (rocq/theories) | models |
|---|---|
| Base.v | u64/usize arithmetic (checked, saturating, wrapping or panicking), results, panics, platforms, hash iteration orders |
| F64.v | IEEE-754 binary64 (and binary32) through the standard library's `SpecFloat` (executable, axiom free) |
| HashIter.v | the two matrix iterators (the same state machine over a table of tables) |
| Adj.v | `matrix/csr_adjacency_matrix.rs`, `matrix/mod.rs` |
| Numeric.v, Sq.v | `util/mod.rs` (`Numeric`, clamps), `matrix/csr_square_matrix.rs` including the in-place text buffer |
| Standard.v | `graph/standard.rs`, `graph/mod.rs` |
| Compressed.v | `graph/compressed.rs` with its builder |
| Error.v | `error/mod.rs` (the error kinds are in Base.v) |
| CApi.v | `graphrox-c/src/lib.rs`, all exported functions, as a heap of handles |
| Py.v | `graphrox-py/graphrox/__init__.py` lines 251-787, all classes and methods, over CApi.v |
| Script.v | `scripts/generate_graph.py`, over Py.v; the choice of the library file, `__init__.py` lines 5-30 |
| PyArgs.v | the same methods with arguments of any type: what Python's comparisons and ctypes do with them before the library is called |
| PyProg.v | whole Python programs: the objects alive, calls on them, objects going away at any time, list items and iterators |
| PyRefs.v | Python programs with variables: the reference an iterator holds to its list, objects going away any time after the last reference |
| CProg.v | (vocabulary, no code of its own) the contract of every C function: kinds of handles taken and returned, arrays, output parameters, how lists are freed |
| Demo.v | `scripts/demo.py`, over Py.v: all it prints |
| Build.v | `graphrox-c/build.rs`, with Unix paths and a file system |
| Package.v | `graphrox-py/build-dlls.sh`; the packaged files of `graphrox-py/pyproject.toml` |
| Abi.v | the declarations in `graphrox-c/src/lib.rs`, `graphrox-c/gphrx.h` and `__init__.py` lines 40-248: structures, function signatures, error constants |

| Rocq file | contents |
|---|---|
| Spec.v, MatSpec.v, TextSpec.v, FloatSpec.v, ErrSpec.v, ScriptSpec.v | specification vocabulary that does not refer to the model (except MatSpec's call histories) |
| Api.v, CSpec.v, PySpec.v, AbiSpec.v | vocabulary about the public interfaces: histories, reachable states, C programs, heaps |
| *Proofs.v, KeepTable.v, FloatBridge.v | lemmas |
| Prop*.v | the property theorems `Cnn_...`, each with `Print Assumptions` and a non-vacuity example; lemmas used by one property only stand before it |
| ModelTests.v, DocTests.v, CModelTests.v, PyModelTests.v | the repository's own unit tests (Rust crate, C library, Python binding) and the examples of its documentation comments, run on the model by computation. They tie the model to the code: where the model misreads the code, a test the code passes would fail here |

Model files contain no proofs. Every definition cites the file and lines it models.

## Modelling decisions

* **u64** values are `N`; every arithmetic site is explicit. `checked_add` returns an
  option, `saturating_add` saturates; unchecked `+`/`*` go through `u64_add p`/`u64_mul p`,
  which panic when `overflow_checks p` and wrap otherwise. The parameter `p : platform` also
  fixes `usize::MAX` and which allocations succeed. Theorems hold for all platforms.
* **entry_count** increments/decrements wrap modulo 2^64 (release semantics). In an
  overflow-checked build the 2^64-th stored entry would panic instead; that many entries do
  not fit in any address space.
* **Hash tables** are stdpp `gmap`/`gset`. Iteration order is an explicit argument: a
  `hash_order` gives, for each table, an arbitrary permutation of its contents, and may give
  different orders for equal tables at different columns. Functions iterating two tables take
  two orders. Theorems hold for all orders.
* **Iterators** are modelled as the state machines in the source (`next` with column and row
  iterators), and `for` loops run them to exhaustion.
* **Panics**: functions that index or use unchecked arithmetic return
  `outcome := Ret a | Panic | OutOfFuel`; `OutOfFuel` can only come from a loop that exceeds
  the syntactic bound given to it and is proved not to occur.
* **Bytes** are `N` below 256 (`list N`), text is `list ascii`.
* **Reachability**: a mutual inductive predicate over all histories of the safe public API
  (constructors, mutators, `directed_from`, `undirected_from`, `try_from`, `approximate`,
  `compress`, `decompress`). `unsafe` constructors are modelled but are not reachability steps.
* **Formatting**: `format!` of integers and of floats with a precision is modelled exactly
  (floats by exact decimal expansion, round half to even). Width and precision of a format
  string are limited to 65535 and panic above (Rust 1.87 and later; earlier versions accept
  larger ones, so a theorem that excludes this panic holds for them too).
* **C interface**: a heap maps addresses to whole objects (graphs, matrices, buffers, the
  caller's own cells and arrays). A call ends in a new heap, an abort (a panic reaching
  `extern "C"`) or undefined behaviour (a wrong or freed address). Addresses are whole
  objects: no pointer arithmetic inside one, except array prefixes. Boxing an object never
  fails. The allocator is an arbitrary function giving fresh non-null addresses. Empty
  slices have a dangling non-null address and take no memory.
* **Python binding**: an object is the handle it holds; `__del__` is an explicit call;
  integer arguments are arbitrary integers (ctypes reduces them modulo the width), thresholds
  are doubles.
* **f64**: `spec_float` with precision 53 and exponent bound 1024, round to nearest even;
  NaN has no payload. Decimal literals are the correctly rounded quotients of exact integers.

## How each property is proved

| id | modelled by | proof |
|---|---|---|
| C01, C02, C10, C11, C15 | Standard.v over Adj.v | refinement to `sgraph` by induction over the op list; step lemmas |
| C03, C04, C05 | reachability predicate | invariant by mutual induction over histories |
| C06, C44 | iterator state machines | iterator invariant; permutation of the flattened table |
| C07, C08 | column/row scans | permutation + cardinality (`has_card`), double counting |
| C09 | fold with early exit | induction over the iteration list |
| C12, C13 | try_to_string loops | loop = declarative layout; length induction; injectivity by fixed widths |
| C14, C43, C46, C47, C36, C38, C39, C21, C33, C53, C54, C83, parts of C11, C22, C26, C27, C65 | the code violates them | explicit witness (`_refuted`, by computation) and the strongest true restriction (`_partial`) |
| C16-C20 | to_bytes / try_from with explicit loops | declarative file format; decoder = format (both directions) |
| C22-C25, C28, C29 | compress/decompress with 64-step inner loops | bit-level lemma for the block encoder; finite check of the float threshold over all 64 levels and 65 fill counts; count lemmas |
| C26, C27, C30-C33 | compressed codec | as for the graph codec plus popcount sums |
| C34, C35, C37, C41, C48 | find_avg_pool_matrix | occurrence counting, IEEE facts through Flocq's correctness theorems |
| C46, C47 exactly (`_exact`) | in-place buffer of the matrix text | character-level account of overlapping writes: which text covers a separator, which leaves the template standing |
| exact versions of C21, C26, C27, C33, C53, C54, C61, C65 (PropExact.v) and C37, C38 (PropPoolMore.v) | codec, pool | what happens in the cases the partial versions leave out |
| C40, C42, C45 | direct | simulation by a finite map, buffer-overwrite lemma |
| C49 | builder | induction over call list |
| C50-C52, C57 | CApi.v heap | case analysis per call, framing; ownership by induction over C programs |
| C55 | Adj.v | refinement to a set of cells by induction over the call list |
| C56 | pool + text buffer | error of the average and of the printed digits, through the reals |
| C58-C62 | Py.v over CApi.v | case analysis per method, on top of C52 and C57 |
| C64-C68 | whole-graph operations | the results are functions of the block counts, which depend only on the edges (PropMore.v) |
| C67, C69 | approximate | rounding is monotone; exactness for powers of two (PropPoolMore.v) |
| C70, C71 | decoders, size computations | the sequence of checks against a list of defects with messages (PropErrors.v) |
| C72-C74 | Script.v over Py.v | reading a file line by line; the map of new numbers as a list indexed by the old ones; C59 and C60 for the calls (PropScript.v); any text file as lines, words and groups of digits (ScriptReadProofs.v); for any integers, one id for each place of the array (PropScriptMore.v) |
| C75, C76 | Script.v, Compressed.v | substring lemmas; C70 for the sample files |
| C77 | PyArgs.v over Py.v | case analysis per method; comparisons and remainder of floats through the reals (PropArgs.v) |
| C78 | Demo.v | C59, C60 and C36 for the calls in turn (PropDemo.v); the texts from C12, C64 and C91, so for every platform and hash order (PropDemoMore.v) |
| C79 | Build.v | paths as lists of names; any text as a list of pieces between slashes (PropBuild.v) |
| C80 | PyProg.v over Py.v | invariant: every object alive finds what its class wraps, each piece of memory has exactly one owner; one effect lemma for all calls from C52–C61 (PropProg.v); exactly which calls end the process (PropAbort.v); what happens where two objects share a handle (PropDel.v, from C81) |
| C81 | CApi.v with CProg.v | exact conditions for undefined behaviour by composition over the heap operations; kinds and ownership by induction over programs (PropCProg.v, PropAbort.v) |
| C82 | `undirected_from_unchecked` | comparison with the directed graph of the same matrix by simulation; the count in the header against the edges it describes (PropUnchecked.v) |
| C83 | compress, to_bytes | sum over the stored words of their numbers of ones (PropSize.v) |
| C84 | decoders | C70: the second check is the magic number (PropSize.v) |
| C85 | edge_count | a symmetric relation is its upper half, that half mirrored, and its diagonal (PropCount.v) |
| C86 | approximate | blocks are images of edges under division (PropCount.v) |
| C87 | approximate | C69, u / b1 / b2 = u / (b1 * b2), and rounding up twice (PropCount.v) |
| C88 | compress, approximate | both rules as integer inequalities, by a finite check of all block sizes, fill counts and levels (PropRelate.v) |
| C89 | find_avg_pool_matrix | C35 summed over the blocks, which group the edges (PropRelate.v) |
| C90 | try_from | C18, C32 and counting of records (PropRelate.v) |
| C91 | to_string_with_precision | cells are written to disjoint places, and the width depends on the greatest and least entry only (PropOrder.v) |
| C92 | build, to_bytes, try_from, decompress | the matrix of a built graph does not depend on the weights; a file is accepted exactly when it is a good one; decompression is a fold over the edges, one checked step each (PropBuilder.v) |
| C93 | PyProg.v, CApi.v | C01, C59 and C80 resp. C52 and C51 by induction over the steps of a program (PropPrograms.v) |
| C94 | Script.v, Py.v | C72, C73 and C74 with the round trips C16 and C25, counting listed pairs by block (PropPipeline.v) |
| C95 | find_avg_pool_matrix, approximate, compress | edges of corresponding blocks are counted through the bijection, so the exact descriptions of C23, C35 and C37 agree (PropRelabel.v) |
| C96 | add_edge, add_vertex, set_entry, the builder | what a fold of insertions contains, by induction over the list (PropRebuild.v) |
| C97 | Graph::try_from, CompressedGraph::try_from | both files have the exact form of C18 and C32, so a change of one field leaves the others equal; counting edges and bits excludes the rest (PropDamage.v) |
| C98 | Package.v, Script.v | a chain of commands runs up to the first failure; patterns with one star; C75 for the names (PropPackage.v) |
| C99 | Numeric.v, Sq.v | induction over the number of increments; Flocq's correctness of addition for any precision; rounding of the successor stays in range (PropCounting.v) |
| C100 | to_bytes, try_to_string, to_string_with_precision | the layout theorems for the bytes; the loops that fill the buffer keep its length (PropSpace.v) |
| C101 | PyRefs.v over PyProg.v | each step is a step of PyProg.v or leaves the heap alone; invariant: what can be reached is there; the program without the reference by computation (PropRefs.v) |
| C102 | Standard.v | removal of vertices refuted by monotonicity of the vertex count over any list of calls; the rest by induction over the list of deletions (PropDocs.v) |
| C103 | Py.v, CApi.v, Standard.v | literal reading refuted by computation; the exact edges from C11 and C59 (PropDocs.v) |
| C104 | Numeric.v, F64.v | decimal texts; Flocq's comparisons and its bound on finite numbers, for both precisions at once (PropNumeric.v) |
| C105 | HashIter.v, Adj.v, Sq.v, Standard.v | what is left in an iterator, call by call; columns without items do not show (PropIter.v) |
| C106 | Standard.v, Compressed.v, CApi.v, HashIter.v | the order of C105 followed through the encoders and the lists of the C interface (PropRecords.v) |
| C63 | Abi.v, CApi.v | comparison of the three tables by computation; case analysis per call |

## What is not modelled

* Derived `Debug` and `Clone` (a copy of a value).
* Time and memory use; capacity hints (`with_capacity`) except where they decide whether an
  allocation fails. `HashMap`/`HashSet` internals.
* Threads. The Rust types are plain data and the C interface is called from one thread.
* `ctypes.cdll.LoadLibrary` and the search for the library's directory,
  `build-wheel.sh`, packaging except the patterns of file names, what cargo does. Of the files
  in `sample-graphs/` only the names (C78) and the headers (C76).
* In Build.v: symbolic links, permissions, Windows paths.
* In Script.v: opening, reading and writing files (they are given by their contents and hold
  ASCII text); numpy integers are unbounded, and an array that is too large raises MemoryError
  however large it is.
* The alignment of 64-bit numbers is taken to be 8 (it is 4 on some 32-bit platforms): it is the
  address that stands for an empty list in CApi.v, and it places the fields in C63.
* Calling conventions: C63 compares the representations of types (C structures laid out by
  natural alignment), not how the compilers pass them.
* The garbage collector of Python: when `__del__` runs. PyProg.v lets it run at any time, but
  takes for granted that it runs at most once and not while a list still has an iterator; PyRefs.v
  lets it run at any time after the last reference, which includes the reference of the iterator.
  C80_shared_handle shows what goes wrong with `copy.copy`, which shares a handle, or an explicit
  `__del__`. The end of the interpreter, where `_lib` may be gone before the objects.
* In PyArgs.v: objects with conversions of their own (`__index__`, `__float__`, `__bool__`,
  comparison methods) and iterables other than lists, bytes and strings.

## Trusted base

* Coq 8.16.1 kernel and `vm_compute`.
* The reading of the source expressed in the model files; std `HashMap`/`HashSet`
  semantics (finite maps with arbitrary iteration order), `format!` for integers and floats,
  IEEE-754 conformance of `f64`, the ctypes conversions.
* The libraries stdpp and Flocq as far as definitions appear in statements (`gmap`, `gset`,
  list functions; Flocq's rounding in FloatSpec.v). Both are used without axioms of their own.

### Axioms

`Print Assumptions` says "Closed under the global context" for every property theorem except
the following, whose statements or proofs go through the real numbers of the standard library:

C35_pool_entries, C36_every_block_dimension_partial, C37_approximate_threshold,
C38_full_block_survives_partial, C39_threshold_clamping_partial, C41_monotone_partial,
C48_counting (PropPool.v), C53_partial, C56_pooled_text (PropC.v), C59_texts (PropPy.v),
C63_results_typed, C63_ctypes_results (PropAbi.v), C35_exact_value, C36_wide_blocks,
C67_approximate_monotone, C69_extreme_thresholds, C37_exact_rule, C39_exact, C41_exact,
C38_exact (PropPoolMore.v),
C53_exact (PropExact.v), C80_safe, C80_no_leak, C80_objects, C80_others_untouched
(PropProg.v), C81_abort (PropCProg.v), C47_pool_exact, C81_text_abort, C80_ends
(PropAbort.v), C77_threshold, C77_level, C77_index (PropArgs.v), C78_file
(PropDemo.v), C87_two_steps (PropCount.v), all theorems of C88 and C89
(PropRelate.v), C91_pool (PropOrder.v), C78_example, C78_whole (PropDemoMore.v),
C93_python, C93_snapshots (PropPrograms.v), C99_float_step, C99_single (PropCounting.v),
C80_shared_handle, C80_empty_again (PropDel.v), C101_safe, C101_iterators, C101_lists_stay, C101_steps,
C101_no_leak, C101_end (PropRefs.v), C104_floats (PropNumeric.v).

They rest on these axioms of the standard library and no others:

* `ClassicalDedekindReals.sig_not_dec`, `ClassicalDedekindReals.sig_forall_dec` (the
  construction of the reals)
* `FunctionalExtensionality.functional_extensionality_dep`
* `Classical_Prop.classic` (through Flocq's use of the classical reals)

No axiom, parameter or admitted proof is added by this development.
