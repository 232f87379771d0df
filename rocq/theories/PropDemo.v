(** Property C78: the demonstration script. *)
From Coq Require Import ZArith Ascii String.
From Verif Require Import Base HashIter F64 Numeric Adj Sq Standard Compressed Spec TextSpec Api CApi
  CSpec Py PySpec Script Demo GraphProofs PropCommon PropCodec PropPoolMore PropC PropPy PropScript.
Local Arguments N.mul : simpl never.
Local Arguments N.add : simpl never.
Local Arguments N.pow : simpl never.

Lemma dcall_done {A B} (x : pm A) (f : A -> dm B) out h v h' : x h = PyDone v h' ->
  dbind (dcall x) f out h = f v out h'.
Proof. intros H. unfold dbind, dcall. by rewrite H. Qed.
Lemma dcall_raise {A B} (x : pm A) (f : A -> dm B) out h exc h' : x h = PyRaise exc h' ->
  dbind (dcall x) f out h = (out, PyRaise exc h').
Proof. intros H. unfold dbind, dcall. by rewrite H. Qed.
Lemma dprint_done {B} s (f : unit -> dm B) out h : dbind (dprint s) f out h = f tt (out ++ [s]) h.
Proof. done. Qed.
Lemma dprints_done {B} l (f : unit -> dm B) out h :
  dbind (dprints l) f out h = f tt (out ++ (txt <$> l)) h.
Proof.
  revert out h f. induction l as [|s l IH]; intros out h f; simpl.
  - by rewrite app_nil_r.
  - unfold dbind at 1. unfold dbind at 1. unfold dprint. specialize (IH (out ++ [txt s]) h f).
    unfold dbind at 1 in IH. rewrite IH. by rewrite <-app_assoc.
Qed.

(** What the script prints for a file it loads, from the decoded graph and its approximation.
    Nothing of the old graph and of the approximation is left. *)
Theorem C78_file p e files old gold name title b t bytes out h : wf_platform p -> ce_platform e = p ->
  wf_alloc_fn (ce_alloc e) -> old <> null -> h !! old = Some (OGraph gold) ->
  files name = Some bytes -> is_slice p bytes -> (0 <= b < 2 ^ 32)%Z -> is_f64 t = true ->
  let run := demo_file e files old name title b t out h in
  exists r, graph_try_from p bytes = Ret r /\
  match r with
  | Err _ => run = (out, PyRaise TypeError h)
  | Ok g => exists a, approximate p (ce_order1 e) (ce_order2 e) g (Z.to_N b) t = Ret a /\
      let out' := out ++ [txt "This graph has " ++ N_text (vertex_count g) ++ txt " nodes and " ++
                          N_text (edge_count g) ++ txt " edges"; []; txt title] in
      match matrix_string p a with
      | Ok s => exists x, x <> null /\ h !! x = None /\
          run = (out' ++ [s], PyDone x (<[x := OGraph g]> (delete old h)))
      | Err _ => exists h', run = (out', PyRaise AttributeError h')
      end
  end.
Proof.
  intros Hp He Hal Hold Hgold Hf Hs Hb Ht run. unfold run, demo_file. clear run.
  rewrite (dcall_done _ _ out h bytes h) by by rewrite Hf.
  destruct (C60_partial p e h bytes Hp He Hal Hs) as [(r & Er & Hr) _].
  exists r. split; [done|]. destruct r as [g|err].
  2: { apply dcall_raise. unfold pbind. by rewrite Hr. }
  destruct Hr as (x & Ex & Hx & Hfr). assert (reach p g) as Hg by by eapply r_try_from.
  assert (x <> old) as Hne by congruence.
  rewrite (dcall_done _ _ out h x (<[x:=OGraph g]> h)) by by (unfold pbind; rewrite Ex).
  assert (<[x:=OGraph g]> h !! old = Some (OGraph gold)) as Hold' by by rewrite lookup_insert_ne.
  destruct (C59_graph_changes e _ old gold Hold Hold' Hal) as (_ & _ & _ & _ & Hdel).
  rewrite (dcall_done _ _ out _ _ _ Hdel). rewrite delete_insert_ne by done.
  set (h1 := <[x:=OGraph g]> (delete old h)).
  assert (h1 !! x = Some (OGraph g)) as Hxg by apply lookup_insert.
  destruct (C59_graph_queries e h1 x g Hx Hxg) as (_ & Hvc & Hec & _).
  rewrite (dcall_done _ _ out h1 (Z.of_N (vertex_count g)) h1) by by (unfold pbind; rewrite Hvc).
  rewrite (dcall_done _ _ out h1 (Z.of_N (edge_count g)) h1) by by (unfold pbind; rewrite Hec).
  rewrite dprint_done, dprints_done. cbn [fmap list_fmap].
  destruct (C36_panics_exactly p (ce_order1 e) (ce_order2 e) g (Z.to_N b) t Hp Hg) as (_ & _ & Hret).
  destruct Hret as [_ [a Ha]]; [lia|]. exists a. split; [done|].
  assert (forall n, Z_text (Z.of_N n) = N_text n) as HZ by (intros n; by destruct n).
  rewrite !HZ, <-app_assoc. simpl app.
  set (out' := out ++ _).
  assert (reach p a) as Hra 
    by (eapply (r_approximate p _ _ g (Z.to_N b)); [done| unfold is_u64, two64; lia |done|done]).
  destruct (C59_makers e h1 Hal) as (_ & Hmk & _). destruct (Hmk x g Hx Hxg) as (_ & _ & Happ & _).
  specialize (Happ b t). rewrite He in Happ.
  destruct (C59_integers p b) as (Hc & _ & _). rewrite Hc in Happ by (unfold fits_u64; lia).
  rewrite Ha in Happ. destruct Happ as (y & Ey & Hy & Hfry).
  set (h2 := <[y:=OGraph a]> h1) in *.
  assert (h2 !! y = Some (OGraph a)) as Hya by apply lookup_insert.
  assert (dbind (print_approximation e x b t) (fun _ => dret x) out' h1 =
    dbind (dbind (dcall (pbind (pyexec e (PMatrixString y)) as_str)) (fun s =>
      dbind (dcall (pyexec e (PDel y))) (fun _ => dprint s))) (fun _ => dret x) out' h2) as ->.
  { unfold print_approximation, dbind at 1. rewrite (dcall_done _ _ out' h1 y h2); [done|].
    unfold pbind. by rewrite Ey. }
  destruct (C59_texts p e h2 y Hp He Hal Hy) as [Htx _]. specialize (Htx a Hra Hya).
  unfold py_text in Htx. destruct (matrix_string p a) as [s|err].
  - exists x. split_and!; [done|done|]. unfold dbind at 1.
    rewrite (dcall_done _ _ out' h2 s h2) by by (unfold pbind; rewrite Htx).
    destruct (C59_graph_changes e h2 y a Hy Hya Hal) as (_ & _ & _ & _ & Hdely).
    rewrite (dcall_done _ _ out' _ _ _ Hdely). unfold dprint, dret, h2. by rewrite delete_insert.
  - exists h2. unfold dbind at 1. by rewrite (dcall_raise _ _ out' h2 AttributeError h2)
      by by (unfold pbind; rewrite Htx).
Qed.
Print Assumptions C78_file.

(** The files in sample-graphs/. *)
Definition shipped : list string :=
  ["./sample-graphs/ca-AstroPh.cgphrx"; "./sample-graphs/ca-HepPh.cgphrx";
   "./sample-graphs/ca-HepPh.gphrx"]%string.

Lemma dbind_done {A B} (x : dm A) (f : A -> dm B) out h out' v h' :
  dbind x f out h = (out', PyDone v h') -> exists out1 v1 h1, x out h = (out1, PyDone v1 h1) /\
    f v1 out1 h1 = (out', PyDone v h').
Proof. unfold dbind. destruct (x out h) as [out1 [v1 h1|? ?| |]]; try done. eauto. Qed.

(** With the files that are there the script never ends normally: the second graph it loads
    is missing. *)
Theorem C78_refuted e files h : (forall name, files name <> None -> name ∈ shipped) ->
  forall out v h', demo e files [] h <> (out, PyDone v h').
Proof.
  intros Hfiles out v h' H. unfold demo in H.
  apply dbind_done in H as (? & ? & ? & _ & H). apply dbind_done in H as (? & ? & ? & _ & H).
  apply dbind_done in H as (? & ? & ? & _ & H). apply dbind_done in H as (? & ? & ? & _ & H).
  apply dbind_done in H as (? & ? & ? & H & _). unfold demo_file in H.
  apply dbind_done in H as (? & ? & ? & H & _). unfold dcall in H.
  destruct (files "./sample-graphs/ca-AstroPh.gphrx"%string) eqn:E; [|done].
  assert ("./sample-graphs/ca-AstroPh.gphrx"%string ∈ shipped) as Hin by (apply Hfiles; congruence).
  unfold shipped in Hin. rewrite !elem_of_cons, elem_of_nil in Hin. naive_solver.
Qed.
Print Assumptions C78_refuted.

(** The first part of the script, 64-bit platform: all it prints, and only the graph is left. *)
Local Definition rows : list string -> string := String.concat (String "013" (String "010" "")).
Example C78_case :
  map string_of_list_ascii (fst (demo_example env64 [] ∅)) = ["GraphRox Demo"; "";
"GraphRox is a C library (with a Python wrapper) for generating approximations";
"of graphs for the purpose of fast graph calculations."; "";
"Adjacency matrix of an example graph with dimension of 9";
rows ["[ 0, 1, 0, 0, 0, 1, 0, 0, 0 ]";
  "[ 1, 0, 1, 1, 1, 1, 0, 1, 0 ]";
  "[ 0, 1, 0, 0, 0, 1, 0, 0, 0 ]";
  "[ 0, 1, 0, 0, 0, 0, 0, 0, 0 ]";
  "[ 0, 1, 0, 0, 0, 1, 0, 0, 0 ]";
  "[ 1, 1, 1, 0, 1, 1, 1, 0, 1 ]";
  "[ 0, 0, 0, 0, 0, 1, 0, 0, 0 ]";
  "[ 0, 1, 0, 0, 0, 0, 0, 0, 1 ]";
  "[ 0, 0, 0, 0, 0, 1, 0, 1, 0 ]"]; "";
"2x2-block Average Pool Matrix";
rows ["[ 0.50, 0.50, 0.75, 0.25, 0.00 ]";
  "[ 0.50, 0.00, 0.25, 0.00, 0.00 ]";
  "[ 0.75, 0.25, 0.75, 0.25, 0.25 ]";
  "[ 0.25, 0.00, 0.25, 0.00, 0.25 ]";
  "[ 0.00, 0.00, 0.25, 0.25, 0.00 ]"]; "";
"Approximation using 2x2 blocks and a threshold of 0.3";
rows ["[ 1, 1, 1, 0, 0 ]";
  "[ 1, 0, 0, 0, 0 ]";
  "[ 1, 0, 1, 0, 0 ]";
  "[ 0, 0, 0, 0, 0 ]";
  "[ 0, 0, 0, 0, 0 ]"]; "";
"3x3-block Average Pool Matrix";
rows ["[ 0.44, 0.56, 0.11 ]";
  "[ 0.56, 0.33, 0.22 ]";
  "[ 0.11, 0.22, 0.22 ]"]; "";
"Approximation using 3x3 blocks and a threshold of 0.2";
rows ["[ 1, 1, 0 ]";
  "[ 1, 1, 1 ]";
  "[ 0, 1, 1 ]"]; "";
"--------------------------------------------------------------------------------"; ""]%string /\
  match snd (demo_example env64 [] ∅) with
  | PyDone x h => exists g, h !! x = Some (OGraph g) /\ size h = 1%nat
  | _ => False
  end.
Proof.
  split; [by vm_compute|].
  assert (match snd (demo_example env64 [] ∅) with
    | PyDone x h => match h !! x with Some (OGraph _) => Nat.eqb (size h) 1 | _ => false end
    | _ => false end = true) as H by by vm_compute.
  destruct (snd (demo_example env64 [] ∅)) as [x h|? ?| |]; try done.
  destruct (h !! x) as [[g| | | | | | | | | | |]|] eqn:E; try done. exists g.
  by apply Nat.eqb_eq in H.
Qed.

(** A file that is not a graph: TypeError, nothing printed, nothing changed. *)
Example C78_bad_file : demo_file env64 (fun _ => Some [1; 2; 3]) 16 "x" "y" 5 (literal 1 2) []
    {[16 := OGraph new_directed]} = ([], PyRaise TypeError {[16 := OGraph new_directed]}).
Proof.
  destruct (C78_file plat64 env64 (fun _ => Some [1; 2; 3]) 16 new_directed "x" "y" 5 (literal 1 2)
    [1; 2; 3] [] {[16 := OGraph new_directed]}) as (r & Er & Hr); try done.
  - apply plat64_wf.
  - apply bump_alloc_wf.
  - split; [by repeat constructor|by vm_compute].
  - assert (exists err, graph_try_from plat64 [1; 2; 3] = Ret (Err err)) as [err E]
      by (eexists; vm_compute; reflexivity).
    rewrite E in Er. by injection Er as <-.
Qed.
