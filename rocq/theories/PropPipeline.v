(** Property C94: from a list of edges to a compressed file and back, with the scripts and the
    Python binding. *)
From Coq Require Import ZArith Ascii String.
From Verif Require Import Base HashIter F64 Numeric Adj Sq Standard Compressed Spec TextSpec Api CApi
  CSpec Py PySpec Script ScriptSpec AdjProofs GraphProofs PoolProofs CodecMoreProofs ScriptProofs
  PropCommon PropGraph PropCompress PropCodec PropErrors PropC PropPy PropScript.
Local Arguments N.mul : simpl never.
Local Arguments N.add : simpl never.
Local Arguments N.pow : simpl never.

(** The pair is listed, in one direction or the other. *)
Definition listed (pairs : list (Z * Z)) (x : Z * Z) : Prop := x ∈ pairs \/ (x.2, x.1) ∈ pairs.

(** The number of listed edges, counted once for each direction, that join the eight sources
    around [a] and the eight around [b]: sources are numbered in increasing order. *)
Definition block_listed (pairs : list (Z * Z)) (a b : Z) (k : N) : Prop :=
  has_card (fun x => listed pairs x /\
    rank (sources pairs) x.1 / 8 = rank (sources pairs) a / 8 /\
    rank (sources pairs) x.2 / 8 = rank (sources pairs) b / 8) k.

Lemma has_card_map {A B} (P : A -> Prop) (Q : B -> Prop) (f : A -> B) k :
  (forall x, P x -> Q (f x)) -> (forall y, Q y -> exists x, P x /\ f x = y) ->
  (forall x y, P x -> P y -> f x = f y -> x = y) -> has_card P k -> has_card Q k.
Proof.
  intros Hpq Hqp Hinj (l & Hnd & Hl & <-). exists (f <$> l). split_and!.
  - assert (forall x, x ∈ l -> P x) as Hl' by (intros x; apply Hl). clear Hl.
    induction Hnd as [|x l Hx Hnd IH]; [constructor|]. rewrite fmap_cons. constructor.
    + intros (y & E & Hy)%elem_of_list_fmap. apply Hx.
      rewrite (Hinj x y); [done|apply Hl'; left|apply Hl'; by right|done].
    + apply IH. intros y Hy. apply Hl'. by right.
  - intros y. rewrite elem_of_list_fmap. split.
    + intros (x & -> & Hx). by apply Hpq, Hl.
    + intros (x & Hx & <-)%Hqp. exists x. split; [done|]. by apply Hl.
  - by rewrite fmap_length.
Qed.
Lemma block_has_swap g b c r k : (forall u v, does_edge_exist g u v = does_edge_exist g v u) ->
  block_has g b c r k -> block_has g b r c k.
Proof.
  intros Hs. apply (has_card_map _ _ (fun x => (x.2, x.1))).
  - intros [u v] (H & H1 & H2). simpl. rewrite Hs. done.
  - intros [u v] (H & H1 & H2). exists (v, u). rewrite Hs. done.
  - intros [u v] [u' v'] _ _ [= -> ->]. done.
Qed.

(** ** C94 *)

(** A file lists pairs of numbers; every target is also a source.  graph_from_text_file turns
    it into a graph file.  validate_graph finds nothing missing in it.  compress_gphrx_file
    turns it into a compressed file.  Python loads that file and decompresses the graph.
    The result is the graph of the list, without the blocks with too few edges.  An output is
    empty when there was no memory. *)
Theorem C94_pipeline p s file pairs m z h : wf_platform p -> ce_platform (sc_env s) = p ->
  wf_alloc_fn (ce_alloc (sc_env s)) -> shows_pairs (sc_digits s) file pairs ->
  (forall a b, (a, b) ∈ pairs -> (0 <= a)%Z /\ b ∈ sources pairs) ->
  N.of_nat (length pairs) < 2 ^ 63 ->
  largest_source pairs m -> sc_array s (Z.to_N (m + 2)) = true -> sc_array s (Z.to_N (m + 1)) = true ->
  let D := sources pairs in
  let l := Z.to_N (Z.max 1 (Z.min 64 z)) in
  let d := N.min 8 (N.of_nat (size D)) in
  exists gphrx, graph_from_text_file s file h = PyDone gphrx h /\
  (gphrx <> [] -> validate_graph s file gphrx h = PyDone [] h /\
  exists cgphrx, compress_gphrx_file s z gphrx h = PyDone cgphrx h /\
  (cgphrx <> [] -> exists cg, py_hands h PyCompressed (OCompressed cg) (pyexec (sc_env s) (PCFromBytes cgphrx) h) /\
   compression_level cg = l /\
   forall h' a, a <> null -> h' !! a = Some (OCompressed cg) ->
   exists g, py_hands h' PyGraph (OGraph g) (pyexec (sc_env s) (PDecompress a) h') /\
     is_undirected g = true /\ vertex_count g = N.of_nat (size D) /\
     forall u v, does_edge_exist g u v = true <->
       exists a b k, listed pairs (a, b) /\ u = rank D a /\ v = rank D b /\
         block_listed pairs a b k /\ l * (d * d) <= 64 * k)).
Proof.
  intros Hp He Hal Hf Hall Hlen Hm Har Har1 D l d.
  destruct (C72_partial p s file pairs m h Hp He Hal Hf Hall) as
    (g & Hr & Hu & Hn & Hsur & Hedge & Hout); [|done|done|].
  { unfold u64_max, two64 in *. lia. }
  fold D in Hn, Hsur, Hedge.
  assert (forall a b, listed pairs (a, b) -> a ∈ D /\ b ∈ D) as HD.
  { intros a b [H|H]; simpl in H; (split; [|]);
      first [by apply (Hall _ _ H)|apply elem_of_sources; eexists; exact H]. }
  assert (forall u v, does_edge_exist g u v = true <->
    exists a b, listed pairs (a, b) /\ u = rank D a /\ v = rank D b) as Hex.
  { intros u v. split.
    - intros H. destruct (C04_edges_join_existing_vertices p g Hp Hr) as [_ Hb].
      destruct (Hb u v H) as [Hbu Hbv].
      destruct (Hsur u Hbu) as (a & Ha & <-). destruct (Hsur v Hbv) as (b & Hb' & <-).
      exists a, b. split; [|done]. by apply (Hedge a b).
    - intros (a & b & H & -> & ->). destruct (HD a b H). by apply (Hedge a b). }
  destruct (C05_edge_count p g Hp Hr) as (k & Hk & _).
  assert (k < two64) as Hk64.
  { destruct Hk as (L & HndL & HL & <-).
    assert (length L <= length ((fun x => (rank D x.1, rank D x.2)) <$> (pairs ++ ((fun x => (x.2, x.1)) <$> pairs))))%nat as HLe.
    { apply submseteq_length, NoDup_submseteq; [done|]. intros [u v] Huv. apply HL, Hex in Huv as (a & b & H & -> & ->).
      apply elem_of_list_fmap. exists (a, b). split; [done|]. apply elem_of_app.
      destruct H as [H|H]; [by left|right]. apply elem_of_list_fmap. exists (b, a). done. }
    rewrite fmap_length, app_length, fmap_length in HLe. unfold two64.
    change (2 ^ 64) with (2 * 2 ^ 63). lia. }
  eexists. split; [exact Hout|].
  destruct (graph_to_bytes p (ce_order1 (sc_env s)) g) as [bytes|] eqn:Eb; [|done].
  intros _.
  destruct (C16_graph_round_trip p _ g bytes k Hp Hr Hk Hk64 Eb) as [Hs Hrt].
  destruct (Hrt p Hp Hs) as (g0 & E0 & S1 & S2 & _ & S4). clear Hrt.
  split.
  { assert (exists a b, last pairs = Some (a, b)) as (a & b & Hlast).
    { destruct (last pairs) as [[a b]|] eqn:E; [eauto|]. apply last_None in E as ->.
      destruct Hm as [Hm%elem_of_sources _]. destruct Hm as [? Hm]. by apply elem_of_nil in Hm. }
    destruct (C73_output p s file pairs a b m bytes h Hp He Hal Hf) as (r & Er & Hv); try done.
    { intros x y Hxy. destruct (Hall x y Hxy) as [Hx Hy]. split; [done|].
      apply elem_of_sources in Hy as [y' Hy]. by apply (Hall y y'). }
    { unfold u64_max, two64. lia. }
    rewrite E0 in Er. injection Er as <-. destruct Hv as [_ Hv].
    assert ((a, b) ∈ pairs) as Hab by (apply last_Some in Hlast as [l' ->]; set_solver).
    destruct (Hall a b Hab) as [_ Hb].
    destruct Hv as (out & -> & Hv & _). { by apply Hm. }
    rewrite Hv; [done|]. split; [done|]. rewrite <-S4. fold D. apply Hex.
    exists a, b. split; [by left|done]. }
  destruct (C74_compress_file p s z bytes h Hp He Hal Hs) as (r & Er & Hc).
  rewrite E0 in Er. injection Er as <-. destruct Hc as (out & Eout & _ & Hc).
  exists out. split; [done|]. intros Hne. destruct (Hc Hne) as (Hso & cg & Ecg & C1 & C2 & C3 & C4).
  exists cg. destruct (C60_partial p (sc_env s) h out Hp He Hal Hso) as [_ (r & Er & Hh)].
  rewrite Ecg in Er. injection Er as <-. split_and!; [done|done|].
  intros h' x Hx Hxc. destruct (C59_makers (sc_env s) h' Hal) as (_ & _ & Hmk & _).
  destruct (Hmk x cg Hx Hxc) as [_ Hdec]. rewrite He in Hdec.
  assert (creach p cg) as Hcr by by eapply cr_try_from.
  destruct (C25_decompress_any p (ce_order1 (sc_env s)) cg Hp Hcr) as (g1 & Eg1 & D1 & D2 & D3).
  unfold py_makes in Hdec. rewrite Eg1 in Hdec.
  exists g1. split_and!; [done|congruence|congruence|].
  assert (d = N.min 8 (vertex_count g0)) as Ed by (unfold d; congruence).
  assert (forall u v, does_edge_exist g0 u v = does_edge_exist g0 v u) as Hsym.
  { intros u v. rewrite <-!S4. by apply (C03_undirected_symmetric p). }
  assert (forall a b j, a ∈ D -> b ∈ D -> block_listed pairs a b j <->
    block_has g0 8 (rank D a / 8) (rank D b / 8) j) as Hblock.
  { intros a b j Ha Hb.
    assert (forall i, block_listed pairs a b i -> block_has g0 8 (rank D a / 8) (rank D b / 8) i) as H1.
    { intros i. apply (has_card_map _ _ (fun x => (rank D x.1, rank D x.2))).
      - intros [x1 x2] (H & H1 & H2). split; [|done]. rewrite <-S4. apply Hex. by exists x1, x2.
      - intros [u v] (H & H1 & H2). rewrite <-S4 in H. apply Hex in H as (x1 & x2 & H & -> & ->).
        by exists (x1, x2).
      - intros [x1 x2] [y1 y2] (H & _) (H' & _). destruct (HD _ _ H), (HD _ _ H').
        intros [= E1 E2]. apply rank_inj in E1 as ->; [|done..]. by apply rank_inj in E2 as ->. }
    split; [apply H1|]. intros Hj.
    assert (exists i, block_listed pairs a b i) as [i Hi].
    { eexists. eexists (remove_dups (List.filter (fun x => (rank D x.1 / 8 =? rank D a / 8) && (rank D x.2 / 8 =? rank D b / 8))
        (pairs ++ ((fun x => (x.2, x.1)) <$> pairs)))). split_and!; [apply NoDup_remove_dups| |reflexivity].
      intros [x1 x2]. rewrite elem_of_remove_dups, elem_of_list_In, filter_In, <-elem_of_list_In.
      rewrite andb_true_iff, !N.eqb_eq, elem_of_app, elem_of_list_fmap. unfold listed. fold D.
      assert ((exists y : Z * Z, (x1, x2) = (y.2, y.1) /\ y ∈ pairs) <-> ((x1, x2).2, (x1, x2).1) ∈ pairs) as ->.
      { split; [intros ([y1 y2] & [= -> ->] & H); done|intros H; by exists (x2, x1)]. }
      tauto. }
    by rewrite (has_card_unique _ _ _ Hj (H1 i Hi)). }
  assert (forall u v, c_does_edge_exist cg u v = c_does_edge_exist cg v u) as Hcsym.
  { intros u v. apply eq_true_iff_eq.
    rewrite (C4 u v _ (block_has_count g0 8 (u / 8) (v / 8))).
    rewrite (C4 v u _ (block_has_swap _ _ _ _ _ Hsym (block_has_count g0 8 (u / 8) (v / 8)))).
    by rewrite (Hsym u v). }
  intros u v. rewrite D3, (Hcsym v u).
  assert (c_does_edge_exist cg u v = true \/ c_is_undirected cg = true /\ c_does_edge_exist cg u v = true <->
    c_does_edge_exist cg u v = true) as -> by tauto.
  split.
  - intros H. pose proof (block_has_count g0 8 (u / 8) (v / 8)) as Hb.
    apply (C4 u v _ Hb) in H as [H Hk']. rewrite <-S4 in H. apply Hex in H as (a & b & H & -> & ->).
    destruct (HD a b H). eexists a, b, _. split_and!; [done|done|done| |].
    + apply Hblock; [done..|exact Hb].
    + by rewrite Ed.
  - intros (a & b & j & H & -> & -> & Hj & Hle). destruct (HD a b H).
    apply Hblock in Hj; [|done..]. apply (C4 _ _ j Hj). split; [|by rewrite <-Ed].
    rewrite <-S4. apply Hex. by exists a, b.
Qed.
Print Assumptions C94_pipeline.

(** With a threshold of at most 1 nothing is lost: the graph is that of the list. *)
Theorem C94_lossless p s file pairs m z h : wf_platform p -> ce_platform (sc_env s) = p ->
  wf_alloc_fn (ce_alloc (sc_env s)) -> shows_pairs (sc_digits s) file pairs ->
  (forall a b, (a, b) ∈ pairs -> (0 <= a)%Z /\ b ∈ sources pairs) ->
  N.of_nat (length pairs) < 2 ^ 63 ->
  largest_source pairs m -> sc_array s (Z.to_N (m + 2)) = true -> sc_array s (Z.to_N (m + 1)) = true ->
  (z <= 1)%Z ->
  let D := sources pairs in
  exists gphrx, graph_from_text_file s file h = PyDone gphrx h /\
  (gphrx <> [] ->
  exists cgphrx, compress_gphrx_file s z gphrx h = PyDone cgphrx h /\
  (cgphrx <> [] -> exists cg, py_hands h PyCompressed (OCompressed cg) (pyexec (sc_env s) (PCFromBytes cgphrx) h) /\
   forall h' a, a <> null -> h' !! a = Some (OCompressed cg) ->
   exists g, py_hands h' PyGraph (OGraph g) (pyexec (sc_env s) (PDecompress a) h') /\
     is_undirected g = true /\ vertex_count g = N.of_nat (size D) /\
     forall u v, does_edge_exist g u v = true <->
       exists a b, listed pairs (a, b) /\ u = rank D a /\ v = rank D b)).
Proof.
  intros Hp He Hal Hf Hall Hlen Hm Har Har1 Hz D.
  destruct (C94_pipeline p s file pairs m z h Hp He Hal Hf Hall Hlen Hm Har Har1) as (gphrx & E & H).
  exists gphrx. split; [done|]. intros Hne. destruct (H Hne) as (_ & c & Ec & Hc). clear H.
  exists c. split; [done|]. intros Hcne. destruct (Hc Hcne) as (cg & Hcg & _ & Hd). clear Hc.
  exists cg. split; [done|]. intros h' a Ha Hl. destruct (Hd h' a Ha Hl) as (g & Hg & Hu & Hn & Hex).
  exists g. split_and!; [done..|]. intros u v. rewrite Hex. split.
  - intros (x & y & k & H1 & H2 & H3 & _). by exists x, y.
  - intros (x & y & H1 & -> & ->).
    set (P := fun w : Z * Z => listed pairs w /\ rank D w.1 / 8 = rank D x / 8 /\ rank D w.2 / 8 = rank D y / 8).
    set (L := remove_dups (List.filter (fun w => (rank D w.1 / 8 =? rank D x / 8) && (rank D w.2 / 8 =? rank D y / 8))
        (pairs ++ ((fun w => (w.2, w.1)) <$> pairs)))).
    assert (forall w, w ∈ L <-> P w) as HL.
    { intros [x1 x2]. unfold L. rewrite elem_of_remove_dups, elem_of_list_In, filter_In, <-elem_of_list_In.
      rewrite andb_true_iff, !N.eqb_eq, elem_of_app, elem_of_list_fmap. unfold P, listed.
      assert ((exists y : Z * Z, (x1, x2) = (y.2, y.1) /\ y ∈ pairs) <-> ((x1, x2).2, (x1, x2).1) ∈ pairs) as ->.
      { split; [intros ([y1 y2] & [= -> ->] & H); done|intros H; by exists (x2, x1)]. }
      tauto. }
    exists x, y, (N.of_nat (length L)). split_and!; [done|done|done| |].
    + exists L. split_and!; [apply NoDup_remove_dups|exact HL|done].
    + assert ((x, y) ∈ L) as Hin by (by apply HL).
      assert (0 < length L)%nat as Hpos by (destruct L; [by apply elem_of_nil in Hin|simpl; lia]).
      replace (Z.to_N (Z.max 1 (Z.min 64 z))) with 1 by lia. fold D. clearbody L D.
      assert (N.min 8 (N.of_nat (size D)) * N.min 8 (N.of_nat (size D)) <= 8 * 8) by (apply N.mul_le_mono; lia).
      lia.
Qed.
Print Assumptions C94_lossless.

(** The whole way, for the edges of a triangle and a loop: with threshold 1 all of them come
    back, with threshold 50 none (7 edges where 9 vertex pairs need 7.03). *)
Definition through (z : Z) (file : text) : option (list text * N * N * list bool) :=
  match graph_from_text_file sc64 file ∅ with
  | PyDone gphrx h =>
      match validate_graph sc64 file gphrx h, compress_gphrx_file sc64 z gphrx h with
      | PyDone missing _, PyDone cgphrx _ =>
          match pyrun [PCFromBytes cgphrx; PDecompress 18] ∅ with
          | PyDone [PyCompressed 18; PyGraph a] h =>
              match h !! a with
              | Some (OGraph g) => Some (missing, vertex_count g, edge_count g,
                  (fun '(u, v) => does_edge_exist g u v) <$> [(0, 1); (1, 0); (2, 2); (1, 1)])
              | _ => None
              end
          | _ => None
          end
      | _, _ => None
      end
  | _ => None
  end.
Definition triangle_file : text := lines ["# a triangle and a loop"; "30 12"; "7 30"; "12 7"; "30 30"]%string.
Example C94_case : through 1 triangle_file = Some ([], 3, 7, [true; true; true; false]) /\
  through 49 triangle_file = Some ([], 3, 7, [true; true; true; false]) /\
  through 50 triangle_file = Some ([], 3, 0, [false; false; false; false]).
Proof. split_and!; vm_compute; reflexivity. Qed.

Example C94_premises : let pairs := [(30, 12); (7, 30); (12, 7); (30, 30)]%Z in
  shows_pairs (sc_digits sc64) triangle_file pairs /\
  (forall a b, (a, b) ∈ pairs -> (0 <= a)%Z /\ b ∈ sources pairs) /\
  largest_source pairs 30 /\ size (sources pairs) = 3%nat.
Proof.
  intros pairs. split_and!.
  - apply (line_of _ _ []). { apply line_comment. repeat (constructor; [done|]). constructor. }
    apply (line_of _ "30 12" [(30, 12)]%Z _ [(7, 30); (12, 7); (30, 30)]%Z);
      [by apply (simple_line _ "30 12" ["3"; "0"]%char ["1"; "2"]%char); try (intros n [= <-])|].
    apply (line_of _ "7 30" [(7, 30)]%Z _ [(12, 7); (30, 30)]%Z);
      [by apply (simple_line _ "7 30" ["7"]%char ["3"; "0"]%char); try (intros n [= <-])|].
    apply (line_of _ "12 7" [(12, 7)]%Z _ [(30, 30)]%Z);
      [by apply (simple_line _ "12 7" ["1"; "2"]%char ["7"]%char); try (intros n [= <-])|].
    apply (line_of _ "30 30" [(30, 30)]%Z [] []); [|apply line_none].
    by apply (simple_line _ "30 30" ["3"; "0"]%char ["3"; "0"]%char); try (intros n [= <-]).
  - unfold pairs, sources. intros a b Hab. simpl. set_unfold.
    destruct Hab as [[= -> ->]|[[= -> ->]|[[= -> ->]|[[= -> ->]|[]]]]]; (split; [lia|tauto]).
  - unfold pairs. split; [unfold sources; set_solver|]. intros a [b Hab]%elem_of_sources. set_unfold.
    destruct Hab as [[= -> _]|[[= -> _]|[[= -> _]|[[= -> _]|[]]]]]; lia.
  - vm_compute. reflexivity.
Qed.
