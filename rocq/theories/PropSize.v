(** Properties C83 and C84: how long the files of compressed graphs are, and that the two
    kinds of files cannot be taken for one another. *)
From Coq Require Import ZArith Ascii String.
From Verif Require Import Base HashIter F64 Numeric Adj Sq Standard Compressed Spec ErrSpec Api
  AdjProofs SqProofs GraphProofs BitsProofs CompressProofs BytesProofs GraphCodecProofs
  CGraphCodecProofs ApproxProofs CodecMoreProofs PropCommon PropCompress PropCodec ErrProofs PropErrors.
Local Arguments N.mul : simpl never.
Local Arguments N.add : simpl never.
Local Arguments N.pow : simpl never.

(** ** C83 *)

Lemma ones_between a b l : (forall w c r, (w, c, r) ∈ l -> a <= 64 * count_ones w /\ count_ones w <= b) ->
  a * N.of_nat (length l) <= 64 * ones_total l /\ ones_total l <= b * N.of_nat (length l).
Proof.
  induction l as [|[[w c] r] l IH]; intros H; [simpl; lia|].
  destruct IH as [IH1 IH2]; [intros; eapply H; by right|].
  destruct (H w c r) as [H1 H2]; [by left|]. rewrite ones_total_cons. simpl length. lia.
Qed.

(** At most B * B cells in a square of B rows and columns. *)
Lemma cells_le B k (P : N * N -> Prop) : has_card P k -> (forall c r, P (c, r) -> c < B /\ r < B) ->
  k <= B * B.
Proof.
  intros (l & Hnd & Hl & <-) HP.
  assert (length ((fun '(c, r) => (c * B + r)%N) <$> l) <= length (range (B * B)%N))%nat as H.
  { apply submseteq_length, NoDup_submseteq.
    - assert (forall c r, (c, r) ∈ l -> c < B /\ r < B) as Hb by (intros c r H; by apply HP, Hl).
      clear Hl HP. induction Hnd as [|[c r] l Hin Hnd IH]; [constructor|].
      rewrite fmap_cons. constructor; [|apply IH; intros; apply Hb; by right].
      rewrite elem_of_list_fmap. intros ([c' r'] & E & Hin').
      destruct (Hb c r) as [_ Hr]; [by left|]. destruct (Hb c' r') as [_ Hr']; [by right|].
      assert (c = c') as <-.
      { transitivity ((c * B + r) / B); [apply (N.div_unique _ B c r); lia|].
        rewrite E. symmetry. apply (N.div_unique _ B c' r'); lia. }
      assert (r = r') as <- by lia. done.
    - intros x. rewrite elem_of_list_fmap, elem_of_range. intros ([c r] & -> & Hin).
      destruct (HP c r) as [Hc Hr]; [by apply Hl|]. nia. }
  rewrite fmap_length, length_range in H. lia.
Qed.

Lemma stored_card o cg : cg_inv cg ->
  has_card (fun '(c, r) => get_compressed_matrix_entry cg c r <> 0)
    (N.of_nat (length (sq_items o (cg_mat cg)))).
Proof.
  intros Hi. rewrite <- (fmap_length (fun '(e, c, r) => (c, r)) (sq_items o (cg_mat cg))).
  eapply has_card_ext; [|apply has_card_list, (NoDup_sq_items_keys o), Hi].
  intros [c r]. rewrite elem_of_list_fmap, c_get_entry_val. split.
  - intros ([[w c'] r'] & [= -> ->] & Hin). apply elem_of_sq_items in Hin; [|apply Hi].
    rewrite Hin. simpl. by apply (ci_word _ Hi _ _ _ Hin).
  - destruct (sq_val (cg_mat cg) c r) as [w|] eqn:E; [|done]. intros _. exists (w, c, r).
    split; [done|]. apply elem_of_sq_items; [apply Hi|done].
Qed.

(** The number of words a compressed graph stores, against the edges of the graph and of the
    compressed graph. *)
Theorem C83_words p o1 o2 g l cg k k' j : wf_platform p -> reach p g ->
  compress p o1 o2 g l = Ret cg ->
  has_card (fun '(u, v) => does_edge_exist g u v = true) k ->
  has_card (fun '(u, v) => c_does_edge_exist cg u v = true) k' ->
  has_card (fun '(c, r) => get_compressed_matrix_entry cg c r <> 0) j ->
  let level := N.max 1 (N.min l 64) in
  let b := N.min 8 (vertex_count g) in
  j <= k' /\ k' <= k /\ k' <= 64 * j /\ level * (b * b) * j <= 64 * k' /\
  (8 <= vertex_count g -> level * j <= k') /\
  j <= blocks_of (vertex_count g) * blocks_of (vertex_count g).
Proof.
  intros Hp Hr Hc Hk Hk' Hj level b. apply reach_inv in Hr; [|done].
  destruct (compress_spec p o1 o2 g l Hr) as (cg0 & Hc0 & Hco).
  rewrite Hc in Hc0. injection Hc0 as <-.
  pose proof (co_inv _ _ _ Hco) as Hi.
  set (o := plain_order). set (items := sq_items o (cg_mat cg)).
  assert (k' = ones_total items) as Ek.
  { eapply has_card_unique; [exact Hk'|]. by apply c_has_card. }
  assert (j = N.of_nat (length items)) as Ej.
  { eapply has_card_unique; [exact Hj|]. by apply stored_card. }
  assert (forall w c r, (w, c, r) ∈ items ->
    w <> 0 /\ w < two64 /\ level * (b * b) <= 64 * count_ones w) as Hitem.
  { intros w c r Hin. apply elem_of_sq_items in Hin; [|apply Hi].
    destruct (ci_word _ Hi _ _ _ Hin) as [? ?]. split_and!; [done|done|].
    rewrite (co_val _ _ _ Hco) in Hin. destruct (kept g l c r) eqn:Ekept; [|done].
    injection Hin as <-. rewrite block_word_ones. unfold kept in Ekept.
    apply andb_true_iff in Ekept as [_ Ekept]. apply N.leb_le in Ekept.
    by rewrite clamp_level_eq in Ekept. }
  destruct (ones_between (level * (b * b)) 64 items) as [H1 H2].
  { intros w c r Hin. destruct (Hitem w c r Hin) as (H0 & H64 & Hw). split; [done|].
    rewrite <- popcount_ones by done. unfold popcount.
    pose proof (filter_length (fun i => N.testbit w i = true) (range 64)) as Hf.
    rewrite length_range in Hf. lia. }
  assert (j <= k') as Hjk.
  { rewrite Ek, Ej. apply length_le_ones. intros w c r Hin. by apply (Hitem w c r Hin). }
  split_and!.
  - done.
  - eapply has_card_le; [exact Hk'|exact Hk|]. intros [u v]. rewrite (compress_exists g l cg) by done.
    intros Huv. by apply andb_true_iff in Huv as [? _].
  - rewrite Ek, Ej. done.
  - rewrite Ek, Ej. done.
  - intros Hn. replace b with 8 in H1 by (unfold b; lia). rewrite Ek, Ej. lia.
  - apply (cells_le _ _ _ Hj). intros c r Hne. rewrite <- (co_n _ _ _ Hco), blocks_of_dim, <- (ci_dim _ Hi).
    rewrite c_get_entry_val in Hne. destruct (sq_val (cg_mat cg) c r) as [w|] eqn:E; [|done].
    apply (si_bound _ (ci_sq _ Hi)). by rewrite E.
Qed.
Print Assumptions C83_words.

(** So many bytes, when there is memory to write the files. *)
Theorem C83_exact p o1 o2 o3 o4 g l cg k gb cb : wf_platform p -> reach p g -> is_byte l ->
  compress p o1 o2 g l = Ret cg ->
  has_card (fun '(u, v) => does_edge_exist g u v = true) k -> k < two64 ->
  graph_to_bytes p o3 g = Ok gb -> cgraph_to_bytes p o4 cg = Ok cb ->
  let level := N.max 1 (N.min l 64) in
  let size (l : list N) := N.of_nat (length l) in
  size gb = 26 + 16 * k /\
  (exists j, size cb = 42 + 24 * j /\ j <= k /\ (8 <= vertex_count g -> level * j <= k) /\
     j <= blocks_of (vertex_count g) * blocks_of (vertex_count g) /\
     has_card (fun '(c, r) => get_compressed_matrix_entry cg c r <> 0) j /\
     (size cb <= size gb <-> 3 * j + 2 <= 2 * k)).
Proof.
  intros Hp Hr Hlb Hc Hk Hk64 Hgb Hcb level size.
  pose proof (C17_graph_layout p o3 g k Hp Hr Hk Hk64) as Hg.
  assert (creach p cg) as Hcr by by eapply cr_compress.
  pose proof (creach_inv p cg Hp Hcr) as Hi.
  pose proof (stored_card plain_order cg Hi) as Hj.
  set (j := N.of_nat (length (sq_items plain_order (cg_mat cg)))) in *.
  destruct (C83_words p o1 o2 g l cg k _ j Hp Hr Hc Hk (c_has_card plain_order cg Hi) Hj)
    as (H1 & H2 & _ & _ & H3 & H4).
  assert (j < two64) as Hj64 by lia.
  pose proof (C31_cgraph_layout p o4 cg j Hp Hcr Hj Hj64) as Hl.
  assert (size gb = 26 + 16 * k) as Sg.
  { destruct (_ && _) in Hg.
    - destruct Hg as (bytes & l' & E & _ & _ & _ & Hlen). rewrite Hgb in E. by injection E as ->.
    - destruct Hg as [msg E]. by rewrite Hgb in E. }
  assert (size cb = 42 + 24 * j) as Sc.
  { destruct (_ && _) in Hl.
    - destruct Hl as (bytes & l' & E & _ & _ & _ & Hlen). rewrite Hcb in E. by injection E as ->.
    - destruct Hl as [msg E]. by rewrite Hcb in E. }
  split; [done|]. exists j. split_and!; [done|lia| |done|done|rewrite Sg, Sc; lia].
  intros Hn. apply H3 in Hn. unfold level. lia.
Qed.
Print Assumptions C83_exact.

(** C83 is false of the code at level 1: a block with one edge takes 24 bytes instead of 16.
    Here five edges take 106 bytes, and 162 when compressed. *)
Definition scattered : graph := run false ((fun i => OpAddEdge (8 * i) 0) <$> range 5).
Theorem C83_refuted : exists p o g cg gb cb, wf_platform p /\ reach p g /\
  compress p o o g 1 = Ret cg /\ graph_to_bytes p o g = Ok gb /\ cgraph_to_bytes p o cg = Ok cb /\
  (length gb < length cb)%nat.
Proof.
  destruct (ret_ex (compress plat64 plain_order plain_order scattered 1) (fun cg =>
    match graph_to_bytes plat64 plain_order scattered, cgraph_to_bytes plat64 plain_order cg with
    | Ok gb, Ok cb => (length gb = 106 /\ length cb = 162)%nat
    | _, _ => False
    end)) as (cg & Hc & H); [by vm_compute|].
  destruct (graph_to_bytes _ _ _) as [gb|] eqn:Hgb; [|destruct H].
  destruct (cgraph_to_bytes _ _ _) as [cb|] eqn:Hcb; [|destruct H].
  exists plat64, plain_order, scattered, cg, gb, cb.
  split_and!; [apply plat64_wf|by apply reach_runb|exact Hc|exact Hgb|exact Hcb|].
  destruct H as [-> ->]. lia.
Qed.
Print Assumptions C83_refuted.

(** True from level 2 and four edges on.  Missing from C83: level 1, and graphs with fewer
    than four edges. *)
Theorem C83_partial p o1 o2 o3 o4 g l cg k gb cb : wf_platform p -> reach p g -> is_byte l ->
  compress p o1 o2 g l = Ret cg -> 2 <= l ->
  has_card (fun '(u, v) => does_edge_exist g u v = true) k -> 4 <= k < two64 ->
  graph_to_bytes p o3 g = Ok gb -> cgraph_to_bytes p o4 cg = Ok cb ->
  (length cb <= length gb)%nat.
Proof.
  intros Hp Hr Hlb Hc Hl Hk Hk4 Hgb Hcb.
  destruct (C83_exact p o1 o2 o3 o4 g l cg k gb cb) as (H1 & j & H2 & _ & H3 & H4 & _); [done..|lia|done|done|].
  destruct (N.le_gt_cases 8 (vertex_count g)) as [Hn|Hn].
  - specialize (H3 Hn). nia.
  - assert (blocks_of (vertex_count g) = 1) as E.
    { unfold blocks_of. assert ((vertex_count g + 7) / 8 <= 1); [|lia].
      apply N.lt_succ_r, N.div_lt_upper_bound; lia. }
    rewrite E in H4. lia.
Qed.
Print Assumptions C83_partial.

(** At level 2 the bound is reached: eight edges in four blocks. *)
Definition in_pairs : graph := run false ((fun i => OpAddEdge (4 * i) (i mod 2)) <$> range 8).
Example C83_case : reach plat64 in_pairs /\ edge_count in_pairs = 8 /\ vertex_count in_pairs = 29 /\
  exists cg, compress plat64 plain_order plain_order in_pairs 2 = Ret cg /\
  match graph_to_bytes plat64 plain_order in_pairs, cgraph_to_bytes plat64 plain_order cg with
  | Ok gb, Ok cb => (length gb = 154 /\ length cb = 138)%nat
  | _, _ => False
  end.
Proof. split_and!; [by apply reach_runb|by vm_compute|by vm_compute|]. apply ret_ex. by vm_compute. Qed.

(** ** C84 *)

Lemma reports_first P msg l res : reports ((P, msg) :: l) res ->
  P /\ res = Some msg \/ ~ P /\ reports l res.
Proof. inversion 1; subst; eauto. Qed.

Lemma second_report {A} (P Q : Prop) (m1 m2 : string) l (res : result A) :
  Q -> reported ((P, m1) :: (Q, m2) :: l) res ->
  exists msg, res = Err (InvalidFormat msg) /\ (P /\ msg = m1 \/ ~ P /\ msg = m2).
Proof.
  intros HQ H. destruct res as [a|e]; [|destruct H as (msg & -> & H)].
  - apply reports_first in H as [[_ [=]]|[_ H]]. by apply reports_first in H as [[_ [=]]|[[] _]].
  - exists msg. split; [done|]. apply reports_first in H as [[? [= ->]]|[? H]]; [by left|right].
    by apply reports_first in H as [[_ [= ->]]|[[] _]].
Qed.

(** A file of one kind given to the other decoder. *)
Theorem C84_graph_as_compressed p und n count l : wf_platform p ->
  is_slice p (graph_file und n count l) ->
  cgraph_try_from p (graph_file und n count l) =
    Ret (Err (InvalidFormat (if (length l =? 0)%nat
      then "Slice is too short to contain CompressedGraph header" else "Incorrect magic number"))).
Proof.
  intros Hp Hs. destruct (C70_cgraph_decoding p _ Hp Hs) as (res & -> & H).
  assert (field (graph_file und n count l) 0 4 = 0x7ae71ffd) as Hf by done.
  apply second_report in H as (msg & -> & H); [|by rewrite Hf].
  rewrite length_graph_file in H. do 3 f_equal.
  destruct l as [|x l]; simpl length in *; simpl; destruct H as [[? ->]|[? ->]]; try done; lia.
Qed.
Print Assumptions C84_graph_as_compressed.

Theorem C84_compressed_as_graph p und dim count ec n level l : wf_platform p ->
  is_slice p (cgraph_file und dim count ec n level l) ->
  graph_try_from p (cgraph_file und dim count ec n level l) =
    Ret (Err (InvalidFormat "Incorrect magic number")).
Proof.
  intros Hp Hs. destruct (C70_graph_decoding p _ Hp Hs) as (res & -> & H).
  assert (field (cgraph_file und dim count ec n level l) 0 4 = 0x71ff7aed) as Hf by done.
  apply second_report in H as (msg & -> & H); [|by rewrite Hf].
  rewrite length_cgraph_file in H. destruct H as [[? ->]|[? ->]]; [lia|done].
Qed.
Print Assumptions C84_compressed_as_graph.

(** No bytes are both. *)
Theorem C84_kinds p p' bytes g cg : wf_platform p -> wf_platform p' -> is_slice p bytes ->
  is_slice p' bytes -> graph_try_from p bytes = Ret (Ok g) -> cgraph_try_from p' bytes <> Ret (Ok cg).
Proof.
  intros Hp Hp' Hs Hs' Hg Hc. destruct (C18_graph_decoding p bytes Hp Hs) as (res & Hres & H).
  rewrite Hg in Hres. injection Hres as <-. destruct H as (und & n & l & -> & _).
  rewrite C84_graph_as_compressed in Hc by done. by destruct (_ =? _)%nat.
Qed.
Print Assumptions C84_kinds.

Example C84_case : let file := graph_file false 9 1 [(2, 8)] in
  let cfile := cgraph_file false 2 1 1 9 1 [(4, 0, 1)] in
  (exists g, graph_try_from plat64 file = Ret (Ok g) /\ does_edge_exist g 2 8 = true) /\
  cgraph_try_from plat64 file = Ret (Err (InvalidFormat "Incorrect magic number")) /\
  (exists cg, cgraph_try_from plat64 cfile = Ret (Ok cg) /\ c_does_edge_exist cg 2 8 = true) /\
  graph_try_from plat64 cfile = Ret (Err (InvalidFormat "Incorrect magic number")).
Proof. split_and!; [apply ret_ok_ex|..|apply ret_ok_ex|]; by vm_compute. Qed.
