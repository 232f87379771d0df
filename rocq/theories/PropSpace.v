(** Property C100: the memory that is asked for is exactly filled. *)
From Coq Require Import Ascii String.
From Verif Require Import Base HashIter F64 Numeric Adj Sq Standard Compressed Spec Api
  HashIterProofs AdjProofs SqProofs GraphProofs BitsProofs CompressProofs BytesProofs
  GraphCodecProofs CGraphCodecProofs ApproxProofs CodecMoreProofs TextSpec TextProofs SqTextProofs
  ErrProofs PropCommon PropCodec.

Local Arguments N.mul : simpl never.
Local Arguments N.add : simpl never.

(** The same platform with memory for one request: [n] bytes, no more and no less. *)
Definition only (p : platform) (n : N) : platform :=
  Platform (usize_max p) (overflow_checks p) (fun k => k =? n).

(** ** Lemmas *)

Lemma template_length p dim es lp rows st st' :
  ofold (fun st row => sq_template_row p dim es lp row st) rows st = Ret st' ->
  length st'.1 = length st.1.
Proof.
  assert (forall (A : Type) (f : list ascii * N -> A -> outcome (list ascii * N)) l st st',
    (forall st x st', f st x = Ret st' -> length st'.1 = length st.1) ->
    ofold f l st = Ret st' -> length st'.1 = length st.1) as Hfold.
  { intros A f l. induction l as [|x l IH]; intros a a' Hf H; cbn [ofold] in H; [by injection H as ->|].
    destruct (f a x) as [b| |] eqn:E; [|done..]. cbn [obind] in H.
    rewrite (IH _ _ Hf H). by eapply Hf. }
  apply Hfold. clear - Hfold. intros st row st' H. unfold sq_template_row in H.
  destruct (buf_put st _) as [s1| |] eqn:E1; [|done..]. cbn [obind] in H.
  destruct (buf_put s1 _) as [s2| |] eqn:E2; [|done..]. cbn [obind] in H.
  destruct (ofold _ _ s2) as [s3| |] eqn:E3; [|done..]. cbn [obind] in H.
  destruct (buf_put s3 _) as [s4| |] eqn:E4; [|done..]. cbn [obind] in H.
  apply buf_put_length in E1, E2, E4.
  apply Hfold in E3.
  2:{ clear - Hfold. intros st col st' H. unfold sq_template_cell in H.
      destruct (usize_add _ _ _) as [dot| |]; [|done..]. cbn [obind] in H.
      destruct (ofold _ _ st) as [s1| |] eqn:E1; [|done..]. cbn [obind] in H.
      apply Hfold in E1; [|intros ???; apply buf_put_length].
      destruct (negb _).
      - destruct (buf_put s1 _) as [s2| |] eqn:E2; [|done..]. cbn [obind] in H.
        apply buf_put_length in E2, H. lia.
      - cbn [obind] in H. apply buf_put_length in H. lia. }
  destruct (negb _).
  - destruct (buf_put s4 _) as [s5| |] eqn:E5; [|done..]. cbn [obind] in H.
    apply buf_put_length in E5, H. lia.
  - injection H as <-. lia.
Qed.

(** ** C100 *)

(** The bytes of a graph. *)
Theorem C100_graph p o g k bytes n : wf_platform p -> reach p g ->
  has_card (fun '(u, v) => does_edge_exist g u v = true) k -> k < two64 ->
  graph_to_bytes p o g = Ok bytes ->
  graph_to_bytes (only p n) o g =
    if n =? N.of_nat (length bytes) then Ok bytes
    else Err (CapacityOverflow "Unable to allocate graph bytes").
Proof.
  intros Hp Hr Hk Hk64 E. pose proof (C17_graph_layout p o g k Hp Hr Hk Hk64) as H.
  destruct (_ && _) eqn:Ef; [|destruct H as [msg H]; congruence].
  destruct H as (b & l & Eb & _ & _ & _ & Hlen). rewrite E in Eb. injection Eb as <-.
  apply reach_inv in Hr; [|done].
  assert (edge_count g = k) as Hec by (rewrite (edge_count_card g k), N.mod_small; done).
  unfold graph_to_bytes in *. 
  change (graph_bytes_size (only p n) g) with (graph_bytes_size p g).
  rewrite graph_bytes_size_eq, Hec in * by done.
  apply andb_true_iff in Ef as [Ef Ea]. rewrite Ef in *. cbn [rbind] in *. rewrite Ea in E.
  cbn [can_alloc only]. rewrite Hlen, N.eqb_sym. destruct (_ =? _); [exact E|done].
Qed.
Print Assumptions C100_graph.

(** The bytes of a compressed graph, obtained through the safe interface or with the builder. *)
Theorem C100_cgraph p o cg k bytes n : wf_platform p ->
  creach p cg \/ (exists und nv level calls, is_u64 nv /\
    (forall e c r h, (e, c, r, h) ∈ calls -> is_u64 e) /\ cg = build und nv level calls) ->
  has_card (fun '(c, r) => get_compressed_matrix_entry cg c r <> 0) k -> k < two64 ->
  cgraph_to_bytes p o cg = Ok bytes ->
  cgraph_to_bytes (only p n) o cg =
    if n =? N.of_nat (length bytes) then Ok bytes
    else Err (CapacityOverflow "Unable to allocate compressed graph bytes").
Proof.
  intros Hp Hr Hk Hk64 E.
  assert (can_alloc p (42 + 24 * k) = true /\ 42 + 24 * k <= usize_max p /\
    N.of_nat (length bytes) = 42 + 24 * k) as (Ea & Ef & Hlen).
  { destruct Hr as [Hr|(und & nv & level & calls & Hn & He & ->)].
    - pose proof (C31_cgraph_layout p o cg k Hp Hr Hk Hk64) as H.
      destruct (_ && _) eqn:Ef; [|destruct H as [msg H]; congruence].
      destruct H as (b & l & Eb & _ & _ & _ & Hlen). rewrite E in Eb. injection Eb as <-.
      apply andb_true_iff in Ef as [Ef Ea]. apply N.leb_le in Ef. done.
    - pose proof (C31_builder_layout p o und nv level calls k Hp Hn He Hk Hk64) as H.
      destruct (_ && _) eqn:Ef; [|destruct H as [msg H]; congruence].
      destruct H as (b & l & Eb & _ & _ & _ & Hlen). rewrite E in Eb. injection Eb as <-.
      apply andb_true_iff in Ef as [Ef Ea]. apply N.leb_le in Ef. done. }
  assert (cgraph_bytes_size p cg = Ok (42 + 24 * sq_cnt (cg_mat cg))) as Es.
  { unfold cgraph_to_bytes in E. rewrite cgraph_bytes_size_eq in * by done. by destruct (_ <=? _). }
  assert (sq_cnt (cg_mat cg) = k) as Hc.
  { assert (sq_inv (cg_mat cg)) as Hi.
    { destruct Hr as [Hr|(und & nv & level & calls & Hn & He & ->)].
      - apply creach_inv in Hr; [|done]. apply Hr.
      - by apply build_spec. }
    apply cgraph_to_bytes_file in E. rewrite E, length_cgraph_file, length_sq_items in Hlen by done.
    rewrite (si_cnt _ Hi), N.mod_small; lia. }
  unfold cgraph_to_bytes in *.
  change (cgraph_bytes_size (only p n) cg) with (cgraph_bytes_size p cg).
  rewrite Es, Hc in *. cbn [rbind] in *. rewrite Ea in E.
  cbn [can_alloc only]. rewrite Hlen, N.eqb_sym. destruct (_ =? _); [exact E|done].
Qed.
Print Assumptions C100_cgraph.

(** The text of an adjacency matrix, whatever its contents. *)
Theorem C100_adjacency p m s n : adj_try_to_string p m = Ok s ->
  adj_try_to_string (only p n) m =
    if (adj_dimension m =? 0) || (n =? N.of_nat (length s)) then Ok s
    else Err (CapacityOverflow "Unable to allocate matrix string").
Proof.
  intros E. unfold adj_try_to_string, adj_dimension in *.
  destruct (N.eqb_spec (adj_dim m) 0) as [|Hn]; [done|]. cbn [orb].
  change (adj_text_size (only p n) m) with (adj_text_size p m).
  pose proof (adj_text_size_eq p m Hn) as Hs. cbv zeta in Hs.
  destruct (_ <=? _); [|destruct Hs as [msg Hs]; rewrite Hs in E; done].
  rewrite Hs in *. cbn [rbind] in *. destruct (can_alloc p _); [|done]. injection E as <-.
  cbn [can_alloc only]. rewrite adj_render_text by done.
  rewrite (matrix_text_length _ _ 1) by (intros; try apply adj_cell_length; done).
  rewrite N.eqb_sym.
  replace ((N.of_nat 1 + 2) * (adj_dim m * adj_dim m) + 4 * adj_dim m - 2)
    with (3 * (adj_dim m * adj_dim m) + 4 * adj_dim m - 2) by (simpl; lia).
  by destruct (_ =? _).
Qed.
Print Assumptions C100_adjacency.

(** The text of a square matrix, whatever its numbers and contents, and also where sizes wrap. *)
Theorem C100_square {T} p (num : numeric T) o m d s n :
  sq_to_string_with_precision p num o m d = Ret (Ok s) ->
  sq_to_string_with_precision (only p n) num o m d =
    Ret (if (sq_dimension m =? 0) || (n =? N.of_nat (length s)) then Ok s
         else Err (CapacityOverflow "Unable to allocate matrix string")).
Proof.
  intros E. unfold sq_to_string_with_precision, sq_dimension in *.
  destruct (N.eqb_spec (sq_dim m) 0) as [|Hn]; [by rewrite E|]. cbn [orb].
  destruct (sq_extremes num o m) as [hi lo].
  set (size0 := if num_digits num lo <? num_digits num hi then _ else _) in *.
  change (usize_add (only p n)) with (usize_add p).
  change (usize_sub (only p n)) with (usize_sub p).
  change (usize_mul (only p n)) with (usize_mul p).
  change (@sq_write_cell T (only p n)) with (@sq_write_cell T p).
  change (sq_template_row (only p n)) with (sq_template_row p).
  change (sq_text_size (only p n)) with (sq_text_size p).
  destruct (if num_has_decimal num || (0 <? d) then obind (usize_add p 1 d) (usize_add p size0) else Ret size0)
    as [es| |]; [|done..]. cbn [obind] in *.
  destruct (if num_has_decimal num || (0 <? d) then obind (usize_add p 1 d) (usize_add p 1) else Ret 1)
    as [sec| |]; [|done..]. cbn [obind] in *.
  destruct (usize_sub p es sec) as [lp| |]; [|done..]. cbn [obind] in *.
  destruct (usize_add p es 2) as [cpe| |]; [|done..]. cbn [obind] in *.
  destruct (sq_text_size p (sq_dim m) cpe) as [[dim size]|e]; [|done].
  destruct (can_alloc p size); [|done]. cbn [negb] in *.
  destruct (ofold _ _ (replicate _ _, 0)) as [st| |] eqn:E1; [|done..]. cbn [obind] in *.
  destruct (obind (usize_mul p dim cpe) (usize_add p 4)) as [cpr| |]; [|done..]. cbn [obind] in *.
  destruct (ofold _ (sq_cells o m) st.1) as [buf| |] eqn:E2; [|done..]. cbn [obind] in *.
  apply template_length in E1. apply write_length in E2.
  destruct (utf8_ok buf); [|done]. injection E as ->.
  cbn [can_alloc only]. rewrite E2, E1. simpl. rewrite replicate_length, N2Nat.id, N.eqb_sym.
  by destruct (_ =? _).
Qed.
Print Assumptions C100_square.

(** A graph of seven edges is written with 138 bytes of memory and not with 139; the text of a
    matrix of three columns takes 37 bytes. *)
Example C100_case :
  (exists bytes, graph_to_bytes (only plat64 138) reversed_order sample_und = Ok bytes /\
     length bytes = 138%nat) /\
  graph_to_bytes (only plat64 139) reversed_order sample_und =
    Err (CapacityOverflow "Unable to allocate graph bytes") /\
  (let m := adj_set_entry adj_new 1 2 0 in
   (exists s, adj_try_to_string (only plat16 37) m = Ok s /\ length s = 37%nat) /\
   adj_try_to_string (only plat16 36) m =
     Err (CapacityOverflow "Unable to allocate matrix string")) /\
  (let m := sq_set_entry u64_numeric sq_new 12 1 0 in
   (exists s, sq_to_string_with_precision (only plat64 22) u64_numeric plain_order m 0 = Ret (Ok s) /\
     length s = 22%nat) /\
   sq_to_string_with_precision (only plat64 23) u64_numeric plain_order m 0 =
     Ret (Err (CapacityOverflow "Unable to allocate matrix string"))).
Proof.
  cbv zeta. split_and!;
    first [by vm_compute | eexists; split; [vm_compute; reflexivity|reflexivity]].
Qed.
