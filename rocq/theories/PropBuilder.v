(** What a CompressedGraphBuilder can break (compressed.rs:542-638).  Its documentation warns
    that a wrong Hamming weight, or an entry given twice, "will almost certainly cause
    undefined behavior, including a potential buffer overflow" when the finished graph is
    converted to bytes, because the buffer would be too small or too large. *)
From Coq Require Import ZArith Ascii String.
From Verif Require Import Base HashIter F64 Numeric Adj Sq Standard Compressed Spec Api
  AdjProofs SqProofs GraphProofs BitsProofs CompressProofs BytesProofs
  GraphCodecProofs CGraphCodecProofs CodecMoreProofs PropCommon PropCompress PropCodec.
Local Arguments N.mul : simpl never.
Local Arguments N.add : simpl never.
Local Arguments N.pow : simpl never.

(** ** Edges of any compressed graph whose words are sound *)

Lemma words_has_card o cg : sq_inv (cg_mat cg) ->
  (forall c r w, sq_val (cg_mat cg) c r = Some w -> w <> 0 /\ w < two64) ->
  has_card (fun '(u, v) => c_does_edge_exist cg u v = true)
    (ones_total (sq_items o (cg_mat cg))).
Proof.
  intros Hi Hw. rewrite <- length_edges_ones.
  - eapply has_card_ext; [|apply has_card_list, NoDup_edges, NoDup_sq_items_keys, Hi].
    intros [u v]. rewrite c_exists_has, (c_has_items o) by apply Hi. done.
  - apply Forall_forall. intros [[w c] r] Hin. apply elem_of_sq_items in Hin; [|apply Hi].
    apply Hw in Hin as [_ H]. exact H.
Qed.

Lemma words_items_length o cg j : sq_inv (cg_mat cg) ->
  (forall c r w, sq_val (cg_mat cg) c r = Some w -> w <> 0 /\ w < two64) ->
  has_card (fun '(c, r) => get_compressed_matrix_entry cg c r <> 0) j ->
  N.of_nat (length (sq_items o (cg_mat cg))) = j.
Proof.
  intros Hi Hw Hj. rewrite <- (fmap_length (fun '(e, c, r) => (c, r)) (sq_items o (cg_mat cg))).
  assert (has_card (fun '(c, r) => get_compressed_matrix_entry cg c r <> 0)
    (N.of_nat (length ((fun '(e, c, r) => (c, r)) <$> sq_items o (cg_mat cg))))) as H.
  { eapply has_card_ext; [|apply has_card_list, (NoDup_sq_items_keys o), Hi].
    intros [c r]. rewrite elem_of_list_fmap, c_get_entry_val. split.
    - intros ([[w c'] r'] & [= -> ->] & Hin). apply elem_of_sq_items in Hin; [|apply Hi].
      rewrite Hin. simpl. by apply (Hw _ _ _ Hin).
    - destruct (sq_val (cg_mat cg) c r) as [w|] eqn:E; [|done]. intros _. exists (w, c, r).
      split; [done|]. apply elem_of_sq_items; [apply Hi|done]. }
  by rewrite (has_card_unique _ _ _ H Hj).
Qed.

(** ** C92: files *)

(** The bytes of any graph a builder makes are decoded to the same graph when the block
    matrix has the dimension the vertex count asks for, every bit set stands for an edge
    between vertices of the graph, and the weights add up to the number of edges; they are
    rejected with an error in every other case.  There is never a panic. *)
Theorem C92_files p o und n level calls bytes k j : wf_platform p -> n < two64 ->
  (forall e c r h, (e, c, r, h) ∈ calls -> e < two64) ->
  let cg := build und n level calls in
  has_card (fun '(u, v) => c_does_edge_exist cg u v = true) k ->
  has_card (fun '(c, r) => get_compressed_matrix_entry cg c r <> 0) j -> j < two64 ->
  cgraph_to_bytes p o cg = Ok bytes ->
  let sound :=
    built_dim n calls = blocks_of n /\
    (forall u v, c_does_edge_exist cg u v = true -> u < n /\ v < n) /\
    N.min (weight_total calls) u64_max = k in
  N.of_nat (length bytes) = 42 + 24 * j /\ is_slice p bytes /\
  (forall p', wf_platform p' -> is_slice p' bytes ->
    (sound -> exists cg', cgraph_try_from p' bytes = Ret (Ok cg') /\ same_cgraph cg cg') /\
    (~ sound -> exists msg, cgraph_try_from p' bytes = Ret (Err (InvalidFormat msg)))).
Proof.
  intros Hp Hn He cg Hk Hj Hj64 Hb sound.
  destruct (build_spec und n level calls Hn He) as (Hi & Hund & Hvc & Hlev & Hec & Hdim & Hent & Hw).
  fold cg in Hi, Hund, Hvc, Hlev, Hec, Hdim, Hent, Hw. clearbody cg.
  pose proof (has_card_unique _ _ _ Hk (words_has_card o _ Hi Hw)) as Ek.
  pose proof (words_items_length o cg j Hi Hw Hj) as Hlen.
  assert (sq_cnt (cg_mat cg) = j) as Hcnt.
  { rewrite (si_cnt _ Hi), <- Hlen, length_sq_items by done. apply N.mod_small.
    rewrite length_sq_items in Hlen by done. lia. }
  assert (1 <= cg_level cg <= 64) as Hl64.
  { rewrite Hlev. apply clamp_level_range. }
  assert (cg_edge_count cg < two64) as Hec64 by (rewrite Hec; unfold u64_max, two64; lia).
  assert (sq_dim (cg_mat cg) < two64) as Hd64.
  { pose proof (si_dim _ Hi). unfold u64_max, two64 in *. lia. }
  assert (Ha := Hb). apply cgraph_to_bytes_alloc in Ha; [|done].
  assert (Hf := Hb). apply cgraph_to_bytes_file in Hf. rewrite Hcnt in Hf, Ha.
  assert (is_slice p bytes) as Hs.
  { split; rewrite Hf.
    - apply cgraph_file_bytes. unfold is_byte. lia.
    - rewrite length_cgraph_file. pose proof (wf_alloc p Hp _ Ha). lia. }
  split_and!; [rewrite Hf, length_cgraph_file; lia|done|].
  intros p' Hp' Hs'. split.
  - intros (Sd & Sb & Sw).
    assert (cg_inv cg) as Hci.
    { constructor; [done|done| | | |done|done].
      - intros u v Huv. rewrite Hvc. by apply Sb, c_exists_has.
      - by rewrite Hdim, Sd, Hvc, blocks_of_dim.
      - by rewrite Hvc. }
    destruct (cgraph_round_trip p o cg bytes Hp Hci) as [_ H]; [lia| |done|].
    { by rewrite Hec, Sw. }
    destruct (H p' Hp' Hs') as (cg' & ? & _ & ?). eauto.
  - intros Hns. pose proof (oinvalid_cgraph_try_from p' bytes) as Hinv.
    destruct (cgraph_try_from_spec p' bytes Hp' Hs') as [(e & Herr & _)|(und' & n' & level' & l & Hf' & Hg & _)].
    { rewrite Herr in Hinv. destruct Hinv as [msg ->]. eauto. }
    destruct Hns. rewrite Hf in Hf'. unfold cfile_of in Hf'. rewrite !cgraph_file_hdr in Hf'.
    apply app_inj_len in Hf' as [Hh Henc]; [|by rewrite !length_cgraph_hdr].
    assert (sq_items o (cg_mat cg) = l) as El.
    { apply enc_triples_inj; [|by eapply good_cfile_u64|done].
      apply Forall_forall. intros [[w c] r] Hin. apply elem_of_sq_items in Hin; [|done].
      pose proof (si_dim _ Hi). split; [by apply (Hw _ _ _ Hin)|].
      destruct (si_bound _ Hi c r); [by rewrite Hin|]. lia. }
    apply cgraph_hdr_inj in Hh as (_ & _ & Ed & _ & Ee & En & _ & _).
    + split_and!.
      * by rewrite <- Hdim, Ed, <- En, Hvc, blocks_of_dim.
      * intros u v Huv. apply c_exists_has, (c_has_items o) in Huv; [|done].
        rewrite El in Huv. apply (gc_bits _ _ _ Hg) in Huv. by rewrite <- En, Hvc in Huv.
      * by rewrite <- Hec, Ee, Ek, El.
    + done.
    + done.
    + done.
    + done.
    + done.
    + by rewrite Hvc.
    + done.
    + done.
    + apply cmd_u64, Hg.
    + by rewrite <- El, Hlen.
    + apply Hg.
    + apply Hg.
Qed.
Print Assumptions C92_files.

(** ** C92: weights *)

(** The same calls with other weights. *)
Definition without_weight (call : N * N * N * option N) : N * N * N :=
  let '(e, c, r, _) := call in (e, c, r).

Lemma build_same calls calls' b b' : without_weight <$> calls = without_weight <$> calls' ->
  cg_mat b = cg_mat b' -> cg_vertex_count b = cg_vertex_count b' -> cg_und b = cg_und b' ->
  cg_level b = cg_level b' ->
  let f := fun b '(e, c, r, h) => builder_add b e c r h in
  let cg := fold_left f calls b in
  let cg' := fold_left f calls' b' in
  cg_mat cg = cg_mat cg' /\ cg_vertex_count cg = cg_vertex_count cg' /\ cg_und cg = cg_und cg' /\
  cg_level cg = cg_level cg'.
Proof.
  revert calls' b b'. induction calls as [|[[[e c] r] h] calls IH];
    intros [|[[[e' c'] r'] h'] calls']; intros b b' Heq Hm Hn Hu Hl; try discriminate; [done|].
  cbn [fmap list_fmap] in Heq. injection Heq as -> -> -> Heq.
  cbn [fold_left]. apply IH; [done| |done|done|done].
  unfold builder_add. cbn [cg_mat]. by rewrite Hm.
Qed.

(** A weight changes nothing but the edge count: with other weights the graph is the same
    in all else, it can be converted to bytes in the same cases, and the bytes differ at
    most in the eight bytes of the edge count (bytes 24 to 31 of the header). *)
Theorem C92_weights p o und n level calls calls' :
  without_weight <$> calls = without_weight <$> calls' ->
  let cg := build und n level calls in
  let cg' := build und n level calls' in
  (forall u v, c_does_edge_exist cg u v = c_does_edge_exist cg' u v) /\
  (forall c r, get_compressed_matrix_entry cg c r = get_compressed_matrix_entry cg' c r) /\
  decompress p o cg = decompress p o cg' /\
  match cgraph_to_bytes p o cg, cgraph_to_bytes p o cg' with
  | Ok bytes, Ok bytes' =>
      length bytes = length bytes' /\ take 24 bytes = take 24 bytes' /\
      drop 32 bytes = drop 32 bytes'
  | Err e, Err e' => e = e'
  | _, _ => False
  end.
Proof.
  intros Heq cg cg'.
  destruct (build_same calls calls' (builder_new und n level) (builder_new und n level) Heq)
    as (Hm & Hn & Hu & Hl); [done..|].
  assert (cg_mat cg = cg_mat cg') as Em by exact Hm.
  assert (cg_vertex_count cg = cg_vertex_count cg') as En by exact Hn.
  assert (cg_und cg = cg_und cg') as Eu by exact Hu.
  assert (cg_level cg = cg_level cg') as El by exact Hl.
  clear Hm Hn Hu Hl. clearbody cg cg'. split_and!.
  - intros u v. unfold c_does_edge_exist. by rewrite Em.
  - intros c r. unfold get_compressed_matrix_entry. by rewrite Em.
  - unfold decompress. by rewrite Em, En, Eu.
  - pose proof (cgraph_to_bytes_file p o cg) as Hf. pose proof (cgraph_to_bytes_file p o cg') as Hf'.
    assert (match cgraph_to_bytes p o cg, cgraph_to_bytes p o cg' with
      | Ok _, Ok _ => True | Err e, Err e' => e = e' | _, _ => False end) as Hc.
    { assert (cgraph_bytes_size p cg = cgraph_bytes_size p cg') as Es
        by (unfold cgraph_bytes_size; by rewrite Em).
      unfold cgraph_to_bytes. rewrite Es. destruct (cgraph_bytes_size p cg') as [size|e]; [|done].
      cbn [rbind]. by destruct (can_alloc p size). }
    destruct (cgraph_to_bytes p o cg) as [bytes|e], (cgraph_to_bytes p o cg') as [bytes'|e'];
      [|done|done|done].
    specialize (Hf _ eq_refl). specialize (Hf' _ eq_refl). subst bytes bytes'.
    rewrite Em, En, Eu, El. rewrite !length_cgraph_file. split; [done|]. done.
Qed.
Print Assumptions C92_weights.

(** ** C92: decompression *)

(** One edge: its ids must fit in 64 bits, or wrap around when overflow is not checked. *)
Definition decompress_step (p : platform) (g : graph) (e : N * N) : outcome graph :=
  let '(u, v) := e in
  if overflow_checks p && negb ((u <? two64) && (v <? two64)) then Panic
  else Ret (add_edge g (u mod two64) (v mod two64)).

Lemma decompress_coord p c x : x < 8 ->
  obind (u64_mul p c 8) (fun base => u64_add p base x) =
  if overflow_checks p && negb (8 * c + x <? two64) then Panic else Ret ((8 * c + x) mod two64).
Proof.
  intros Hx. unfold u64_mul, u64_add. rewrite (N.mul_comm c 8).
  assert (two64 = 8 * 2305843009213693952) as E by done. 
  assert (2305843009213693952 <> 0) as Hq0 by done.
  set (q := 2305843009213693952) in *. clearbody q.
  destruct (N.ltb_spec (8 * c) two64) as [H|H].
  - cbn [obind]. destruct (N.ltb_spec (8 * c + x) two64) as [H'|H']; [|lia].
    rewrite andb_false_r. by rewrite N.mod_small.
  - destruct (N.ltb_spec (8 * c + x) two64) as [H'|H']; [lia|]. rewrite andb_true_r.
    destruct (overflow_checks p); [done|]. cbn [obind].
    assert ((8 * c) mod two64 = 8 * (c mod q)) as Em.
    { rewrite E. rewrite N.mul_mod_distr_l by lia. done. }
    assert (c mod q < q) as Hq by (apply N.mod_lt; lia).
    rewrite Em. destruct (N.ltb_spec (8 * (c mod q) + x) two64) as [H2|H2]; [|lia].
    f_equal. rewrite <- N.add_mod_idemp_l by lia. rewrite Em. symmetry. by apply N.mod_small.
Qed.

Lemma decompress_entry_fold p g w c r :
  decompress_entry p g (w, c, r) = ofold (decompress_step p) (entry_edges (w, c, r)) g.
Proof.
  unfold decompress_entry.
  match goal with |- context [ofold ?f (range 64) _] => set (body := f) end.
  set (cells := fun n => (fun i => (8 * c + i mod 8, 8 * r + i / 8)) <$>
                  filter (fun i => N.testbit w i = true) (range n)).
  assert (forall n, n <= 64 -> ofold body (range n) (g, 1) =
    obind (ofold (decompress_step p) (cells n) g) (fun g' => Ret (g', if n <? 64 then 2 ^ n else 0))) as H.
  { intros n. induction n as [|i IH] using N.peano_ind; intros Hi; [done|].
    rewrite <- N.add_1_r in *. specialize (IH ltac:(lia)).
    rewrite range_S, ofold_app, IH.
    assert (cells (i + 1) = cells i ++ (if decide (N.testbit w i = true)
              then [(8 * c + i mod 8, 8 * r + i / 8)] else [])) as ->.
    { unfold cells. rewrite range_S, filter_app, fmap_app, filter_cons, filter_nil.
      by case_decide. }
    rewrite ofold_app. destruct (ofold (decompress_step p) (cells i) g) as [g'| |]; [|done|done].
    cbn [obind ofold]. unfold body at 1.
    destruct (N.ltb_spec i 64); [|lia].
    assert (N.shiftl (2 ^ i) 1 mod two64 = if i + 1 <? 64 then 2 ^ (i + 1) else 0) as ->.
    { rewrite N.shiftl_mul_pow2, <- N.pow_add_r. destruct (N.ltb_spec (i + 1) 64).
      - apply N.mod_small. change two64 with (2 ^ 64). apply N.pow_lt_mono_r; lia.
      - by replace (i + 1) with 64 by lia. }
    rewrite land_pow2. destruct (N.testbit w i).
    - rewrite decide_True by done. cbn [ofold]. unfold COMPRESSION_BLOCK_DIMENSION.
      rewrite !decompress_coord; [|apply N.div_lt_upper_bound; lia|apply N.mod_lt; lia].
      unfold decompress_step. destruct (overflow_checks p); cbn [andb].
      + destruct (8 * c + i mod 8 <? two64), (8 * r + i / 8 <? two64); done.
      + done.
    - rewrite decide_False by done. done. }
  rewrite H by done. fold (cells 64). change (entry_edges (w, c, r)) with (cells 64).
  by destruct (ofold (decompress_step p) (cells 64) g).
Qed.

Lemma decompress_fold p items g :
  ofold (decompress_entry p) items g = ofold (decompress_step p) (items ≫= entry_edges) g.
Proof.
  revert g. induction items as [|[[w c] r] items IH]; intros g; [done|].
  cbn [ofold]. rewrite bind_cons, ofold_app, decompress_entry_fold.
  destruct (ofold (decompress_step p) (entry_edges (w, c, r)) g); cbn [obind]; auto.
Qed.

Lemma steps_ret p l g : overflow_checks p = false \/ (forall u v, (u, v) ∈ l -> u < two64 /\ v < two64) ->
  ofold (decompress_step p) l g =
  Ret (add_edges ((fun '(u, v) => (u mod two64, v mod two64)) <$> l) g).
Proof.
  intros H. revert g. induction l as [|[u v] l IH]; intros g; [done|].
  cbn [ofold]. unfold decompress_step at 1.
  assert (overflow_checks p && negb ((u <? two64) && (v <? two64)) = false) as ->.
  { destruct H as [->|H]; [done|]. destruct (H u v) as [Hu Hv]; [left|].
    apply N.ltb_lt in Hu as ->. apply N.ltb_lt in Hv as ->. by rewrite andb_false_r. }
  cbn [obind]. rewrite IH; [done|]. destruct H as [H|H]; [by left|right].
  intros a b Hin. apply H. by right.
Qed.

Lemma steps_panic p l g u v : overflow_checks p = true -> (u, v) ∈ l -> ~ (u < two64 /\ v < two64) ->
  ofold (decompress_step p) l g = Panic.
Proof.
  intros Hc Hin Hb. revert g. induction l as [|[a b] l IH]; intros g; [by apply elem_of_nil in Hin|].
  cbn [ofold]. apply elem_of_cons in Hin as [[= <- <-]|Hin].
  - unfold decompress_step at 1. rewrite Hc.
    assert ((u <? two64) && (v <? two64) = false) as ->; [|done].
    apply not_true_is_false. rewrite andb_true_iff, !N.ltb_lt. done.
  - destruct (decompress_step p g (a, b)) as [g'| |] eqn:E; cbn [obind].
    + by apply IH.
    + done.
    + unfold decompress_step in E. by destruct (_ && _).
Qed.

(** The vertex count after adding edges is the least that covers them. *)
Lemma vc_fold_exact l g : let g' := add_edges l g in
  vertex_count g' = vertex_count g \/
  exists u v, (u, v) ∈ l /\ both_valid u v = true /\ vertex_count g' = N.max u v + 1.
Proof.
  unfold add_edges. revert g. induction l as [|[u v] l IH]; intros g; cbn [fold_left]; [by left|].
  destruct (IH (add_edge g u v)) as [H|(a & b & Hin & Hv & H)].
  - rewrite H, vc_add_edge. destruct (both_valid u v) eqn:E; [|by left].
    destruct (N.max_spec (vertex_count g) (N.max (u + 1) (v + 1))) as [[_ ->]|[_ ->]]; [|by left].
    right. exists u, v. split; [left|]. split; [done|]. lia.
  - right. exists a, b. split; [by right|]. done.
Qed.

(** Decompressing any graph a builder makes: with overflow checks it panics exactly when
    some bit stands for an id of more than 64 bits (which takes a block at column or row
    2^61 or above); otherwise the result has the edges of the bits, ids taken modulo 2^64
    and edges at the id 2^64 - 1 dropped, and the least vertex count that covers the given
    one and these edges.  A wrong weight makes no difference. *)
Theorem C92_decompress p o und n level calls : n < two64 ->
  (forall e c r h, (e, c, r, h) ∈ calls -> e < two64) ->
  let cg := build und n level calls in
  let fits := forall u v, c_does_edge_exist cg u v = true -> u < two64 /\ v < two64 in
  (overflow_checks p = true -> (decompress p o cg = Panic <-> ~ fits)) /\
  (overflow_checks p = false \/ fits -> exists g, decompress p o cg = Ret g /\
    is_undirected g = und /\
    (forall u v, does_edge_exist g u v = true <->
      u < u64_max /\ v < u64_max /\
      exists a b, c_does_edge_exist cg a b = true /\
        ((u = a mod two64 /\ v = b mod two64) \/
         (und = true /\ v = a mod two64 /\ u = b mod two64))) /\
    n <= vertex_count g /\
    (forall u v, does_edge_exist g u v = true -> u < vertex_count g /\ v < vertex_count g) /\
    (vertex_count g = n \/
     exists u v, does_edge_exist g u v = true /\ vertex_count g = N.max u v + 1)).
Proof.
  intros Hn He cg fits.
  destruct (build_spec und n level calls Hn He) as (Hi & Hund & Hvc & _ & _ & _ & _ & Hw).
  fold cg in Hi, Hund, Hvc, Hw. clearbody cg.
  assert (forall u v, (u, v) ∈ sq_items o (cg_mat cg) ≫= entry_edges <->
    c_does_edge_exist cg u v = true) as Hc.
  { intros u v. by rewrite c_exists_has, (c_has_items o cg u v). }
  unfold decompress. rewrite Hund, Hvc.
  set (g0 := if und then new_undirected else new_directed).
  set (g1 := if 0 <? n then add_vertex g0 (n - 1) None else g0).
  assert (graph_inv g0) as Hi0 by (unfold g0; destruct und; apply graph_inv_new).
  assert (g_und g0 = und) as Hu0 by (unfold g0; by destruct und).
  assert (vertex_count g0 = 0) as Hv0 by (unfold g0; by destruct und).
  assert (forall u v, ~ has g0 u v) as Hh0 by (unfold g0; destruct und; apply not_has_new).
  assert (graph_inv g1) as Hi1
    by (unfold g1; destruct (0 <? _); [by apply graph_inv_add_vertex|done]).
  assert (g_und g1 = und) as Hu1.
  { unfold g1. destruct (0 <? _); [|done]. by rewrite add_vertex_none, und_grow. }
  assert (forall u v, ~ has g1 u v) as Hh1.
  { unfold g1. destruct (0 <? _); [|done]. intros u v. rewrite add_vertex_none, has_grow.
    apply Hh0. }
  assert (vertex_count g1 = n) as Hv1.
  { unfold g1. destruct (N.ltb_spec 0 n); [|lia].
    rewrite add_vertex_none, vc_grow, Hv0 by done. unfold valid_id.
    destruct (N.ltb_spec (n - 1) u64_max); unfold u64_max, two64 in *; lia. }
  clearbody g1. rewrite decompress_fold.
  set (l := sq_items o (cg_mat cg) ≫= entry_edges) in *. clearbody l.
  split.
  - intros Hov. split.
    + intros Hpan Hfits. rewrite steps_ret in Hpan; [done|]. right. intros u v Hin.
      by apply Hfits, Hc.
    + intros Hnf.
      assert (Exists (not ∘ (fun e : N * N => e.1 < two64 /\ e.2 < two64)) l) as Hex.
      { apply not_Forall_Exists; [intros [u v]; apply _|]. intros Hall. apply Hnf.
        rewrite Forall_forall in Hall. intros u v Huv. apply Hc in Huv. exact (Hall _ Huv). }
      apply Exists_exists in Hex as ([u v] & Hin & Hb). by apply (steps_panic p l g1 u v).
  - intros Hor. rewrite steps_ret.
    2:{ destruct Hor as [H|H]; [by left|right]. intros u v Hin. by apply H, Hc. }
    set (l' := (fun '(u, v) => (u mod two64, v mod two64)) <$> l).
    assert (forall u v, has (add_edges l' g1) u v <->
      both_valid u v = true /\ ((u, v) ∈ l' \/ (und = true /\ (v, u) ∈ l'))) as Hhas.
    { intros u v. unfold add_edges. rewrite has_fold_add_edge, Hu1. split; [|by right].
      intros [H|H]; [by apply Hh1 in H|done]. }
    assert (forall u v, (u, v) ∈ l' <-> exists a b, c_does_edge_exist cg a b = true /\
      u = a mod two64 /\ v = b mod two64) as Hl'.
    { intros u v. unfold l'. rewrite elem_of_list_fmap. split.
      - intros ([a b] & [= -> ->] & Hin). exists a, b. by rewrite <- Hc.
      - intros (a & b & Hab & -> & ->). exists (a, b). by rewrite Hc. }
    exists (add_edges l' g1). split; [done|].
    assert (graph_inv (add_edges l' g1)) as Hig by (by apply graph_inv_fold_add_edge).
    split_and!.
    + unfold is_undirected, add_edges. by rewrite und_fold_add_edge.
    + intros u v. rewrite exists_has, Hhas, both_valid_lt, !Hl'. naive_solver.
    + rewrite <- Hv1 at 1. apply vc_fold_add_edge_mono.
    + intros u v Huv. apply exists_has in Huv.
      pose proof (has_bound _ _ _ Hig Huv) as H. done.
    + destruct (vc_fold_exact l' g1) as [H|(u & v & Hin & Hbv & H)]; [left; lia|].
      right. exists u, v. rewrite exists_has, Hhas. auto.
Qed.
Print Assumptions C92_decompress.

(** ** Non-vacuity *)

(** One block with the bits of the edges (1,0) and (0,1). *)
Definition honest : list (N * N * N * option N) := [(258, 0, 0, None)].
Definition wrong_weight : list (N * N * N * option N) := [(258, 0, 0, Some 7)].
Definition repeated : list (N * N * N * option N) := [(258, 0, 0, None); (258, 0, 0, None)].
Definition replaced : list (N * N * N * option N) := [(258, 0, 0, Some 0); (2, 0, 0, None)].
Definition outside : list (N * N * N * option N) := [(2 ^ 63, 0, 0, None)].
Definition zero_block : list (N * N * N * option N) := [(258, 0, 0, None); (0, 4, 4, None)].
Definition huge_block : list (N * N * N * option N) := [(1, 2 ^ 61, 0, None)].

Definition try_again (calls : list (N * N * N * option N)) : result bool :=
  match cgraph_to_bytes plat64 plain_order (build false 3 1 calls) with
  | Ok bytes => match cgraph_try_from plat64 bytes with
                | Ret (Ok cg) => Ok (c_does_edge_exist cg 1 0)
                | Ret (Err e) => Err e
                | _ => Err (CapacityOverflow "panic")
                end
  | Err e => Err e
  end.

(** Right weights are accepted; a wrong weight, a repeated entry, a bit outside and a block
    outside are all rejected.  A replaced entry whose weights happen to add up is not noticed,
    and need not be. *)
Example C92_ex_files : try_again honest = Ok true /\ try_again replaced = Ok true /\
  try_again wrong_weight = Err (InvalidFormat "CompressedGraph edge count does not match header") /\
  try_again repeated = Err (InvalidFormat "CompressedGraph edge count does not match header") /\
  (exists msg, try_again outside = Err (InvalidFormat msg)) /\
  (exists msg, try_again zero_block = Err (InvalidFormat msg)).
Proof. split_and!; [reflexivity..| |]; eexists; vm_compute; reflexivity. Qed.

(** The conditions hold of [honest] and fail of [wrong_weight] and [zero_block]. *)
Example C92_ex_sound :
  built_dim 3 honest = blocks_of 3 /\ N.min (weight_total honest) u64_max = 2 /\
  N.min (weight_total wrong_weight) u64_max = 7 /\ N.min (weight_total repeated) u64_max = 4 /\
  built_dim 3 zero_block = 5 /\ blocks_of 3 = 1 /\
  without_weight <$> honest = without_weight <$> wrong_weight /\ honest <> wrong_weight.
Proof. split_and!; done. Qed.

(** A block at column 2^61 makes decompression panic with overflow checks, and wrap around
    without. *)
Definition unpack (p : platform) (calls : list (N * N * N * option N)) : outcome (N * bool) :=
  match decompress p plain_order (build false 3 1 calls) with
  | Ret g => Ret (vertex_count g, does_edge_exist g 0 0)
  | Panic => Panic
  | OutOfFuel => OutOfFuel
  end.
Example C92_ex_decompress : overflow_checks plat64 = true /\ overflow_checks plat64r = false /\
  unpack plat64 huge_block = Panic /\ unpack plat64r huge_block = Ret (3, true) /\
  unpack plat64 outside = Ret (8, false) /\
  c_does_edge_exist (build false 3 1 huge_block) two64 0 = true.
Proof. split_and!; reflexivity. Qed.
