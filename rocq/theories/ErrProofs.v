(** Which message a decoder reports. *)
From Coq Require Import ZArith Ascii String SpecFloat.
From Verif Require Import Base HashIter F64 Numeric Adj Sq Standard Compressed Spec Api ErrSpec
  HashIterProofs AdjProofs SqProofs GraphProofs BitsProofs CompressProofs BytesProofs
  GraphCodecProofs CGraphCodecProofs CodecMoreProofs TextProofs SqTextProofs SqShowProofs
  NumTextProofs FloatTextProofs SqExactProofs TextSpec.
Local Arguments N.mul : simpl never.
Local Arguments N.add : simpl never.

Lemma reports_unique l r r' : reports l r -> reports l r' -> r = r'.
Proof.
  intros H. revert r'. induction H as [|P msg l HP|P msg l res HP H IH]; intros r' H'.
  - by inversion H'.
  - by inversion H'.
  - inversion H'; subst; [done|]. by apply IH.
Qed.

Lemma reports_app l l' r : reports l None -> reports l' r -> reports (l ++ l') r.
Proof.
  intros H Hr. remember None as o eqn:Ho. induction H as [| |P msg l res HP H IH]; [done|done|].
  simpl. apply reports_next; [done|]. by apply IH.
Qed.

Lemma reports_app_hit l l' msg : reports l (Some msg) -> reports (l ++ l') (Some msg).
Proof.
  intros H. remember (Some msg) as o eqn:Ho.
  induction H as [|P m l HP|P m l res HP H IH]; [done| |]; simpl.
  - by apply reports_defect.
  - apply reports_next; [done|]. by apply IH.
Qed.

Lemma reported_hit {A} (P : Prop) msg l : P -> reported (A := A) ((P, msg) :: l) (Err (InvalidFormat msg)).
Proof. intros HP. exists msg. split; [done|]. by apply reports_defect. Qed.
Lemma reported_next {A} (P : Prop) msg l (res : result A) :
  ~ P -> reported l res -> reported ((P, msg) :: l) res.
Proof.
  intros HP. destruct res as [a|e]; simpl.
  - by apply reports_next.
  - intros (m & -> & H). exists m. split; [done|]. by apply reports_next.
Qed.

(** ** Fields *)

Lemma field_at pre w post off k x :
  off = length pre -> k = length w -> from_be_bytes w = x ->
  field (pre ++ w ++ post) off k = x.
Proof. intros -> -> <-. unfold field. by rewrite drop_app, take_app. Qed.

Lemma enc_pairs_app l l' : enc_pairs (l ++ l') = enc_pairs l ++ enc_pairs l'.
Proof. apply bind_app. Qed.
Lemma enc_triples_app l l' : enc_triples (l ++ l') = enc_triples l ++ enc_triples l'.
Proof. apply bind_app. Qed.
Lemma length_enc_triples' l : length (enc_triples l) = (24 * length l)%nat.
Proof.
  induction l as [|[[w u] v] l IH]; [done|]. unfold enc_triples in *.
  rewrite bind_cons, app_length, IH. simpl length. lia.
Qed.

Lemma lookup_range_N n i : (i < N.to_nat n)%nat -> range n !! i = Some (N.of_nat i).
Proof.
  intros Hi. unfold range. rewrite list_lookup_fmap, lookup_seq_lt by done. done.
Qed.

Lemma pair_fields pre l :
  length pre = 26%nat -> Forall (fun '(u, v) => u < two64 /\ v < two64) l ->
  pair_field (pre ++ enc_pairs l) <$> range (N.of_nat (length l)) = l.
Proof.
  intros Hpre Hl. apply list_eq. intros i.
  destruct (decide (i < length l)%nat) as [Hi|Hi].
  - rewrite list_lookup_fmap, lookup_range_N by lia. simpl.
    destruct (lookup_lt_is_Some_2 l i Hi) as [[u v] Hx]. rewrite Hx.
    rewrite Forall_lookup in Hl. destruct (Hl _ _ Hx) as [Hu Hv]. f_equal.
    assert (length (take i l) = i) as Hti by (rewrite take_length; lia).
    assert (pre ++ enc_pairs l = (pre ++ enc_pairs (take i l)) ++ be64 u ++ be64 v
              ++ enc_pairs (drop (S i) l)) as Heq.
    { rewrite <- (take_drop_middle l i (u, v) Hx) at 1. rewrite enc_pairs_app, <- app_assoc.
      unfold enc_pairs. rewrite bind_cons. by rewrite <- !app_assoc. }
    unfold pair_field. rewrite Heq. f_equal.
    + apply field_at; [|done|by apply from_be64].
      rewrite app_length, length_enc_pairs, Hpre, Hti. lia.
    + rewrite (app_assoc _ (be64 u)). apply field_at; [|done|by apply from_be64].
      rewrite !app_length, length_enc_pairs, Hpre, Hti, length_be64. lia.
  - rewrite !lookup_ge_None_2; [done|lia|]. rewrite fmap_length. unfold range.
    rewrite fmap_length, seq_length. lia.
Qed.

Lemma entry_fields pre l :
  length pre = 42%nat -> Forall (fun '(w, u, v) => w < two64 /\ u < two64 /\ v < two64) l ->
  entry_field (pre ++ enc_triples l) <$> range (N.of_nat (length l)) = l.
Proof.
  intros Hpre Hl. apply list_eq. intros i.
  destruct (decide (i < length l)%nat) as [Hi|Hi].
  - rewrite list_lookup_fmap, lookup_range_N by lia. simpl.
    destruct (lookup_lt_is_Some_2 l i Hi) as [[[w u] v] Hx]. rewrite Hx.
    rewrite Forall_lookup in Hl. destruct (Hl _ _ Hx) as (Hw & Hu & Hv). f_equal.
    assert (length (take i l) = i) as Hti by (rewrite take_length; lia).
    assert (pre ++ enc_triples l = (pre ++ enc_triples (take i l)) ++ be64 w ++ be64 u ++ be64 v
              ++ enc_triples (drop (S i) l)) as Heq.
    { rewrite <- (take_drop_middle l i (w, u, v) Hx) at 1. rewrite enc_triples_app, <- app_assoc.
      unfold enc_triples. rewrite bind_cons. by rewrite <- !app_assoc. }
    unfold entry_field. rewrite Heq. f_equal; [f_equal|].
    + apply field_at; [|done|by apply from_be64].
      rewrite app_length, length_enc_triples', Hpre, Hti. lia.
    + rewrite (app_assoc _ (be64 w)). apply field_at; [|done|by apply from_be64].
      rewrite !app_length, length_enc_triples', Hpre, Hti, length_be64. lia.
    + rewrite (app_assoc _ (be64 w)), (app_assoc _ (be64 u)).
      apply field_at; [|done|by apply from_be64].
      rewrite !app_length, length_enc_triples', Hpre, Hti, !length_be64. lia.
  - rewrite !lookup_ge_None_2; [done|lia|]. rewrite fmap_length. unfold range.
    rewrite fmap_length, seq_length. lia.
Qed.

(** ** Graph files *)

Lemma graph_fields magic ver n cnt f w rest :
  magic < 2 ^ 32 -> ver < 2 ^ 32 -> n < two64 -> cnt < two64 ->
  let bytes := graph_hdr magic ver n cnt f w ++ rest in
  field bytes 0 4 = magic /\ field bytes 4 4 = ver /\ field bytes 8 8 = n /\
  field bytes 16 8 = cnt /\ field bytes 24 1 = f /\ field bytes 25 1 = w.
Proof.
  intros Hm Hv Hn Hc bytes. unfold bytes, graph_hdr. split_and!.
  - rewrite <- !app_assoc. apply (field_at []); [done|done|].
    rewrite from_to_be. by apply N.mod_small.
  - rewrite <- !app_assoc. apply field_at; [done|done|].
    rewrite from_to_be. by apply N.mod_small.
  - rewrite <- !app_assoc, (app_assoc (to_be_bytes 4 magic)).
    apply field_at; [done|done|by apply from_be64].
  - rewrite <- !app_assoc, (app_assoc (to_be_bytes 4 magic)), (app_assoc _ (be64 n)).
    apply field_at; [done|done|by apply from_be64].
  - rewrite <- !app_assoc, (app_assoc (to_be_bytes 4 magic)), (app_assoc _ (be64 n)),
      (app_assoc _ (be64 cnt)).
    apply field_at; done.
  - rewrite <- !app_assoc, (app_assoc (to_be_bytes 4 magic)), (app_assoc _ (be64 n)),
      (app_assoc _ (be64 cnt)), (app_assoc _ [f]).
    apply field_at; done.
Qed.

Lemma graph_reported p bytes : wf_platform p -> is_slice p bytes ->
  exists res, graph_try_from p bytes = Ret res /\ reported (graph_defects p bytes) res.
Proof.
  intros Hp Hs. pose proof Hs as [Hbytes Hmax]. unfold graph_defects. cbv zeta.
  destruct (decide (26 <= length bytes)%nat) as [Hlen|Hlen].
  2:{ unfold graph_try_from, GRAPH_BYTES_HEADER_SIZE.
      destruct (N.ltb_spec (N.of_nat (length bytes)) 26); [|lia].
      eexists. split; [done|]. by apply reported_hit. }
  destruct (split_graph_hdr bytes Hbytes Hlen)
    as (magic & ver & n & cnt & f & w & rest & Heq & Hm & Hv & Hn & Hc & Hf & Hw & Hrest).
  assert (length bytes = (26 + length rest)%nat) as Hl
    by (rewrite Heq, app_length, length_graph_hdr; lia).
  destruct (graph_fields magic ver n cnt f w rest Hm Hv Hn Hc) as (F1 & F2 & F3 & F4 & F5 & F6).
  rewrite <- Heq in F1, F2, F3, F4, F5, F6. rewrite F1, F2, F3, F4, F5, F6.
  assert (16 * cnt + 26 = 26 + N.of_nat (length rest) ->
    exists l, rest = enc_pairs l /\ N.of_nat (length l) = cnt /\
      Forall (fun '(u, v) => u < two64 /\ v < two64) l /\
      pair_field bytes <$> range cnt = l /\
      graph_read_loop p (26 + length rest) bytes
            (26 + N.of_nat (length rest)) n 26 (empty_graph f) =
      Ret (if forallb (fun '(u, v) => (u <? n) && (v <? n)) l
           then Ok (add_edges l (empty_graph f)) else bad_edge)) as Hbody.
  { intros Hsz. destruct (split_pairs (N.to_nat cnt) rest Hrest) as (l & -> & Hll & Hall); [lia|].
    exists l. split_and!; [done|lia|done| |].
    - rewrite Heq. replace cnt with (N.of_nat (length l)) at 2 by lia.
      apply pair_fields; [apply length_graph_hdr|done].
    - pose proof (graph_read_loop_spec p (26 + length (enc_pairs l)) (graph_hdr magic ver n cnt f w)
        l n (empty_graph f) (26 + N.of_nat (length (enc_pairs l))) ltac:(by rewrite <- Heq) Hall)
        as Hloop.
      rewrite length_graph_hdr in Hloop. rewrite Heq. apply Hloop.
      + rewrite app_length, length_graph_hdr. lia.
      + rewrite length_enc_pairs. lia. }
  destruct (graph_try_from_eq p magic ver n cnt f w rest Hp) as [Htf|[Hsz (x & Hx & Hno)]];
    [by rewrite <- Heq|done..| |].
  2:{ destruct (Hbody Hsz) as (l & _ & _ & _ & _ & Hloop). rewrite <- Heq, Hloop in Hx.
      by destruct (Hno _ (eq_sym Hx)). }
  rewrite <- Heq in Htf. rewrite Htf. clear Htf.
  eexists. split; [done|]. unfold graph_decode.
  apply reported_next; [lia|].
  destruct (N.eqb_spec magic GRAPH_BYTES_MAGIC_NUMBER) as [->|Hne]; cbn [negb];
    [|by apply reported_hit].
  apply reported_next; [by intros []|].
  destruct (N.eqb_spec ver GRAPH_BYTES_VERSION) as [->|Hne]; cbn [negb]; [|by apply reported_hit].
  apply reported_next; [by intros []|].
  destruct (N.ltb_spec 1 f); [by apply reported_hit|]. apply reported_next; [lia|].
  destruct (N.eqb_spec w 0); cbn [negb]; [|by apply reported_hit]. apply reported_next; [lia|].
  destruct ((n =? 0) && negb (cnt =? 0)) eqn:E0.
  { apply andb_true_iff in E0 as [E0 E1]. apply negb_true_iff in E1.
    apply N.eqb_eq in E0. apply N.eqb_neq in E1. by apply reported_hit. }
  apply reported_next.
  { intros [E1 E2]. apply N.eqb_eq in E1. apply N.eqb_neq in E2. by rewrite E1, E2 in E0. }
  rewrite graph_expected_size_eq by done.
  replace (26 + 16 * cnt) with (16 * cnt + 26) by lia.
  destruct (N.leb_spec (16 * cnt + 26) (usize_max p)); cbn [rbind]; [|by apply reported_hit].
  apply reported_next; [lia|].
  replace (N.of_nat (length bytes)) with (26 + N.of_nat (length rest)) by lia.
  destruct (N.ltb_spec (26 + N.of_nat (length rest)) (16 * cnt + 26)); [by apply reported_hit|].
  apply reported_next; [lia|].
  destruct (N.ltb_spec (16 * cnt + 26) (26 + N.of_nat (length rest))); [by apply reported_hit|].
  apply reported_next; [lia|].
  destruct Hbody as (l & -> & Hll & Hall & Hpf & Hloop); [lia|]. rewrite Hpf, Hloop.
  destruct (forallb _ l) eqn:Eb; cbn [rbind].
  2:{ apply reported_hit.
      assert (Exists (fun '(u, v) => n <= u \/ n <= v) l) as Hex.
      { apply not_true_iff_false in Eb. rewrite forallb_bound in Eb.
        apply not_Forall_Exists in Eb; [|intros [u v]; apply _].
        eapply Exists_impl; [exact Eb|]. intros [u v]. simpl. lia. }
      apply Exists_exists in Hex as ([u v] & Hin & Hex). by exists u, v. }
  apply forallb_bound in Eb. apply reported_next.
  { intros (u & v & Hin & Huv). rewrite Forall_forall in Eb. specialize (Eb _ Hin).
    simpl in Eb. lia. }
  assert (empty_graph f = start_graph (f =? 1)) as ->.
  { unfold empty_graph, start_graph. assert (f = 0 \/ f = 1) as [->| ->] by lia; done. }
  pose proof (wf_usize_max p Hp) as Hum.
  pose proof (edges_count (f =? 1) n l Hn Eb) as Hcard.
  specialize (Hcard ltac:(rewrite Hll; unfold two64 in *; lia)).
  destruct (N.eqb_spec (edge_count (add_edges l (start_graph (f =? 1)))) cnt) as [He|He];
    cbn [negb].
  - apply reported_next; [|apply reports_nothing]. rewrite <- He. intros Hno. by apply Hno.
  - apply reported_hit. intros Hc'. apply He. by apply (has_card_unique _ _ _ Hcard).
Qed.

(** ** CompressedGraph files *)

Definition outside : gerror := InvalidFormat "CompressedGraph entry contains edge outside vertex count".

Lemma validate_bit_exact w c r n i : n < two64 -> i < 64 ->
  8 * c + 7 < two64 -> 8 * r + 7 < two64 ->
  validate_bit w c r n i = if bit_ok w c r n i then Ok tt else Err outside.
Proof.
  intros Hn Hi Hc Hr. unfold bit_ok, validate_bit. rewrite shiftr_land_0.
  destruct (N.testbit w i); cbn [negb orb]; [|done].
  unfold COMPRESSION_BLOCK_DIMENSION, checked_mul64, checked_add64.
  rewrite !(N.mul_comm _ 8).
  assert (i mod 8 < 8) as Hx by (by apply N.mod_lt).
  assert (i / 8 < 8) as Hy by (apply N.div_lt_upper_bound; lia).
  generalize dependent (i mod 8). generalize dependent (i / 8). intros y Hy x Hx.
  destruct (N.ltb_spec (8 * c) two64); [|lia]. simpl.
  destruct (N.ltb_spec (8 * c + x) two64); [|lia]. simpl.
  destruct (N.ltb_spec (8 * r) two64); [|lia]. simpl.
  destruct (N.ltb_spec (8 * r + y) two64); [|lia]. simpl.
  rewrite !(N.leb_antisym _ n).
  by destruct (8 * c + x <? n), (8 * r + y <? n).
Qed.

Lemma validate_exact w c r n : n < two64 -> 8 * c + 7 < two64 -> 8 * r + 7 < two64 ->
  validate_compressed_entry_bounds w c r n = if entry_ok n (w, c, r) then Ok tt else Err outside.
Proof.
  intros Hn Hc Hr. unfold entry_ok, validate_compressed_entry_bounds.
  assert (forall i, i ∈ range 64 -> i < 64) as Hrg by (intros i; apply elem_of_range).
  induction (range 64) as [|i l IH]; [done|].
  cbn [forallb fold_left rbind].
  rewrite validate_bit_exact by (done || (apply Hrg; left)).
  destruct (bit_ok w c r n i); cbn [andb].
  - apply IH. intros j Hj. apply Hrg. by right.
  - apply validate_err_fold.
Qed.

Lemma entry_ok_false n w c r : entry_ok n (w, c, r) = false <->
  exists i, i < 64 /\ N.testbit w i = true /\ (n <= 8 * c + i mod 8 \/ n <= 8 * r + i / 8).
Proof.
  unfold entry_ok. rewrite <- not_true_iff_false, forallb_forall. split.
  - intros H. assert (Exists (fun i => bit_ok w c r n i <> true) (range 64)) as Hex.
    { apply not_Forall_Exists; [intros i; apply _|]. intros Hall. apply H. intros i Hi.
      rewrite Forall_forall in Hall. by apply Hall, elem_of_list_In. }
    apply Exists_exists in Hex as (i & Hi & Hb). apply elem_of_range in Hi. exists i.
    unfold bit_ok in Hb. destruct (N.testbit w i); cbn [negb orb] in Hb; [|done].
    split_and!; [done|done|]. rewrite andb_true_iff, !N.ltb_lt in Hb. lia.
  - intros (i & Hi & Hb & Hout) H. specialize (H i). unfold bit_ok in H. rewrite Hb in H.
    cbn [negb orb] in H. rewrite andb_true_iff, !N.ltb_lt in H.
    destruct H; [|lia]. by apply elem_of_list_In, elem_of_range.
Qed.

Lemma blocks_of_bound n c : n < two64 -> c < blocks_of n -> 8 * c + 7 < two64.
Proof.
  intros Hn. unfold blocks_of.
  pose proof (N.div_le_mono (n + 7) (two64 + 6) 8 ltac:(done) ltac:(lia)) as Hle.
  change ((two64 + 6) / 8) with 2305843009213693952 in Hle.
  intros Hc. assert (c < 2305843009213693952) by lia. unfold two64. lia.
Qed.

Lemma cgraph_loop_reported p fuel pre l n b parsed expected :
  is_slice p (pre ++ enc_triples l) -> n < two64 -> parsed < two64 ->
  Forall (fun '(w, u, v) => w < two64 /\ u < two64 /\ v < two64) l ->
  expected = N.of_nat (length (pre ++ enc_triples l)) -> (length l <= fuel)%nat ->
  (cgraph_read_loop p fuel (pre ++ enc_triples l) expected (blocks_of n) n (N.of_nat (length pre))
     b parsed = Ret (Ok (add_entries l b, parsed + popcount_total l)) /\
   reports (entry_defects n parsed l) None) \/
  (exists msg, cgraph_read_loop p fuel (pre ++ enc_triples l) expected (blocks_of n) n
     (N.of_nat (length pre)) b parsed = Ret (Err (InvalidFormat msg)) /\
   reports (entry_defects n parsed l) (Some msg)).
Proof.
  revert fuel pre b parsed.
  induction l as [|[[w u] v] l IH]; intros fuel pre b parsed Hs Hn Hpar Hl Hexp Hfuel.
  - left. unfold enc_triples in *. simpl in *. rewrite app_nil_r in *. subst expected.
    rewrite N.add_0_r. split; [|apply reports_nothing].
    destruct fuel; cbn [cgraph_read_loop]; rewrite N.ltb_irrefl; done.
  - apply Forall_cons in Hl as [(Hw & Hu & Hv) Hl].
    destruct fuel as [|fuel]; [simpl in Hfuel; lia|].
    assert (pre ++ enc_triples ((w, u, v) :: l)
            = pre ++ be64 w ++ be64 u ++ be64 v ++ enc_triples l) as Heq.
    { unfold enc_triples. by rewrite bind_cons, <- !app_assoc. }
    rewrite Heq in *.
    assert (N.of_nat (length pre) + 24 <= expected) as Hlt.
    { rewrite Hexp, !app_length, !length_be64. lia. }
    assert (expected <= usize_max p) as Hmax.
    { destruct Hs as [_ Hs]. lia. }
    cbn [cgraph_read_loop].
    destruct (N.ltb_spec (N.of_nat (length pre)) expected); [|lia].
    rewrite (c_read_be_at p pre (be64 w)) by done. rewrite from_be64 by done. cbn [orbind].
    unfold usize_add.
    destruct (N.leb_spec (N.of_nat (length pre) + 8) (usize_max p)); [|lia]. cbn [obind].
    assert (pre ++ be64 w ++ be64 u ++ be64 v ++ enc_triples l
            = (pre ++ be64 w) ++ be64 u ++ be64 v ++ enc_triples l)
      as Heq2 by (by rewrite <- app_assoc).
    rewrite Heq2 in *.
    rewrite (c_read_be_at p (pre ++ be64 w) (be64 u));
      [|done|rewrite app_length, length_be64; lia|done].
    rewrite from_be64 by done. cbn [orbind].
    destruct (N.leb_spec (N.of_nat (length pre) + 8 + 8) (usize_max p)); [|lia]. cbn [obind].
    assert ((pre ++ be64 w) ++ be64 u ++ be64 v ++ enc_triples l
            = ((pre ++ be64 w) ++ be64 u) ++ be64 v ++ enc_triples l)
      as Heq3 by (by rewrite <- !app_assoc).
    rewrite Heq3 in *.
    rewrite (c_read_be_at p ((pre ++ be64 w) ++ be64 u) (be64 v));
      [|done|rewrite !app_length, !length_be64; lia|done].
    rewrite from_be64 by done. cbn [orbind].
    destruct (N.leb_spec (N.of_nat (length pre) + 8 + 8 + 8) (usize_max p)); [|lia]. cbn [obind].
    cbn [entry_defects app popcount_total fold_right].
    destruct (N.eqb_spec w 0) as [Hw0|Hw0].
    { right. eexists. split; [done|]. by apply reports_defect. }
    destruct (N.leb_spec (blocks_of n) u) as [Hub|Hub]; cbn [orb].
    { right. eexists. split; [done|]. apply reports_next; [done|]. apply reports_defect. by left. }
    destruct (N.leb_spec (blocks_of n) v) as [Hvb|Hvb]; cbn [orb].
    { right. eexists. split; [done|]. apply reports_next; [done|]. apply reports_defect. by right. }
    rewrite validate_exact by (done || by apply (blocks_of_bound n)).
    destruct (entry_ok n (w, u, v)) eqn:Eok.
    2:{ right. eexists. split; [done|]. apply reports_next; [done|].
        apply reports_next; [lia|]. apply reports_defect. by apply entry_ok_false. }
    cbn [orbind]. unfold checked_add64. rewrite <- popcount_ones by done.
    assert (forall res, reports (entry_defects n (parsed + popcount w) l) res ->
      parsed + popcount w < two64 ->
      reports ([(w = 0, "CompressedGraph entry cannot be zero"%string);
        (blocks_of n <= u \/ blocks_of n <= v, "CompressedGraph entry exceeds matrix dimension"%string);
        ((exists i, i < 64 /\ N.testbit w i = true /\ (n <= 8 * u + i mod 8 \/ n <= 8 * v + i / 8)),
         "CompressedGraph entry contains edge outside vertex count"%string);
        (two64 <= parsed + popcount w, "CompressedGraph edge count overflowed"%string)]
        ++ entry_defects n (parsed + popcount w) l) res) as Hnext.
    { intros res Hres Hlt'. repeat apply reports_next; [done|lia| |lia|done].
      rewrite <- entry_ok_false. by rewrite Eok. }
    destruct (N.ltb_spec (parsed + popcount w) two64) as [Hp1|Hp1]; cbn [ok_or orbind].
    2:{ right. eexists. split; [done|]. apply reports_next; [done|]. apply reports_next; [lia|].
        apply reports_next; [|by apply reports_defect].
        rewrite <- entry_ok_false. by rewrite Eok. }
    assert (((pre ++ be64 w) ++ be64 u) ++ be64 v ++ enc_triples l
            = (((pre ++ be64 w) ++ be64 u) ++ be64 v) ++ enc_triples l)
      as Heq4 by (by rewrite <- !app_assoc).
    rewrite Heq4 in *.
    replace (N.of_nat (length pre) + 8 + 8 + 8)
      with (N.of_nat (length (((pre ++ be64 w) ++ be64 u) ++ be64 v)))
      by (rewrite !app_length, !length_be64; lia).
    rewrite N.add_assoc.
    destruct (IH fuel (((pre ++ be64 w) ++ be64 u) ++ be64 v)
      (builder_add b w u v (Some (popcount w))) (parsed + popcount w))
      as [[E R]|(msg & E & R)]; [done|done|done|done|done|simpl in Hfuel; lia| |].
    + left. split; [|by apply Hnext]. rewrite E. unfold add_entries. cbn [fold_left].
      by rewrite <- popcount_ones.
    + right. exists msg. split; [done|]. by apply Hnext.
Qed.

Lemma cgraph_fields magic ver dim cnt ec n f l rest :
  magic < 2 ^ 32 -> ver < 2 ^ 32 -> dim < two64 -> cnt < two64 -> ec < two64 -> n < two64 ->
  let bytes := cgraph_hdr magic ver dim cnt ec n f l ++ rest in
  field bytes 0 4 = magic /\ field bytes 4 4 = ver /\ field bytes 8 8 = dim /\
  field bytes 16 8 = cnt /\ field bytes 24 8 = ec /\ field bytes 32 8 = n /\
  field bytes 40 1 = f /\ field bytes 41 1 = l.
Proof.
  intros Hm Hv Hd Hc He Hn bytes. unfold bytes, cgraph_hdr. split_and!.
  - rewrite <- !app_assoc. apply (field_at []); [done|done|].
    rewrite from_to_be. by apply N.mod_small.
  - rewrite <- !app_assoc. apply field_at; [done|done|].
    rewrite from_to_be. by apply N.mod_small.
  - rewrite <- !app_assoc, (app_assoc (to_be_bytes 4 magic)).
    apply field_at; [done|done|by apply from_be64].
  - rewrite <- !app_assoc, (app_assoc (to_be_bytes 4 magic)), (app_assoc _ (be64 dim)).
    apply field_at; [done|done|by apply from_be64].
  - rewrite <- !app_assoc, (app_assoc (to_be_bytes 4 magic)), (app_assoc _ (be64 dim)),
      (app_assoc _ (be64 cnt)).
    apply field_at; [done|done|by apply from_be64].
  - rewrite <- !app_assoc, (app_assoc (to_be_bytes 4 magic)), (app_assoc _ (be64 dim)),
      (app_assoc _ (be64 cnt)), (app_assoc _ (be64 ec)).
    apply field_at; [done|done|by apply from_be64].
  - rewrite <- !app_assoc, (app_assoc (to_be_bytes 4 magic)), (app_assoc _ (be64 dim)),
      (app_assoc _ (be64 cnt)), (app_assoc _ (be64 ec)), (app_assoc _ (be64 n)).
    apply field_at; done.
  - rewrite <- !app_assoc, (app_assoc (to_be_bytes 4 magic)), (app_assoc _ (be64 dim)),
      (app_assoc _ (be64 cnt)), (app_assoc _ (be64 ec)), (app_assoc _ (be64 n)),
      (app_assoc _ [f]).
    apply field_at; done.
Qed.

Lemma cgraph_reported p bytes : wf_platform p -> is_slice p bytes ->
  exists res, cgraph_try_from p bytes = Ret res /\ reported (cgraph_defects p bytes) res.
Proof.
  intros Hp Hs. pose proof Hs as [Hbytes Hmax]. unfold cgraph_defects. cbv zeta.
  destruct (decide (42 <= length bytes)%nat) as [Hlen|Hlen].
  2:{ unfold cgraph_try_from, COMPRESSED_GRAPH_BYTES_HEADER_SIZE.
      destruct (N.ltb_spec (N.of_nat (length bytes)) 42); [|lia].
      eexists. split; [done|]. by apply reported_hit. }
  destruct (split_cgraph_hdr bytes Hbytes Hlen)
    as (magic & ver & dim & cnt & ec & n & f & lev & rest & Heq & Hm & Hv & Hd & Hc & He & Hn
        & Hf & Hlev & Hrest).
  assert (length bytes = (42 + length rest)%nat) as Hl
    by (rewrite Heq, app_length, length_cgraph_hdr; lia).
  destruct (cgraph_fields magic ver dim cnt ec n f lev rest Hm Hv Hd Hc He Hn)
    as (F1 & F2 & F3 & F4 & F5 & F6 & F7 & F8).
  rewrite <- Heq in F1, F2, F3, F4, F5, F6, F7, F8. rewrite F1, F2, F3, F4, F5, F6, F7, F8.
  pose proof (cgraph_try_from_eq p magic ver dim cnt ec n f lev rest Hp
    ltac:(by rewrite <- Heq) Hm Hv Hd Hc He Hn) as Htf.
  rewrite <- Heq in Htf. rewrite Htf. clear Htf.
  unfold cgraph_decode, COMPRESSED_GRAPH_BYTES_VERSION, COMPRESSED_GRAPH_BYTES_MAGIC_NUMBER.
  cbn [app].
  destruct (N.eqb_spec magic 0x71ff7aed) as [->|Hne]; cbn [negb].
  2:{ eexists. split; [done|]. apply reported_next; [lia|]. by apply reported_hit. }
  destruct (N.ltb_spec ver 2) as [Hv1|Hv1].
  { eexists. split; [done|]. do 2 (apply reported_next; [lia|]). by apply reported_hit. }
  destruct (N.eqb_spec ver 2) as [->|Hv2]; cbn [negb].
  2:{ eexists. split; [done|]. do 3 (apply reported_next; [lia|]). apply reported_hit. lia. }
  destruct (N.ltb_spec 1 f) as [Hf1|Hf1].
  { eexists. split; [done|]. do 4 (apply reported_next; [lia|]). by apply reported_hit. }
  destruct (N.leb_spec 1 lev) as [Hl1|Hl1]; cbn [andb negb].
  2:{ eexists. split; [done|]. do 5 (apply reported_next; [lia|]). apply reported_hit. lia. }
  destruct (N.leb_spec lev 64) as [Hl2|Hl2]; cbn [andb negb].
  2:{ eexists. split; [done|]. do 5 (apply reported_next; [lia|]). apply reported_hit. lia. }
  rewrite <- blocks_of_dim.
  destruct (N.eqb_spec dim (blocks_of n)) as [->|Hdim]; cbn [negb].
  2:{ eexists. split; [done|]. do 6 (apply reported_next; [lia|]). by apply reported_hit. }
  destruct (N.eqb_spec (blocks_of n) 0) as [Hb0|Hb0]; [unfold blocks_of in Hb0; lia|].
  cbn [andb]. rewrite cgraph_expected_size_eq by done.
  replace (42 + 24 * cnt) with (24 * cnt + 42) by lia.
  destruct (N.leb_spec (24 * cnt + 42) (usize_max p)) as [Hsz|Hsz]; cbn [orbind].
  2:{ eexists. split; [done|]. do 7 (apply reported_next; [lia|]). by apply reported_hit. }
  replace (N.of_nat (length bytes)) with (42 + N.of_nat (length rest)) by lia.
  destruct (N.ltb_spec (42 + N.of_nat (length rest)) (24 * cnt + 42)) as [Hs1|Hs1].
  { eexists. split; [done|]. do 8 (apply reported_next; [lia|]). by apply reported_hit. }
  destruct (N.ltb_spec (24 * cnt + 42) (42 + N.of_nat (length rest))) as [Hs2|Hs2].
  { eexists. split; [done|]. do 9 (apply reported_next; [lia|]). by apply reported_hit. }
  destruct (split_triples (N.to_nat cnt) rest Hrest) as (l & -> & Hll & Hall); [lia|].
  assert (entry_field bytes <$> range cnt = l) as Hef.
  { rewrite Heq. replace cnt with (N.of_nat (length l)) at 2 by lia.
    apply entry_fields; [apply length_cgraph_hdr|done]. }
  rewrite Hef.
  destruct (cgraph_loop_reported p (42 + length (enc_triples l))
    (cgraph_hdr 0x71ff7aed 2 (blocks_of n) cnt ec n f lev) l n
    (builder_new (f =? 1) n lev) 0 (42 + N.of_nat (length (enc_triples l))))
    as [[Eloop R]|(msg & Eloop & R)].
  { by rewrite <- Heq. } { done. } { done. } { done. }
  { rewrite app_length, length_cgraph_hdr. lia. }
  { rewrite length_enc_triples'. lia. }
  all: rewrite length_cgraph_hdr, <- Heq in Eloop; change (N.of_nat 42) with 42 in Eloop;
    rewrite Eloop; cbn [orbind].
  - rewrite N.add_0_l. destruct (N.eqb_spec (popcount_total l) ec) as [Hec|Hec]; cbn [negb].
    + eexists. split; [done|]. do 10 (apply reported_next; [lia|]).
      apply reports_app; [done|]. apply reports_next; [|apply reports_nothing]. intros Hno.
      by apply Hno.
    + eexists. split; [done|]. do 10 (apply reported_next; [lia|]).
      eexists. split; [done|]. apply reports_app; [done|]. by apply reports_defect.
  - eexists. split; [done|]. do 10 (apply reported_next; [lia|]).
    exists msg. split; [done|]. by apply reports_app_hit.
Qed.

(** ** Writing *)

Lemma graph_to_bytes_reported p o g : wf_platform p ->
  overflow_reported (file_defects p (26 + 16 * edge_count g) "Graph byte size overflowed"
    "Unable to allocate graph bytes") (graph_to_bytes p o g).
Proof.
  intros Hp. unfold graph_to_bytes, file_defects. rewrite graph_bytes_size_eq by done.
  destruct (N.leb_spec (26 + 16 * edge_count g) (usize_max p)); cbn [rbind].
  - destruct (can_alloc p _) eqn:E.
    + repeat apply reports_next; [lia|done|constructor].
    + eexists. split; [done|]. apply reports_next; [lia|]. by constructor.
  - eexists. split; [done|]. by constructor.
Qed.

Lemma cgraph_to_bytes_reported p o g : wf_platform p ->
  overflow_reported (file_defects p (42 + 24 * sq_cnt (cg_mat g))
    "CompressedGraph byte size overflowed" "Unable to allocate compressed graph bytes")
    (cgraph_to_bytes p o g).
Proof.
  intros Hp. unfold cgraph_to_bytes, file_defects. rewrite cgraph_bytes_size_eq by done.
  destruct (N.leb_spec (42 + 24 * sq_cnt (cg_mat g)) (usize_max p)); cbn [rbind].
  - destruct (can_alloc p _) eqn:E.
    + repeat apply reports_next; [lia|done|constructor].
    + eexists. split; [done|]. apply reports_next; [lia|]. by constructor.
  - eexists. split; [done|]. by constructor.
Qed.

(** The buffer sizes of both kinds of matrix. *)
Lemma checked_text_size p n cpe : n <> 0 -> 2 <= cpe ->
  n <= usize_max p ->
  (if cpe * (n * n) + 4 * n <=? usize_max p then
     n * n <= usize_max p /\
     (rows ← checked_mulU p 4 n; cells ← checked_mulU p cpe (n * n);
      size ← checked_addU p cells rows; checked_subU size 2) = Some (cpe * (n * n) + 4 * n - 2)
   else n * n <= usize_max p ->
     (rows ← checked_mulU p 4 n; cells ← checked_mulU p cpe (n * n);
      size ← checked_addU p cells rows; checked_subU size 2) = None).
Proof.
  intros Hn Hcpe Hnu. unfold checked_mulU, checked_addU, checked_subU.
  destruct (N.leb_spec (cpe * (n * n) + 4 * n) (usize_max p)) as [H|H].
  - split; [nia|]. destruct (N.leb_spec (4 * n) (usize_max p)); [|nia]. simpl.
    destruct (N.leb_spec (cpe * (n * n)) (usize_max p)); [|nia]. simpl.
    destruct (N.leb_spec (cpe * (n * n) + 4 * n) (usize_max p)); [|nia]. simpl.
    destruct (N.leb_spec 2 (cpe * (n * n) + 4 * n)); [done|nia].
  - intros _. destruct (N.leb_spec (4 * n) (usize_max p)); [|done]. simpl.
    destruct (N.leb_spec (cpe * (n * n)) (usize_max p)); [|done]. simpl.
    destruct (N.leb_spec (cpe * (n * n) + 4 * n) (usize_max p)); [nia|]. done.
Qed.

Lemma matrix_chars_2 n w : n <> 0 -> matrix_chars n w + 2 = (w + 2) * (n * n) + 4 * n.
Proof. unfold matrix_chars. nia. Qed.

Lemma adj_string_reported p m : overflow_reported (text_defects p (adj_dim m) 1) (adj_try_to_string p m).
Proof.
  unfold adj_try_to_string, text_defects.
  destruct (N.eqb_spec (adj_dim m) 0) as [H0|Hn]; [constructor|].
  rewrite matrix_chars_2 by done. unfold matrix_chars. change (1 + 2) with 3.
  unfold adj_text_size. set (n := adj_dim m) in *.
  pose proof (checked_text_size p n 3 Hn ltac:(done)) as Hs.
  unfold usize_try_from. destruct (N.leb_spec n (usize_max p)) as [Hnu|Hnu]; cbn [ok_or rbind].
  2:{ eexists. split; [done|]. by constructor. }
  specialize (Hs Hnu). destruct (N.leb_spec (3 * (n * n) + 4 * n) (usize_max p)) as [Hf|Hf].
  - destruct Hs as [Hnn Hs]. unfold checked_mulU at 1. destruct (N.leb_spec (n * n) (usize_max p)); [|lia].
    cbn [ok_or rbind]. rewrite Hs. cbn [ok_or rbind]. destruct (can_alloc p _) eqn:E.
    + repeat apply reports_next; [lia|lia|done|constructor].
    + eexists. split; [done|]. do 2 (apply reports_next; [lia|]). by constructor.
  - unfold checked_mulU at 1. destruct (N.leb_spec (n * n) (usize_max p)) as [Hnn|Hnn];
      cbn [ok_or rbind].
    + rewrite Hs by done. cbn [ok_or rbind]. eexists. split; [done|].
      apply reports_next; [lia|]. by constructor.
    + eexists. split; [done|]. apply reports_next; [lia|]. by constructor.
Qed.

Lemma buf_put_length st x st' : buf_put st x = Ret st' -> length st'.1 = length st.1.
Proof.
  unfold buf_put. destruct st as [buf pos].
  destruct (_ <? _); [|done]. intros [= <-]. simpl. by rewrite insert_length.
Qed.
Lemma puts_length l st st' : ofold buf_put l st = Ret st' -> length st'.1 = length st.1.
Proof.
  revert st. induction l as [|x l IH]; intros st; cbn [ofold]; [by intros [= ->]|].
  destruct (buf_put st x) as [st1| |] eqn:E; cbn [obind]; [|done..].
  intros H. apply IH in H. rewrite H. by eapply buf_put_length.
Qed.
Lemma write_length {T} p (num : numeric T) hi lo es d cpe cpr l buf buf' :
  ofold (sq_write_cell p num hi lo es d cpe cpr) l buf = Ret buf' -> length buf' = length buf.
Proof.
  revert buf. induction l as [|[[c r] v] l IH]; intros buf; cbn [ofold]; [by intros [= ->]|].
  destruct (sq_write_cell _ _ _ _ _ _ _ _ buf (c, r, v)) as [buf1| |] eqn:E; cbn [obind]; [|done..].
  intros H. apply IH in H. rewrite H. clear H IH. unfold sq_write_cell in E.
  repeat match type of E with obind ?x _ = _ => destruct x eqn:?; cbn [obind] in E; [|done..] end.
  injection E as <-. by match goal with H : ofold buf_put _ _ = Ret _ |- _ => apply puts_length in H end.
Qed.
Lemma puts_fuel l st : ofold buf_put l st <> OutOfFuel.
Proof.
  revert st. induction l as [|x l IH]; intros [buf pos]; cbn [ofold]; [done|].
  unfold buf_put at 1. destruct (_ <? _); cbn [obind]; [apply IH|done].
Qed.

Lemma sq_string_reported {T} p (num : numeric T) o m d hi lo :
  sq_dim m <> 0 -> sq_extremes num o m = (hi, lo) ->
  1 <= sq_width0 num hi lo -> sq_width0 num hi lo + d + 3 <= usize_max p ->
  sq_to_string_with_precision p num o m d <> OutOfFuel ->
  sq_to_string_with_precision p num o m d
    <> Ret (Err (InvalidFormat "Generated matrix string was not UTF-8")) ->
  text_reported p (sq_dim m) (sq_width num hi lo d) (sq_to_string_with_precision p num o m d).
Proof.
  intros Hn Hext Hw0 Hw Hof Hutf.
  pose proof (sq_string_unfold p num o m d hi lo Hn Hext Hw0 Hw) as H.
  destruct (text_fits p (sq_dim m) (sq_width num hi lo d)) eqn:Hf.
  { assert (reports (text_defects p (sq_dim m) (sq_width num hi lo d)) None) as Hnone.
    { unfold text_fits, text_size in Hf. apply andb_true_iff in Hf as [Hf1 Hf2].
      apply N.leb_le in Hf1. unfold text_defects. destruct (N.eqb_spec (sq_dim m) 0); [done|].
      repeat apply reports_next; [nia| |unfold matrix_chars; by rewrite Hf2|constructor].
      rewrite matrix_chars_2 by done. lia. }
    rewrite H in Hof, Hutf |- *.
    destruct (ofold _ (sq_cells o m) _) as [buf| |] eqn:E; cbn [obind] in *; [|done|done].
    destruct (utf8_ok buf); [|done]. split; [done|]. intros _. apply write_length in E.
    rewrite E, (matrix_text_length _ _ (N.to_nat (sq_width num hi lo d)));
      [unfold matrix_chars; by rewrite N2Nat.id|done|].
    intros. apply template_cell_length. }
  clear H Hof Hutf. unfold sq_to_string_with_precision.
  destruct (N.eqb_spec (sq_dim m) 0) as [?|_]; [done|]. rewrite Hext.
  assert ((if num_digits num lo <? num_digits num hi then num_digits num hi else num_digits num lo)
    = sq_width0 num hi lo) as ->.
  { unfold sq_width0. destruct (N.ltb_spec (num_digits num lo) (num_digits num hi)); lia. }
  set (w0 := sq_width0 num hi lo) in *. set (n := sq_dim m) in *.
  assert (HA : (if num_has_decimal num || (0 <? d) then obind (usize_add p 1 d) (usize_add p w0)
     else Ret w0) = Ret (sq_width num hi lo d)).
  { unfold sq_width, usize_add. fold w0. destruct (_ || _); [|done].
    destruct (N.leb_spec (1 + d) (usize_max p)); [|lia]. cbn [obind].
    destruct (N.leb_spec (w0 + (1 + d)) (usize_max p)); [|lia]. f_equal. lia. }
  assert (HB : (if num_has_decimal num || (0 <? d) then obind (usize_add p 1 d) (usize_add p 1)
     else Ret 1) = Ret (1 + (sq_width num hi lo d - w0))).
  { unfold sq_width, usize_add. fold w0. destruct (_ || _).
    - destruct (N.leb_spec (1 + d) (usize_max p)); [|lia]. cbn [obind].
      destruct (N.leb_spec (1 + (1 + d)) (usize_max p)); [|lia]. f_equal. lia.
    - f_equal. lia. }
  rewrite HA, HB. clear HA HB. cbn [obind].
  assert (w0 <= sq_width num hi lo d <= w0 + 1 + d) as Hwd.
  { unfold sq_width. fold w0. destruct (_ || _); lia. }
  set (w := sq_width num hi lo d) in *.
  unfold usize_sub. destruct (N.leb_spec (1 + (w - w0)) w); [|lia]. cbn [obind].
  assert (usize_add p w 2 = Ret (w + 2)) as ->.
  { unfold usize_add. destruct (N.leb_spec (w + 2) (usize_max p)); [done|lia]. }
  cbn [obind]. unfold text_fits, text_size in Hf. unfold sq_text_size, text_reported, text_defects.
  destruct (N.eqb_spec n 0); [done|]. rewrite matrix_chars_2 by done. unfold matrix_chars.
  pose proof (checked_text_size p n (w + 2) Hn ltac:(lia)) as Hs.
  unfold usize_try_from. destruct (N.leb_spec n (usize_max p)) as [Hnu|Hnu]; cbn [ok_or rbind].
  2:{ eexists. split; [done|]. by constructor. }
  specialize (Hs Hnu). destruct (N.leb_spec ((w + 2) * (n * n) + 4 * n) (usize_max p)) as [Hft|Hft].
  - destruct Hs as [Hnn Hs]. unfold checked_mulU at 1. destruct (N.leb_spec (n * n) (usize_max p)); [|lia].
    cbn [ok_or rbind]. rewrite Hs. cbn [ok_or rbind]. cbn [andb] in Hf. rewrite Hf. cbn [negb].
    eexists. split; [done|]. do 2 (apply reports_next; [lia|]). by constructor.
  - unfold checked_mulU at 1. destruct (N.leb_spec (n * n) (usize_max p)) as [Hnn|Hnn];
      cbn [ok_or rbind].
    + rewrite Hs by done. cbn [ok_or rbind]. eexists. split; [done|].
      apply reports_next; [lia|]. by constructor.
    + eexists. split; [done|]. apply reports_next; [lia|]. by constructor.
Qed.

(** Integers, i128 and floats. *)
Lemma text_reported_empty {T} p (num : numeric T) o m d w : sq_dim m = 0 ->
  text_reported p (sq_dim m) w (sq_to_string_with_precision p num o m d).
Proof.
  intros H0. unfold sq_to_string_with_precision. rewrite H0. simpl. split; [constructor|done].
Qed.

Lemma int_reported {T} (num : numeric T) (key : T -> Z) : int_type num key -> forall o m d,
  sq_inv m -> num_has_decimal num = false ->
  (forall c r v, sq_val m c r = Some v -> in_type num key v) ->
  exists w, forall p, wf_platform p -> d + 44 <= usize_max p ->
    text_reported p (sq_dim m) w (sq_to_string_with_precision p num o m d).
Proof.
  intros HT o m d Hinv Hdec Hty.
  destruct (N.eq_dec (sq_dim m) 0) as [H0|Hn].
  { exists 0. intros p _ _. by apply text_reported_empty. }
  destruct (sq_extremes num o m) as [hi lo] eqn:Hext.
  destruct (int_extremes num key HT o m hi lo Hty Hext) as (_ & Hw & _).
  exists (sq_width num hi lo d). intros p Hp Hd.
  destruct (int_safe num key HT p o m d (wf_usize_min p Hp) Hd Hinv Hdec Hty) as (r & Hr & Hres).
  apply sq_string_reported; [done|done|lia|lia| |]; rewrite Hr; [done|].
  intros [= ->]. by destruct Hres.
Qed.

Lemma i128_reported o m d : sq_inv m -> d + 44 <= 65535 ->
  (forall c r v, sq_val m c r = Some v -> in_type i128_numeric (fun z => z) v) ->
  exists w, forall p, wf_platform p ->
    text_reported p (sq_dim m) w (sq_to_string_with_precision p i128_numeric o m d).
Proof.
  intros Hinv Hd Hty.
  destruct (N.eq_dec (sq_dim m) 0) as [H0|Hn].
  { exists 0. intros p _. by apply text_reported_empty. }
  destruct (sq_extremes i128_numeric o m) as [hi lo] eqn:Hext.
  destruct (int_extremes _ _ i128_int o m hi lo Hty Hext) as (_ & Hw & _).
  exists (sq_width i128_numeric hi lo d). intros p Hp. pose proof (wf_usize_min p Hp) as H16.
  destruct (i128_prints p o m d H16 Hd Hinv Hty) as (r & Hr & Hres).
  apply sq_string_reported; [done|done|lia|lia| |]; rewrite Hr; [done|].
  intros [= ->]. destruct Hres as [[msg Hmsg] _]. done.
Qed.

Lemma float_reported num prec emax : float_type num prec emax ->
  float_as_i128 (num_min num) = i128_min -> float_as_i128 (num_max num) = i128_max ->
  forall o m d, sq_inv m ->
  (forall c r v, sq_val m c r = Some v -> valid_binary prec emax v = true) ->
  exists w, forall p, wf_platform p -> d + 44 <= usize_max p ->
    text_reported p (sq_dim m) w (sq_to_string_with_precision p num o m d).
Proof.
  intros HT Hmin Hmax o m d Hinv Hval.
  destruct (N.eq_dec (sq_dim m) 0) as [H0|Hn].
  { exists 0. intros p _ _. by apply text_reported_empty. }
  destruct (sq_extremes num o m) as [hi lo] eqn:Hext.
  destruct (float_extremes num prec emax HT o m hi lo Hval Hext) as [Hw _].
  exists (sq_width num hi lo d). intros p Hp Hd. pose proof (wf_usize_min p Hp) as H16.
  assert (forall n items shows out, prints_floats p n d items shows out ->
    out <> OutOfFuel /\ out <> Ret (Err (InvalidFormat "Generated matrix string was not UTF-8")))
    as Hgen.
  { intros n items shows out (w & _ & H). cbv zeta in H. destruct H as (H1 & H2 & H3).
    match type of H2 with ?A -> ?B -> _ => set (F := A) in *; set (Q := B) in * end.
    assert (F \/ ~ F) as [HF|HF].
    { assert (Decision F) as DF; [|destruct DF; auto].
      unfold F. apply and_dec; [apply decide_rel, _|apply bool_eq_dec]. }
    - split; intros ->.
      + assert (~ Q) as HQ by (intros HQ; by specialize (H2 HF HQ)).
        by destruct (H3 HF HQ) as (s & ? & _).
      + assert (~ Q) as HQ by (intros HQ; by specialize (H2 HF HQ)).
        by destruct (H3 HF HQ) as (s & ? & _).
    - destruct (H1 HF) as [msg ->]. done. }
  destruct (Hgen _ _ _ _ (float_exact num prec emax HT Hmin Hmax p o o m d H16 Hd Hinv Hn Hval))
    as [Hf Hu].
  apply sq_string_reported; [done|done|lia|lia|done|done].
Qed.

Lemma cnt_card cg k : sq_inv (cg_mat cg) ->
  (forall c r w, sq_val (cg_mat cg) c r = Some w -> w <> 0) ->
  has_card (fun '(c, r) => get_compressed_matrix_entry cg c r <> 0) k -> k < two64 ->
  sq_cnt (cg_mat cg) = k.
Proof.
  intros Hi Hw Hk Hk64.
  assert (N.of_nat (length (sq_items plain_order (cg_mat cg))) = k) as Hlen.
  { eapply has_card_unique; [|exact Hk].
    rewrite <- (fmap_length (fun '(e, c, r) => (c, r)) (sq_items plain_order (cg_mat cg))).
    eapply has_card_ext; [|apply has_card_list, (NoDup_sq_items_keys plain_order), Hi].
    intros [c r]. rewrite elem_of_list_fmap, c_get_entry_val. split.
    - intros ([[w c'] r'] & [= -> ->] & Hin). apply elem_of_sq_items in Hin; [|done].
      rewrite Hin. simpl. by apply (Hw _ _ _ Hin).
    - destruct (sq_val (cg_mat cg) c r) as [w|] eqn:E; [|done]. intros _. exists (w, c, r).
      split; [done|]. by apply elem_of_sq_items. }
  rewrite (si_cnt _ Hi). rewrite length_sq_items in Hlen by done. rewrite Hlen.
  by apply N.mod_small.
Qed.
