(** Properties C47, C80 and C81, continued: exactly when a text ends the process. *)
From Coq Require Import ZArith Ascii String SpecFloat.
From Verif Require Import Base HashIter F64 Numeric Adj Sq Standard Compressed Spec MatSpec TextSpec
  Api CApi CSpec Py PySpec PyProg CProg AdjProofs SqProofs GraphProofs CompressProofs ApproxProofs
  TextProofs SqTextProofs NumTextProofs SqShowProofs FloatTextProofs SqExactProofs PoolTextProofs CApiProofs CHeapProofs
  PropCommon PropText PropTextMore PropWrap PropPoolMore PropC PropPy PropCProg PropProg.
Local Arguments N.mul : simpl never.
Local Arguments N.add : simpl never.
Local Arguments N.pow : simpl never.

(** ** C47 for the matrices of find_avg_pool_matrix *)

(** Printing such a matrix with [d] decimals panics exactly if it has an entry, its text fits
    in memory, and cells are wider than 65535 characters; cells have [d] + 2 characters
    unless blocks have 2^32 vertices.  If the width of a cell and what follows it is not even
    in usize, it panics if overflow is checked for, and otherwise if the text would fit with the
    width wrapped around and either there is an entry or the wrapped width is below 2. *)
Definition text_panics (p : platform) (m : sq spec_float) (w d : N) : Prop :=
  let n := sq_dim m in
  if w + d + 3 <=? usize_max p then
    let size := (w + 1 + d + 2) * (n * n) + 4 * n in
    size <= usize_max p /\ can_alloc p (size - 2) = true /\
    sq_items plain_order m <> [] /\ 65535 < w + 1 + d
  else
    n <> 0 /\
    (overflow_checks p = true \/
     let c := w + d + 3 - (usize_max p + 1) in
     let size := c * (n * n) + 4 * n in
     n * n <= usize_max p /\ size <= usize_max p /\ can_alloc p (size - 2) = true /\
     (c < 2 \/ sq_items plain_order m <> [])).

Lemma unit_part v : is_f64 v = true -> f64_lt f64_zero v = true -> f64_le v f64_one = true ->
  float_as_i128 v = 0%Z \/ float_as_i128 v = 1%Z.
Proof.
  intros Hv H0 H1.
  assert (not_nan v = true) as Nv by (by destruct v).
  assert (float_as_i128 f64_zero <= float_as_i128 v)%Z as L.
  { apply (as_i128_mono 53 1024); try done. unfold f64_lt, SFltb in H0.
    rewrite (fkey_compare 53 1024) in H0 by done.
    destruct (Z.compare_spec (fkey 53 1024 f64_zero) (fkey 53 1024 v)); try done; lia. }
  assert (float_as_i128 v <= float_as_i128 f64_one)%Z as U.
  { apply (as_i128_mono 53 1024); try done. unfold f64_le, SFleb in H1.
    rewrite (fkey_compare 53 1024) in H1 by done.
    destruct (Z.compare_spec (fkey 53 1024 v) (fkey 53 1024 f64_one)); try done; lia. }
  change (float_as_i128 f64_zero) with 0%Z in L.
  assert (float_as_i128 f64_one = 1%Z) as E by by vm_compute. rewrite E in U. lia.
Qed.

Lemma makes_text_abort h r : ~ makes_text h r Abort.
Proof.
  unfold makes_text. destruct r as [s|err]; [|done]. destruct (existsb _ s); [done|].
  by intros (? & ? & _).
Qed.

Lemma widest_40 items w : widest_integer_part items w -> w <= 40.
Proof.
  intros [_ [(v & c & r & z & t & Hv & _ & Hz & Ht & <-)|[_ ?]]]; [|lia].
  apply integer_part_spec in Hz as ->.
  rewrite (signed_decimal_unique _ _ _ Ht (Z_text_spec _)). apply int_width.
  pose proof (as_i128_range v). assert (- 2 ^ 128 < i128_min)%Z by (by vm_compute).
  assert (i128_max < 2 ^ 128)%Z by (by vm_compute). lia.
Qed.

Theorem C47_pool_exact p o o' g b m d : wf_platform p -> reach p g ->
  find_avg_pool_matrix p o g b = Ret m -> d <= usize_max p ->
  2 ^ 17 <= usize_max p \/ d + 44 <= usize_max p ->
  exists w, widest_integer_part (sq_items plain_order m) w /\
    (N.min b (vertex_count g) < 2 ^ 32 -> sq_items plain_order m <> [] -> w = 1) /\
    (sq_to_string_with_precision p f64_numeric o' m d = Panic <-> text_panics p m w d) /\
    (sq_to_string_with_precision p f64_numeric o' m d = Panic \/
     exists r, sq_to_string_with_precision p f64_numeric o' m d = Ret r).
Proof.
  intros Hp Hr Hm Hdu Hd. apply reach_inv in Hr; [|done].
  assert (sq_inv m) as Hinv by by eapply pool_inv.
  assert (forall v c r, (v, c, r) ∈ sq_items plain_order m -> is_f64 v = true /\ below (2 ^ 127) v) as Hval.
  { intros v c r Hv. apply elem_of_sq_items in Hv; [|done]. by eapply pool_any. }
  assert (forall w, widest_integer_part (sq_items plain_order m) w ->
    N.min b (vertex_count g) < 2 ^ 32 -> sq_items plain_order m <> [] -> w = 1) as Hone.
  { intros w [Hw1 Hw2] Hb Hne.
    assert (forall v c r z t, (v, c, r) ∈ sq_items plain_order m -> integer_part v z ->
      signed_decimal t z -> N.of_nat (length t) = 1) as Hlen.
    { intros v c r z t Hv Hz Ht. apply elem_of_sq_items in Hv; [|done].
      destruct (pool_unit p o g b m c r v Hr ltac:(lia) Hm Hv) as (V1 & V2 & V3).
      apply integer_part_spec in Hz as ->. apply unit_part in V3 as V4; [|done|done].
      rewrite (signed_decimal_unique _ _ _ Ht (Z_text_spec _)).
      destruct V4 as [->| ->]; by vm_compute. }
    destruct Hw2 as [(v & c & r & z & t & Hv & _ & Hz & Ht & <-)|[Hnan _]].
    - by eapply Hlen.
    - destruct (sq_items plain_order m) as [|[[v c] r] l] eqn:E; [done|]. exfalso.
      assert (v = S754_nan) as -> by (eapply Hnan; by left).
      assert (sq_val m c r = Some S754_nan) as Hv.
      { apply (elem_of_sq_items plain_order); [done|]. rewrite E. by left. }
      by destruct (pool_unit p o g b m c r _ Hr ltac:(lia) Hm Hv) as (_ & V2 & _). }
  destruct (decide (sq_dim m = 0)) as [H0|H0].
  { assert (sq_items plain_order m = []) as E.
    { destruct (sq_items plain_order m) as [|[[v c] r] l] eqn:E; [done|]. exfalso.
      assert (sq_val m c r = Some v) as Hv.
      { apply (elem_of_sq_items plain_order); [done|]. rewrite E. by left. }
      destruct (si_bound m Hinv c r ltac:(by eexists)). lia. }
    assert (sq_to_string_with_precision p f64_numeric o' m d = Ret (Ok [])) as Ht.
    { unfold sq_to_string_with_precision. by rewrite H0. }
    exists 39. rewrite Ht. unfold text_panics. rewrite E. split_and!; [|done| |right; by eexists].
    - split; [by intros ? ? ? ? ? ?%elem_of_nil|]. right. split; [by intros ? ? ? ?%elem_of_nil|lia].
    - split; [done|]. cbv zeta. destruct (_ <=? _); [by intros (_ & _ & ? & _)|by intros [? _]]. }
  destruct (decide (d + 44 <= usize_max p)) as [Hd44|Hd44].
  2:{ destruct Hd as [Hd|?]; [|done].
    destruct (sq_extremes f64_numeric o' m) as [hi lo] eqn:Hext.
    assert (forall c r v, sq_val m c r = Some v -> valid_binary 53 1024 v = true) as Hv.
    { intros c r v Hv. by eapply pool_any. }
    assert (widest_integer_part (sq_items plain_order m) (sq_width0 f64_numeric hi lo)) as Hw.
    { eapply (float_widest f64_numeric 53 1024 f64_type); [by vm_compute|by vm_compute|done..]. }
    exists (sq_width0 f64_numeric hi lo). split; [done|]. split; [by apply Hone|].
    pose proof (prints_huge_gen p f64_numeric o' plain_order m d hi lo Hp Hinv H0 Hext
      ltac:(by eapply (float_extremes f64_numeric 53 1024 f64_type)) Hd Hdu ltac:(lia)) as (P1 & P2 & P3).
    set (w := sq_width0 f64_numeric hi lo) in *. set (out := sq_to_string_with_precision _ _ _ _ _) in *.
    unfold text_panics. cbv zeta. cbv zeta in P3. set (n := sq_dim m) in *.
    destruct (N.leb_spec (w + d + 3) (usize_max p)) as [Hl|Hl].
    - destruct (P1 Hl) as [msg ->]. split; [|right; by eexists]. split; [done|].
      intros (F1 & F2 & _). exfalso. apply (wf_alloc p Hp) in F2.
      assert (1 <= n * n) by nia.
      assert ((w + 1 + d + 2) * 1 <= (w + 1 + d + 2) * (n * n)) by (apply N.mul_le_mono_l; done).
      change (2 ^ 17) with 131072 in Hd. lia.
    - destruct (overflow_checks p) eqn:Ho.
      + rewrite (P2 Hl eq_refl). split; [|by left]. split; [|done]. intros _. split; [done|by left].
      + specialize (P3 Hl eq_refl). set (c := w + d + 3 - (usize_max p + 1)) in *.
        destruct P3 as (Q1 & Q2 & Q3). 
        match type of Q2 with ?F -> _ => set (fits := F) in * end.
        assert (Decision fits) as DF.
        { unfold fits. repeat apply and_dec; first [apply decide_rel, _|apply bool_eq_dec]. }
        destruct (decide fits) as [Hf|Hf].
        * destruct (decide (c < 2 \/ sq_items plain_order m <> [])) as [Hs|Hs].
          -- rewrite (Q2 Hf Hs). split; [|by left]. split; [|done]. intros _.
             split; [done|]. right. destruct Hf as (? & ? & ?). done.
          -- rewrite Q3; [|done|lia|tauto]. split; [|right; by eexists]. split; [done|].
             intros [_ [?|(_ & _ & _ & ?)]]; [done|tauto].
        * destruct (Q1 Hf) as [msg ->]. split; [|right; by eexists]. split; [done|].
          intros [_ [?|(? & ? & ? & _)]]; [done|]. exfalso. apply Hf. by split_and!. }
  clear Hd. rename Hd44 into Hd.
  pose proof (float_exact f64_numeric 53 1024 f64_type ltac:(by vm_compute) ltac:(by vm_compute) p o'
    plain_order m d (usize_16 p Hp) Hd Hinv H0) as H.
  destruct (prints_floats_panic _ _ _ _ _ _ (H ltac:(intros c r v Hv; by eapply pool_any)))
    as (Htot & w & Hw & Hpan).
  exists w. split_and!; [done|by apply Hone| |done].
  rewrite Hpan. clear Hpan Htot H. unfold text_panics. cbv zeta.
  pose proof (widest_40 _ _ Hw) as H40.
  destruct (N.leb_spec (w + d + 3) (usize_max p)) as [_|?]; [|lia].
  split.
  - intros [[F1 F2] (v & c & r & t & Hv & Ht & Hor)]. split_and!; [done..| |].
    + intros E. rewrite E in Hv. by apply elem_of_nil in Hv.
    + destruct Hor as [?|Hlong]; [done|]. exfalso.
      destruct (Hval v c r Hv) as [V1 V2].
      rewrite (rounded_text_unique _ _ _ _ Ht (float_text_spec d v)) in Hlong.
      pose proof (float_text_room d v V2) as Hroom.
      assert (v = S754_nan \/ v <> S754_nan) as [->|Nv]
        by (destruct v; first [by left|right; discriminate]).
      * change (length (float_text d S754_nan)) with 3%nat in Hlong. nia.
      * pose proof (proj1 Hw v c r (float_as_i128 v) (Z_text (float_as_i128 v)) Hv Nv
          ltac:(by apply integer_part_spec) (Z_text_spec _)). nia.
  - intros (F1 & F2 & Hne & Hwide). split; [done|].
    destruct (sq_items plain_order m) as [|[[v c] r] l]; [done|].
    exists v, c, r, (float_text d v). split_and!; [by left|apply float_text_spec|by left].
Qed.
Print Assumptions C47_pool_exact.

(** 65533 decimals are the most that can be asked for. *)
Example C47_pool_case : exists m, find_avg_pool_matrix plat64 plain_order sample_dir 3 = Ret m /\
  sq_to_string_with_precision plat64 f64_numeric plain_order m 65534 = Panic /\
  exists r, sq_to_string_with_precision plat64 f64_numeric plain_order m 65533 = Ret r.
Proof.
  assert (exists m, find_avg_pool_matrix plat64 plain_order sample_dir 3 = Ret m /\
    sq_dim m = 3 /\ sq_items plain_order m <> []) as (m & Hm & Hn & Hne).
  { apply ret_ex. by vm_compute. }
  exists m. split; [done|].
  destruct (C47_pool_exact plat64 plain_order plain_order sample_dir 3 m 65534 plat64_wf
    (sample_dir_reach _) Hm ltac:(by vm_compute) ltac:(left; by vm_compute)) as (w & _ & Hw & Hpan & _).
  destruct (C47_pool_exact plat64 plain_order plain_order sample_dir 3 m 65533 plat64_wf
    (sample_dir_reach _) Hm ltac:(by vm_compute) ltac:(left; by vm_compute)) as (w' & _ & Hw' & Hpan' & Htot).
  specialize (Hw ltac:(by vm_compute) Hne). specialize (Hw' ltac:(by vm_compute) Hne). subst w w'.
  split.
  - apply Hpan. unfold text_panics. rewrite Hn. cbv zeta.
    assert (1 + 65534 + 3 <=? usize_max plat64 = true) as -> by by vm_compute.
    split_and!; [by vm_compute..|done|lia].
  - destruct Htot as [E|?]; [|done]. apply Hpan' in E. unfold text_panics in E. cbv zeta in E.
    assert (1 + 65533 + 3 <=? usize_max plat64 = true) as F by by vm_compute. rewrite F in E.
    destruct E as (_ & _ & _ & ?). lia.
Qed.

(** ** C81 *)

(** gphrx_matrix_to_string_with_precision ends the process exactly then. *)
Theorem C81_text_abort p e a d h m : wf_platform p -> c_reach p h -> ce_platform e = p ->
  wf_alloc_fn (ce_alloc e) -> a <> null -> h !! a = Some (OMatrix m) -> d <= usize_max p ->
  2 ^ 17 <= usize_max p \/ d + 44 <= usize_max p ->
  exists w, widest_integer_part (sq_items plain_order m) w /\
    (cexec e (CMatrixToStringPrecision a d) h = Abort <-> text_panics p m w d).
Proof.
  intros Hp Hh He Hal Ha Hm Hdu Hd.
  destruct (C52_reachable p h a Hh) as (_ & _ & _ & Hr). destruct (Hr m Hm) as (g & o & b & Hg & _ & Hpool).
  destruct (C47_pool_exact p o (ce_order1 e) g b m d Hp Hg Hpool Hdu Hd) as (w & Hw & _ & Hpan & Htot).
  exists w. split; [done|]. rewrite <-Hpan.
  destruct (C52_matrix_texts e h a m Hal Ha Hm) as [HT _]. specialize (HT d). rewrite He in HT.
  destruct Htot as [E|[r E]]; rewrite E in HT |- *; [by split|].
  split; [|done]. intros Hab. rewrite Hab in HT. by apply makes_text_abort in HT.
Qed.
Print Assumptions C81_text_abort.

(** ** C80 *)

(** The calls of a Python program that end the process are exactly these. *)
Theorem C80_ends p w e c : wf_platform p -> py_world p w -> step_ok p w (SCall e c) ->
  let ends := run_step w (SCall e c) = WAbort in
  match c with
  | PFindAvgPool a b | PApproximate a b _ => ends <-> overflow_checks p = true /\
      exists g, w_heap w !! a = Some (OGraph g) /\ 2 ^ 32 <= N.min (c_uint64 b) (vertex_count g)
  | PMToString a decimals =>
      let d := c_size_t p (default 2%Z decimals) in
      2 ^ 17 <= usize_max p \/ d + 44 <= usize_max p -> exists m w', w_heap w !! a = Some (OMatrix m) /\
        widest_integer_part (sq_items plain_order m) w' /\ (ends <-> text_panics p m w' d)
  | _ => ~ ends
  end.
Proof.
  intros Hp Hw Hok ends. destruct (C80_safe p w _ Hp Hw Hok) as [_ Hab].
  pose proof (world_owns p w Hp Hw) as (Hs & _). rewrite Forall_forall in Hs.
  destruct Hok as (He & Hal & _ & Hargs & Hself).
  destruct (C59_makers e (w_heap w) Hal) as (_ & Hmg & _). cbv zeta in Hmg. rewrite He in Hmg.
  assert (forall r, pyexec e c (w_heap w) = r -> ends <-> r = PyAbort) as Hends.
  { intros r <-. unfold ends. cbn [run_step]. by destruct (pyexec e c (w_heap w)). }
  destruct c; try (intros Hend; destruct (Hab Hend) as (? & ? & [= <- <-] & H); exact H).
  - split; [intros Hend; destruct (Hab Hend) as (? & ? & [= <- <-] & H); exact H|].
    intros (Ho & g & Hg & Hwide). destruct (Hs _ (Hself _ eq_refl)) as (Ha & g' & Hg' & Hr).
    rewrite Hg in Hg'. injection Hg' as <-.
    destruct (C36_panics_exactly p (ce_order1 e) (ce_order2 e) g (c_uint64 block_dimension) f64_zero Hp Hr)
      as (P1 & _). destruct (Hmg _ g Ha Hg) as (_ & M & _). specialize (M block_dimension).
    rewrite (proj2 P1 (conj Ho Hwide)) in M. by apply (Hends _ M).
  - split; [intros Hend; destruct (Hab Hend) as (? & ? & [= <- <-] & H); exact H|].
    intros (Ho & g & Hg & Hwide). destruct (Hs _ (Hself _ eq_refl)) as (Ha & g' & Hg' & Hr).
    rewrite Hg in Hg'. injection Hg' as <-.
    destruct (C36_panics_exactly p (ce_order1 e) (ce_order2 e) g (c_uint64 block_dimension) threshold Hp Hr)
      as (_ & P1 & _). destruct (Hmg _ g Ha Hg) as (_ & _ & M & _). specialize (M block_dimension threshold).
    rewrite (proj2 P1 (conj Ho Hwide)) in M. by apply (Hends _ M).
  - intros d Hd. assert (d <= usize_max p) as Hdu.
    { unfold d, c_size_t. match goal with |- context [(?z mod ?k)%Z] =>
        pose proof (Z.mod_pos_bound z k ltac:(lia)) end. lia. }
    destruct (Hs _ (Hself _ eq_refl)) as (Ha & m & g & o & b & Hm & Hr & Hpool).
    destruct (C47_pool_exact p o (ce_order1 e) g b m d Hp Hr Hpool Hdu Hd) as (w' & Hw' & _ & Hpan & Htot).
    exists m, w'. split_and!; [done..|]. rewrite <-Hpan.
    destruct (C52_matrix_texts e (w_heap w) _ m Hal Ha Hm) as [HT _]. specialize (HT d). rewrite He in HT.
    rewrite (Hends _ eq_refl). cbn [pyexec]. rewrite He. fold d.
    destruct Htot as [E|[r E]]; rewrite E in HT |- *.
    + rewrite py_string_abort by done. done.
    + split; [|done]. intros Hend. exfalso. revert Hend.
      destruct r as [s|err]; simpl in HT; [destruct (existsb _ s)|].
      * by rewrite py_string_null.
      * by rewrite (py_string_ok _ _ s).
      * by rewrite py_string_null.
Qed.
Print Assumptions C80_ends.

(** A small graph is pooled and the matrix shown with -1 decimals, with overflow checks and
    without. *)
Definition env64r : cenv := CEnv plat64r bump_alloc plain_order reversed_order.
Definition shown (e : cenv) (d : Z) : list pystep :=
  [SCall e (PNew None); SCall e (PAddEdge 16 0%Z 1%Z); SCall e (PFindAvgPool 16 1%Z);
   SCall e (PMToString 17 (Some d))].
Example C80_ends_case :
  run_steps (World ∅ []) (shown env64 (-1)) = WAbort /\
  run_steps (World ∅ []) (shown env64r (-1)) = WAbort /\
  match run_steps (World ∅ []) (shown env64r (-44)) with WOk _ => True | _ => False end.
Proof. split_and!; by vm_compute. Qed.
