(** Property C91: the text of a matrix depends on its dimension and its entries only. *)
From Coq Require Import ZArith Ascii String SpecFloat.
From Verif Require Import Base HashIter F64 Numeric Adj Sq Standard Compressed Spec MatSpec TextSpec
  Api AdjProofs SqProofs BitsProofs GraphProofs CompressProofs ApproxProofs TextProofs SqTextProofs
  NumTextProofs SqShowProofs FloatTextProofs SqExactProofs WrapTextProofs MatrixProofs
  CodecMoreProofs PoolTextProofs PropCommon PropPool PropText PropTextMore PropWrap PropMore.
Local Arguments N.mul : simpl never.
Local Arguments N.add : simpl never.
Local Arguments N.pow : simpl never.

(** ** Writing cells that do not overlap, in any order *)

Section Same.
Context {T : Type} (p : platform) (num : numeric T) (o o' : hash_order) (m m' : sq T) (d : N)
  (hi lo hi' lo' : T).
Hypothesis Hinv : sq_inv m.
Hypothesis Hinv' : sq_inv m'.
Hypothesis Hdim : sq_dim m = sq_dim m'.
Hypothesis Hval : forall c r, sq_val m c r = sq_val m' c r.
Hypothesis Hext : sq_extremes num o m = (hi, lo).
Hypothesis Hext' : sq_extremes num o' m' = (hi', lo').
Hypothesis Hwidth : sq_width0 num hi lo = sq_width0 num hi' lo'.
Let w := sq_width num hi lo d.
Hypothesis Hcell : forall v, sq_cell_text num hi lo w d v = sq_cell_text num hi' lo' w d v.
Hypothesis Hw0 : 1 <= sq_width0 num hi lo.
Hypothesis Hw : sq_width0 num hi lo + d + 3 <= usize_max p.
Hypothesis Hlen : forall c r v t, sq_val m c r = Some v -> sq_cell_text num hi lo w d v = Ret t ->
  N.of_nat (length t) <= w + 2.

Lemma cell_text_alike a b : (exists t, sq_cell_text num hi lo w d a = Ret t) \/
  sq_cell_text num hi lo w d b = Panic.
Proof.
  unfold sq_cell_text, fmt_count. destruct (_ && _); repeat (destruct (_ <=? 65535); cbn [obind]); eauto.
Qed.

Lemma same_text : same_outcome (same_result eq)
  (sq_to_string_with_precision p num o m d) (sq_to_string_with_precision p num o' m' d).
Proof.
  destruct (N.eq_dec (sq_dim m) 0) as [H0|Hn].
  { unfold sq_to_string_with_precision. by rewrite <-Hdim, H0. }
  pose proof (sq_string_unfold p num o m d hi lo Hn Hext Hw0 Hw) as H1.
  assert (sq_dim m' <> 0) as Hn' by congruence.
  assert (1 <= sq_width0 num hi' lo') as Hw0' by congruence.
  assert (sq_width0 num hi' lo' + d + 3 <= usize_max p) as Hw' by congruence.
  pose proof (sq_string_unfold p num o' m' d hi' lo' Hn' Hext' Hw0' Hw') as H2.
  assert (sq_width num hi' lo' d = w) as Hww by (unfold w, sq_width; by rewrite Hwidth).
  assert (template num hi' lo' d = template num hi lo d) as Htp by (rewrite !template_eq, Hwidth by done; done).
  rewrite Hww, <-Hdim, Htp in H2. fold w in H1. set (n := sq_dim m) in *.
  destruct (text_fits p n w) eqn:Hfit; [|by destruct H1 as [? ->], H2 as [? ->]].
  apply text_fits_spec in Hfit as [Hfit _]. rewrite H1, H2. clear H1 H2.
  set (buf := matrix_text n (fun _ _ => template num hi lo d)).
  assert (N.of_nat (length buf) = (w + 2) * (n * n) + 4 * n - 2) as Hbl.
  { unfold buf. rewrite (matrix_text_length n _ (N.to_nat w)); [by rewrite N2Nat.id|done|].
    intros. apply template_cell_length. }
  assert (forall c r v, sq_val m c r = Some v -> c < n /\ r < n) as Hbound.
  { intros c r v Hv. apply (si_bound m Hinv). by eexists. }
  set (txt_of := fun v => match sq_cell_text num hi lo w d v with Ret t => t | _ => [] end).
  destruct (sq_cells o m) as [|[[c0 r0] v0] l0] eqn:E.
  { destruct (sq_cells o' m') as [|[[c1 r1] v1] l1] eqn:E'.
    - cbn [ofold obind]. destruct (utf8_ok buf); done.
    - assert (sq_val m c1 r1 = Some v1) as Hv.
      { rewrite Hval. apply (elem_of_sq_cells o'). rewrite E'. left. }
      apply (elem_of_sq_cells o) in Hv. rewrite E in Hv. by apply elem_of_nil in Hv. }
  rewrite <-E.
  assert (sq_val m c0 r0 = Some v0) as Hv0 by (apply (elem_of_sq_cells o); rewrite E; left).
  destruct (cell_text_alike v0 v0) as [[t0 Ht0]|Hpan].
  2: { (* too wide for the formatting machinery *)
    assert (forall v, sq_cell_text num hi lo w d v = Panic) as Hall.
    { intros v. destruct (cell_text_alike v v) as [[t Ht]|]; [|done].
      destruct (cell_text_alike v0 v) as [[t' Ht']|]; [congruence|done]. }
    assert (ofold (sq_write_cell p num hi lo w d (w + 2) (4 + n * (w + 2))) (sq_cells o m) buf = Panic) as ->.
    { rewrite E. cbn [ofold]. destruct (Hbound c0 r0 v0 Hv0).
      rewrite write_cell_unfold; [|done|done|nia|lia]. by rewrite Hall. }
    destruct (sq_cells o' m') as [|[[c1 r1] v1] l1] eqn:E'.
    { rewrite Hval in Hv0. apply (elem_of_sq_cells o') in Hv0. rewrite E' in Hv0. by apply elem_of_nil in Hv0. }
    assert (sq_val m c1 r1 = Some v1) as Hv.
    { rewrite Hval. apply (elem_of_sq_cells o'). rewrite E'. left. }
    cbn [ofold]. destruct (Hbound c1 r1 v1 Hv).
    rewrite write_cell_unfold; [|done|done|nia|lia]. by rewrite <-Hcell, Hall. }
  assert (forall v, sq_cell_text num hi lo w d v = Ret (txt_of v)) as Htx.
  { intros v. unfold txt_of. destruct (cell_text_alike v v0) as [[t ->]|?]; [done|congruence]. }
  assert (forall (o : hash_order) mm a b, (forall c r, sq_val mm c r = sq_val m c r) ->
    (forall v, sq_cell_text num a b w d v = Ret (txt_of v)) ->
    exists buf', ofold (sq_write_cell p num a b w d (w + 2) (4 + n * (w + 2))) (sq_cells o mm) buf = Ret buf' /\
      length buf' = length buf /\
      forall q x, buf' !! q = Some x -> 
        (exists c r v, sq_val m c r = Some v /\
           (cell_pos n w c r <= q < cell_pos n w c r + length (txt_of v))%nat /\
           txt_of v !! (q - cell_pos n w c r)%nat = Some x) \/
        ((forall c r v, sq_val m c r = Some v ->
           ~ (cell_pos n w c r <= q < cell_pos n w c r + length (txt_of v))%nat) /\ buf !! q = Some x)) as Hgen.
  { clear o Hext E. intros o mm a b Hmm Hab.
    destruct (write_cells_exact p num a b w d n txt_of (sq_cells o mm) buf) as [_ H2]; [nia|lia|done| |].
    { intros c r v Hv. apply elem_of_sq_cells in Hv. rewrite Hmm in Hv. by destruct (Hbound c r v Hv). }
    destruct H2 as (buf' & Heq & Hl' & Hq).
    { intros H. apply Exists_exists in H as ([[c r] v] & Hv & Hr). apply elem_of_sq_cells in Hv.
      rewrite Hmm in Hv. destruct (Hbound c r v Hv) as [Hc Hrr]. simpl in Hr.
      pose proof (end_distance n w c r Hc Hrr) as He. pose proof (Hlen c r v _ Hv (Htx v)) as Hl.
      unfold text_size in He. rewrite <-Hbl in He. revert He.
      generalize ((n - 1 - r) * (4 + n * (w + 2))), ((n - 1 - c) * (w + 2)). lia. }
    exists buf'. split_and!; [done|done|]. intros q x Hx.
    destruct (decide (Exists (fun '(c, r, v) =>
      (cell_pos n w c r <= q < cell_pos n w c r + length (txt_of v))%nat) (sq_cells o mm))) as [Hex|Hno].
    - left. apply Exists_exists in Hex as ([[c r] v] & Hv & Hin).
      pose proof Hv as Hv'. apply elem_of_sq_cells in Hv'. rewrite Hmm in Hv'.
      exists c, r, v. split_and!; [done|lia|lia|].
      destruct (Hq q (fun x => txt_of v !! (q - cell_pos n w c r)%nat = Some x)) as (x' & Hx' & HP).
      + intros c1 r1 v1 y Hv1 Hle Hy. apply elem_of_sq_cells in Hv1. rewrite Hmm in Hv1.
        destruct (Hbound c r v Hv'), (Hbound c1 r1 v1 Hv1).
        pose proof (lookup_lt_Some _ _ _ Hy) as Hlt.
        pose proof (Hlen c r v _ Hv' (Htx v)). pose proof (Hlen c1 r1 v1 _ Hv1 (Htx v1)).
        destruct (cell_pos_sep n w c r c1 r1 (N.of_nat (q - cell_pos n w c r))) with
          (k' := N.of_nat (q - cell_pos n w c1 r1)) as (-> & -> & _); [done..|lia|lia|lia|].
        rewrite Hv' in Hv1. by injection Hv1 as <-.
      + right. by exists c, r, v.
      + rewrite Hx in Hx'. by injection Hx' as <-.
    - right. assert (forall c r v, sq_val m c r = Some v ->
        ~ (cell_pos n w c r <= q < cell_pos n w c r + length (txt_of v))%nat) as Hout.
      { intros c r v Hv Hin. apply Hno. apply Exists_exists. exists (c, r, v). split; [|done].
        apply elem_of_sq_cells. by rewrite Hmm. }
      split; [done|].
      destruct (lookup_lt_is_Some_2 buf q) as [y Hy].
      { rewrite <-Hl'. by eapply lookup_lt_Some. }
      destruct (Hq q (fun x => buf !! q = Some x)) as (x' & Hx' & HP).
      + intros c1 r1 v1 z Hv1 Hle Hz. apply elem_of_sq_cells in Hv1. rewrite Hmm in Hv1.
        destruct (Hout c1 r1 v1 Hv1). apply lookup_lt_Some in Hz. lia.
      + left. eauto.
      + rewrite Hx in Hx'. by injection Hx' as <-. }
  destruct (Hgen o m hi lo (fun _ _ => eq_refl) Htx) as (b1 & -> & Hl1 & Hb1).
  destruct (Hgen o' m' hi' lo') as (b2 & -> & Hl2 & Hb2); [by intros|by intros v; rewrite <-Hcell|].
  cbn [obind].
  assert (b1 = b2) as ->.
  { apply list_eq. intros q. destruct (b1 !! q) as [x|] eqn:E1.
    - destruct (lookup_lt_is_Some_2 b2 q) as [y E2].
      { rewrite Hl2, <-Hl1. by eapply lookup_lt_Some. }
      rewrite E2. f_equal.
      destruct (Hb1 q x E1) as [(c & r & v & Hv & Hin & Hx)|[Ho Hx]],
        (Hb2 q y E2) as [(c' & r' & v' & Hv' & Hin' & Hy)|[Ho' Hy]].
      + destruct (Hbound c r v Hv), (Hbound c' r' v' Hv').
        pose proof (Hlen c r v _ Hv (Htx v)). pose proof (Hlen c' r' v' _ Hv' (Htx v')).
        destruct (cell_pos_sep n w c r c' r' (N.of_nat (q - cell_pos n w c r))) with
          (k' := N.of_nat (q - cell_pos n w c' r')) as (-> & -> & _); [done..|lia|lia|lia|].
        rewrite Hv in Hv'. injection Hv' as <-. congruence.
      + by destruct (Ho' c r v Hv).
      + by destruct (Ho c' r' v' Hv').
      + congruence.
    - symmetry. apply lookup_ge_None_2. rewrite Hl2, <-Hl1. by apply lookup_ge_None_1. }
  by destruct (utf8_ok b2).
Qed.
End Same.

(** ** The width *)

(** The same matrix read in two orders, nothing being stored. *)
Lemma extremes_none {T} (num : numeric T) o o' (m : sq T) : (forall c r, sq_val m c r = None) ->
  sq_extremes num o m = sq_extremes num o' m.
Proof.
  intros Hno. unfold sq_extremes.
  assert (forall o, sq_cells o m = []) as Hc.
  { intros o1. destruct (sq_cells o1 m) as [|[[c r] v] l] eqn:E; [done|].
    assert (sq_val m c r = Some v) as Hv by (apply (elem_of_sq_cells o1); rewrite E; left).
    by rewrite Hno in Hv. }
  rewrite !Hc. by rewrite (Permutation_length (ord_map_perm o _ None (sq_tab m))),
    (Permutation_length (ord_map_perm o' _ None (sq_tab m))).
Qed.

(** The same dimension and the same entries; if there are none, the same matrix. *)
Definition same_entries {T} (m m' : sq T) : Prop :=
  sq_dimension m = sq_dimension m' /\
  (forall o o', Permutation (sq_items o m) (sq_items o' m')) /\
  (m = m' \/ sq_items plain_order m <> []).

Lemma same_entries_val {T} (m m' : sq T) : sq_inv m -> sq_inv m' -> same_entries m m' ->
  sq_dim m = sq_dim m' /\ (forall c r, sq_val m c r = sq_val m' c r) /\
  (m = m' \/ exists c r v, sq_val m c r = Some v).
Proof.
  intros Hi Hi' (Hd & Hp & Hs). split_and!; [done| |].
  - assert (forall c r v, sq_val m c r = Some v <-> sq_val m' c r = Some v) as H.
    { intros c r v. rewrite <- !(elem_of_sq_items plain_order) by done.
      by rewrite (Hp plain_order plain_order). }
    intros c r. destruct (sq_val m c r) as [v|] eqn:E.
    + symmetry. by apply H.
    + destruct (sq_val m' c r) as [v|] eqn:E'; [|done]. apply H in E'. congruence.
  - destruct Hs as [->|Hs]; [by left|right]. destruct (sq_items plain_order m) as [|[[v c] r] l] eqn:E; [done|].
    exists c, r, v. apply (elem_of_sq_items plain_order); [done|]. rewrite E. left.
Qed.

Lemma int_same {T} (num : numeric T) key p o o' m m' d : int_type num key ->
  wf_platform p -> d + 44 <= usize_max p -> sq_inv m -> sq_inv m' -> same_entries m m' ->
  (forall c r v, sq_val m c r = Some v -> in_type num key v) ->
  (num_has_decimal num = true -> forall a, num_text num d a = num_text num 0 a) ->
  same_outcome (same_result eq)
    (sq_to_string_with_precision p num o m d) (sq_to_string_with_precision p num o' m' d).
Proof.
  intros HT Hp Hd Hi Hi' Hs Hty Hdt. destruct (same_entries_val m m' Hi Hi' Hs) as (Hdim & Hval & Hst).
  destruct (sq_extremes num o m) as [hi lo] eqn:Hext, (sq_extremes num o' m') as [hi' lo'] eqn:Hext'.
  assert (forall c r v, sq_val m' c r = Some v -> in_type num key v) as Hty'.
  { intros c r v Hv. rewrite <-Hval in Hv. eauto. }
  destruct (int_extremes num key HT o m hi lo Hty Hext) as (Hb & Hw & Hin).
  destruct (int_extremes num key HT o' m' hi' lo' Hty' Hext') as (Hb' & Hw' & Hin').
  assert (hi = hi' /\ lo = lo') as [<- <-].
  { assert ((exists c r v, sq_val m c r = Some v) -> hi = hi' /\ lo = lo') as Hsome.
    { intros (c & r & v & Hv). destruct Hin as [(c1 & r1 & H1) (c2 & r2 & H2)]; [eauto|].
      destruct Hin' as [(c3 & r3 & H3) (c4 & r4 & H4)]; [exists c, r, v; by rewrite <-Hval|].
      pose proof (Hb' c1 r1 hi ltac:(by rewrite <-Hval)). pose proof (Hb' c2 r2 lo ltac:(by rewrite <-Hval)).
      pose proof (Hb c3 r3 hi' ltac:(by rewrite Hval)). pose proof (Hb c4 r4 lo' ltac:(by rewrite Hval)).
      split; apply (it_inj _ _ HT); lia. }
    destruct Hst as [->|Hst]; [|by apply Hsome].
    destruct (sq_cells o m') as [|[[c r] v] l] eqn:E.
    - rewrite (extremes_none num o o' m') in Hext; [|intros c r].
      + rewrite Hext in Hext'. by injection Hext' as -> ->.
      + destruct (sq_val m' c r) as [v|] eqn:Hv; [|done]. apply (elem_of_sq_cells o) in Hv.
        rewrite E in Hv. by apply elem_of_nil in Hv.
    - apply Hsome. exists c, r, v. apply (elem_of_sq_cells o). rewrite E. left. }
  apply (same_text p num o o' m m' d hi lo hi lo); try done; try lia.
  intros c r v t Hv. pose proof (Z_text_between _ _ _ (Hb c r v Hv)) as Hz.
  assert (N.of_nat (length (Z_text (key v))) <= sq_width0 num hi lo) as Hzl.
  { unfold sq_width0. rewrite !(it_digits _ _ HT). lia. }
  assert (num_digits num hi <= sq_width0 num hi lo) as Hhi by (unfold sq_width0; lia).
  unfold sq_cell_text, fmt_count, sq_width.
  destruct (num_has_decimal num) eqn:Hdec; cbn [negb andb orb].
  - destruct (_ <=? 65535); cbn [obind]; [|done]. destruct (_ <=? 65535); cbn [obind]; [|done].
    intros [= <-]. rewrite Hdt by done. rewrite pad_left_length, (it_text _ _ HT). lia.
  - destruct (N.ltb_spec 0 d).
    + set (wd := if num_lt num lo (num_zero num) then _ else _).
      assert (wd <= sq_width0 num hi lo + 1) as Hwd by (subst wd; destruct (num_lt _ _ _); lia).
      destruct (wd <=? 65535); cbn [obind]; [|done]. intros [= <-].
      rewrite (it_text _ _ HT), !app_length, pad_left_length. cbn [length app]. rewrite ?app_length, replicate_length. lia.
    + destruct (_ <=? 65535); cbn [obind]; [|done]. destruct (_ <=? 65535); cbn [obind]; [|done].
      intros [= <-]. rewrite pad_left_length, (it_text _ _ HT). lia.
Qed.

Section Floats.
Context (num : numeric spec_float) (prec emax : Z).
Hypothesis HT : float_type num prec emax.
Hypothesis Hmin : float_as_i128 (num_min num) = i128_min.
Hypothesis Hmax : float_as_i128 (num_max num) = i128_max.

(** Only NaN stored: the smallest and the greatest value of the type decide. *)
Lemma extremes_nan o m hi lo : (forall c r v, sq_val m c r = Some v -> v = S754_nan) ->
  (exists c r v, sq_val m c r = Some v) -> sq_extremes num o m = (hi, lo) ->
  hi = num_min num /\ lo = num_max num.
Proof.
  intros Hnan Hex Hext. destruct HT as [Hp He Hgt Hlt Hdg _ _ Hz (mM & eM & HM & BM) (mm & em & Hm & Bm)].
  destruct (extremes_spec num (fun v => valid_binary prec emax v = true) (good_float prec emax)
    (fkey prec emax)) with (o := o) (m := m) (hi := hi) (lo := lo)
    as (Gh & Gl & _ & _ & H3 & H4); try done.
  { intros a b Ha Hb'. apply good_float_spec in Hb' as [Nb Vb]. rewrite Hgt. unfold f64_gt, good_float.
    rewrite Ha, andb_true_r. by apply fkey_gt. }
  { intros a b Ha Hb'. apply good_float_spec in Hb' as [Nb Vb]. rewrite Hlt. unfold f64_lt, good_float.
    rewrite Ha, andb_true_r. by apply fkey_lt. }
  { intros c r v Hv. by rewrite (Hnan c r v Hv). }
  { by rewrite Hz. }
  { rewrite Hm. unfold good_float. simpl. exact Bm. }
  { rewrite HM. unfold good_float. simpl. exact BM. }
  split.
  - destruct H4 as (_ & _ & [?|(c & r & Hv)]); [done|done|]. apply Hnan in Hv as ->. done.
  - destruct H3 as [?|(c & r & Hv)]; [done|]. apply Hnan in Hv as ->. done.
Qed.

Lemma float_same p o o' m m' d :
  wf_platform p -> d + 44 <= usize_max p -> sq_inv m -> sq_inv m' -> same_entries m m' ->
  (forall c r v, sq_val m c r = Some v -> valid_binary prec emax v = true) ->
  (forall c r v, sq_val m c r = Some v ->
     N.of_nat (length (float_text d v)) <= N.of_nat (length (Z_text (float_as_i128 v))) + 3 + d) ->
  same_outcome (same_result eq)
    (sq_to_string_with_precision p num o m d) (sq_to_string_with_precision p num o' m' d).
Proof.
  intros Hp Hd Hi Hi' Hs Hva Hroom. destruct (same_entries_val m m' Hi Hi' Hs) as (Hdim & Hval & Hst).
  destruct (sq_extremes num o m) as [hi lo] eqn:Hext, (sq_extremes num o' m') as [hi' lo'] eqn:Hext'.
  assert (forall c r v, sq_val m' c r = Some v -> valid_binary prec emax v = true) as Hva'.
  { intros c r v Hv. rewrite <-Hval in Hv. eauto. }
  destruct (float_extremes num prec emax HT o m hi lo Hva Hext) as [Hw Hb].
  destruct (float_extremes num prec emax HT o' m' hi' lo' Hva' Hext') as [Hw' Hb'].
  assert (sq_width0 num hi lo = sq_width0 num hi' lo') as Hww.
  { assert ((exists c r v, sq_val m c r = Some v) -> sq_width0 num hi lo = sq_width0 num hi' lo') as Hsome.
    { intros Hex. pose proof (float_widest num prec emax HT Hmin Hmax o o m hi lo Hi Hva Hext) as [U1 D1].
      pose proof (float_widest num prec emax HT Hmin Hmax o' o m' hi' lo' Hi' Hva' Hext') as [U2 D2].
      assert (forall v c r, (v, c, r) ∈ sq_items o m <-> (v, c, r) ∈ sq_items o m') as Hin.
      { intros v c r. rewrite !elem_of_sq_items by done. by rewrite Hval. }
      destruct D1 as [(v1 & c1 & r1 & z1 & t1 & I1 & N1 & Z1 & T1 & E1)|[Hn _]].
      - destruct D2 as [(v2 & c2 & r2 & z2 & t2 & I2 & N2 & Z2 & T2 & E2)|[Hn _]].
        + apply Hin in I2. pose proof (U1 v2 c2 r2 z2 t2 I2 N2 Z2 T2).
          apply Hin in I1. pose proof (U2 v1 c1 r1 z1 t1 I1 N1 Z1 T1). lia.
        + apply Hin in I1. by apply Hn in I1.
      - assert (forall c r v, sq_val m c r = Some v -> v = S754_nan) as Hnan.
        { intros c r v Hv. apply (elem_of_sq_items o) in Hv; [|done]. eauto. }
        destruct (extremes_nan o m hi lo Hnan Hex Hext) as [-> ->].
        destruct (extremes_nan o' m' hi' lo') as [-> ->]; try done.
        + intros c r v Hv. rewrite <-Hval in Hv. eauto.
        + destruct Hex as (c & r & v & Hv). exists c, r, v. by rewrite <-Hval. }
    destruct Hst as [->|Hst]; [|by apply Hsome].
    destruct (sq_cells o m') as [|[[c r] v] l] eqn:E.
    - rewrite (extremes_none num o o' m') in Hext; [|intros c r].
      + rewrite Hext in Hext'. by injection Hext' as -> ->.
      + destruct (sq_val m' c r) as [v|] eqn:Hv; [|done]. apply (elem_of_sq_cells o) in Hv.
        rewrite E in Hv. by apply elem_of_nil in Hv.
    - apply Hsome. exists c, r, v. apply (elem_of_sq_cells o). rewrite E. left. }
  apply (same_text p num o o' m m' d hi lo hi' lo'); try done; try lia.
  - intros v. unfold sq_cell_text. by rewrite (ft_dec _ _ _ HT).
  - intros c r v t Hv. unfold sq_cell_text, fmt_count. rewrite (ft_dec _ _ _ HT). cbn [negb andb].
    assert (sq_width num hi lo d = sq_width0 num hi lo + 1 + d) as ->.
    { unfold sq_width. by rewrite (ft_dec _ _ _ HT). }
    destruct (_ <=? 65535); cbn [obind]; [|done]. destruct (_ <=? 65535); cbn [obind]; [|done].
    intros [= <-]. rewrite pad_left_length, (ft_text _ _ _ HT).
    specialize (Hroom c r v Hv). destruct (not_nan v) eqn:Nv.
    + specialize (Hb c r v Hv Nv). lia.
    + destruct v; try done. simpl. lia.
Qed.
End Floats.

(** ** The properties *)

Definition same_text_of {T} (p : platform) (num : numeric T) (d : N) (m m' : sq T) : Prop :=
  forall o o', same_outcome (same_result eq)
    (sq_to_string_with_precision p num o m d) (sq_to_string_with_precision p num o' m' d).

(** Integers of every width: the text depends on neither the order of iteration nor the
    history of the matrix. *)
Theorem C91_integers p d : wf_platform p -> d + 44 <= usize_max p ->
  (forall bits ops ops' m m', 1 <= bits <= 128 -> unsigned_ops bits ops -> unsigned_ops bits ops' ->
     mrun p (uint_numeric bits) ops = Ret m -> mrun p (uint_numeric bits) ops' = Ret m' ->
     same_entries m m' -> same_text_of p (uint_numeric bits) d m m') /\
  (forall bits dec ops ops' m m', (2 <= bits <= 128)%Z -> signed_ops bits ops -> signed_ops bits ops' ->
     mrun p (sint_numeric bits dec) ops = Ret m -> mrun p (sint_numeric bits dec) ops' = Ret m' ->
     same_entries m m' -> same_text_of p (sint_numeric bits dec) d m m').
Proof.
  intros Hp Hd. split.
  - intros bits ops ops' m m' Hb Ho Ho' Hm Hm' Hs o o'.
    apply (int_same (uint_numeric bits) Z.of_N); try done; [apply uint_type; lia|by eapply mrun_inv..|].
    intros c r v Hv. apply (unsigned_values p bits ops m ltac:(lia) Ho Hm c r v Hv).
  - intros bits dec ops ops' m m' Hb Ho Ho' Hm Hm' Hs o o'.
    apply (int_same (sint_numeric bits dec) (fun z => z)); try done; [apply sint_type; lia|by eapply mrun_inv..|].
    intros c r v Hv. apply (signed_values p bits dec ops m ltac:(lia) Ho Hm c r v Hv).
Qed.
Print Assumptions C91_integers.

(** Floats.  Missing: doubles of 10^41 or more, for which it is false. *)
Theorem C91_floats_partial p d : wf_platform p -> d + 44 <= usize_max p ->
  (forall ops ops' m m', mrun p f64_numeric ops = Ret m -> mrun p f64_numeric ops' = Ret m' ->
     (forall v c r, (v, c, r) ∈ sq_items plain_order m -> is_f64 v = true /\ below (10 ^ 41) v) ->
     same_entries m m' -> same_text_of p f64_numeric d m m') /\
  (forall ops ops' m m', mrun p f32_numeric ops = Ret m -> mrun p f32_numeric ops' = Ret m' ->
     (forall v c r, (v, c, r) ∈ sq_items plain_order m -> valid_binary 24 128 v = true) ->
     same_entries m m' -> same_text_of p f32_numeric d m m').
Proof.
  intros Hp Hd. split.
  - intros ops ops' m m' Hm Hm' Hv Hs o o'. assert (sq_inv m) as Hi by by eapply mrun_inv.
    assert (forall c r v, sq_val m c r = Some v -> is_f64 v = true /\ below (10 ^ 41) v) as Hva.
    { intros c r v H. apply (elem_of_sq_items plain_order) in H; [|done]. eauto. }
    apply (float_same f64_numeric 53 1024 f64_type); try done; [by eapply mrun_inv|..].
    + intros c r v H. apply (Hva c r v H).
    + intros c r v H. destruct (Hva c r v H) as [H1 H2]. apply float_text_room_wide; [|done].
      destruct v as [| | |s mm e]; try done. apply (bounded_spec 53 1024) in H1 as (H1 & _). lia.
  - intros ops ops' m m' Hm Hm' Hv Hs o o'. assert (sq_inv m) as Hi by by eapply mrun_inv.
    assert (forall c r v, sq_val m c r = Some v -> valid_binary 24 128 v = true) as Hva.
    { intros c r v H. apply (elem_of_sq_items plain_order) in H; [|done]. eauto. }
    apply (float_same f32_numeric 24 128 f32_type); try done; [by eapply mrun_inv|..].
    intros c r v H. specialize (Hva c r v H). apply float_text_room_wide.
    + destruct v as [| | |s mm e]; try done. apply (bounded_spec 24 128) in Hva as (H1 & _). lia.
    + destruct v as [| | |s mm e]; try done. apply (bounded_spec 24 128) in Hva as (H1 & H2 & _).
      unfold below. assert (2 ^ Z.max 0 e <= 2 ^ 104)%Z by (apply Z.pow_le_mono_r; lia).
      assert (1 <= 2 ^ Z.max 0 (- e))%Z by (apply (Z.pow_le_mono_r 2 0); lia).
      assert (2 ^ 24 * 2 ^ 104 < 10 ^ 41)%Z by (by vm_compute). nia.
Qed.
Print Assumptions C91_floats_partial.

(** False of the code, in two ways.  A double of 10^41 or more is so long that its text
    reaches the next cell, and the order of iteration decides which of the two is overwritten.
    And a matrix from which the only entry was taken away prints wider than one that never had
    any. *)
Theorem C91_refuted :
  (exists m, mrun plat64 f64_numeric
       [MSet (f64_mul (f64_of_N (2 ^ 60)) (f64_mul (f64_of_N (2 ^ 60)) (f64_of_N (2 ^ 17)))) 0 0;
        MSet f64_one 1 0] = Ret m /\
     match sq_to_string_with_precision plat64 f64_numeric plain_order m 2,
           sq_to_string_with_precision plat64 f64_numeric reversed_order m 2 with
     | Ret (Ok s), Ret (Ok s') => s <> s'
     | _, _ => False
     end) /\
  (exists m m', mrun plat64 (sint_numeric 64 false) [MSet 5%Z 0 0; MZero 0 0] = Ret m /\
     mrun plat64 (sint_numeric 64 false) [MSet 0%Z 0 0] = Ret m' /\
     sq_dimension m = sq_dimension m' /\ (forall o o', Permutation (sq_items o m) (sq_items o' m')) /\
     sq_to_string_with_precision plat64 (sint_numeric 64 false) plain_order m 0 =
       Ret (Ok (txt "[                    0 ]")) /\
     sq_to_string_with_precision plat64 (sint_numeric 64 false) plain_order m' 0 =
       Ret (Ok (txt "[                   0 ]"))).
Proof.
  split.
  - apply ret_ex. by vm_compute.
  - eexists _, _. split; [reflexivity|]. split; [reflexivity|]. split; [done|]. split.
    + intros o o'.
      assert (forall (o : hash_order) ops m, mrun plat64 (sint_numeric 64 false) ops = Ret m ->
        sq_items plain_order m = [] -> sq_items o m = []) as H.
      { clear. intros o ops m Hm H. assert (sq_inv m) as Hi by by eapply mrun_inv.
        destruct (sq_items o m) as [|[[v c] r] l] eqn:E; [done|].
        assert ((v, c, r) ∈ sq_items o m) as Hin by (rewrite E; left).
        apply elem_of_sq_items in Hin; [|done]. apply (elem_of_sq_items plain_order) in Hin; [|done].
        rewrite H in Hin. by apply elem_of_nil in Hin. }
      rewrite (H o [MSet 5%Z 0 0; MZero 0 0]), (H o' [MSet 0%Z 0 0]); done.
    + split; by vm_compute.
Qed.
Print Assumptions C91_refuted.

(** Numbers of decimals next to usize::MAX, something being stored. *)
Lemma huge_same p n d w (stored stored' : Prop) out out' : stored -> stored' ->
  prints_huge p n d w stored out -> prints_huge p n d w stored' out' ->
  same_outcome (same_result eq) out out'.
Proof.
  intros Hst Hst' (H1 & H2 & H3) (H1' & H2' & H3').
  destruct (N.le_gt_cases (w + d + 3) (usize_max p)) as [Hle|Hgt].
  { by destruct (H1 Hle) as [? ->], (H1' Hle) as [? ->]. }
  destruct (overflow_checks p) eqn:Ho; [by rewrite H2, H2'|].
  destruct (H3 Hgt eq_refl) as (K1 & K2 & _), (H3' Hgt eq_refl) as (K1' & K2' & _).
  clear H3 H3'. set (size := (w + d + 3 - (usize_max p + 1)) * (n * n) + 4 * n) in *.
  set (fits := n * n <= usize_max p /\ size <= usize_max p /\ can_alloc p (size - 2) = true) in *.
  assert (fits \/ ~ fits) as [Hf|Hf].
  { unfold fits. destruct (decide (n * n <= usize_max p)), (can_alloc p _),
      (decide (size <= usize_max p)); naive_solver. }
  - rewrite (K2 Hf (or_intror Hst)), (K2' Hf (or_intror Hst')). done.
  - by destruct (K1 Hf) as [? ->], (K1' Hf) as [? ->].
Qed.

Lemma widest_part_unique l l' w w' : Permutation l l' -> l <> [] ->
  (exists v c r, (v, c, r) ∈ l /\ v <> S754_nan) ->
  widest_integer_part l w -> widest_integer_part l' w' -> w = w'.
Proof.
  intros Hp Hne (v & c & r & Hin & Hnn) [U D] [U' D'].
  destruct D as [(v1 & c1 & r1 & z1 & t1 & I1 & N1 & Z1 & T1 & E1)|[Hn _]]; [|by apply Hn in Hin].
  destruct D' as [(v2 & c2 & r2 & z2 & t2 & I2 & N2 & Z2 & T2 & E2)|[Hn _]];
    [|rewrite Hp in Hin; by apply Hn in Hin].
  rewrite <-Hp in I2. pose proof (U v2 c2 r2 z2 t2 I2 N2 Z2 T2).
  rewrite Hp in I1. pose proof (U' v1 c1 r1 z1 t1 I1 N1 Z1 T1). lia.
Qed.

Lemma widest_unique {T} (key : T -> Z) l l' w w' : Permutation l l' -> l <> [] ->
  widest_integer key l w -> widest_integer key l' w' -> w = w'.
Proof.
  intros Hp Hne [U D] [U' D'].
  destruct D as [(v1 & c1 & r1 & t1 & I1 & T1 & E1)|[Hn _]]; [|done].
  destruct D' as [(v2 & c2 & r2 & t2 & I2 & T2 & E2)|[Hn _]];
    [|rewrite Hn in Hp; by apply Permutation_nil_r in Hp].
  rewrite <-Hp in I2. pose proof (U v2 c2 r2 t2 I2 T2).
  rewrite Hp in I1. pose proof (U' v1 c1 r1 t1 I1 T1). lia.
Qed.

Theorem C91_huge p d : wf_platform p -> 2 ^ 17 <= usize_max p -> d <= usize_max p ->
  usize_max p < d + 44 ->
  (forall ops ops' m m', mrun p f64_numeric ops = Ret m -> mrun p f64_numeric ops' = Ret m' ->
     (forall v c r, (v, c, r) ∈ sq_items plain_order m -> is_f64 v = true) ->
     (exists v c r, (v, c, r) ∈ sq_items plain_order m /\ v <> S754_nan) ->
     same_entries m m' -> same_text_of p f64_numeric d m m') /\
  (forall bits dec ops ops' m m', (2 <= bits <= 128)%Z -> signed_ops bits ops -> signed_ops bits ops' ->
     mrun p (sint_numeric bits dec) ops = Ret m -> mrun p (sint_numeric bits dec) ops' = Ret m' ->
     sq_items plain_order m <> [] -> same_entries m m' -> same_text_of p (sint_numeric bits dec) d m m') /\
  (forall bits ops ops' m m', 1 <= bits <= 128 -> unsigned_ops bits ops -> unsigned_ops bits ops' ->
     mrun p (uint_numeric bits) ops = Ret m -> mrun p (uint_numeric bits) ops' = Ret m' ->
     sq_items plain_order m <> [] -> same_entries m m' -> same_text_of p (uint_numeric bits) d m m').
Proof.
  intros Hp Hp17 Hd Hbig.
  assert (forall T (m m' : sq T), same_entries m m' ->
    sq_dim m = sq_dim m' /\ Permutation (sq_items plain_order m) (sq_items plain_order m')) as Hse.
  { intros T m m' (H1 & H2 & _). done. }
  assert (forall T p (num : numeric T) ops (m : sq T), mrun p num ops = Ret m -> sq_items plain_order m <> [] ->
    sq_dim m <> 0) as Hdim.
  { intros T p0 num ops m Hm Hne. apply (mrun_inv num) in Hm.
    destruct (sq_items plain_order m) as [|[[v c] r] l] eqn:E; [done|].
    assert (sq_val m c r = Some v) as Hv by (apply (elem_of_sq_items plain_order); [done|rewrite E; left]).
    destruct (si_bound m Hm c r ltac:(by eexists)). lia. }
  split_and!.
  - intros ops ops' m m' Hm Hm' Hv Hex Hs o o'. destruct (Hse _ m m' Hs) as [Hdd Hpe].
    assert (sq_items plain_order m <> []) as Hne.
    { destruct Hex as (v & c & r & Hin & _). intros E. rewrite E in Hin. by apply elem_of_nil in Hin. }
    assert (sq_items plain_order m' <> []) as Hne'.
    { intros E. rewrite E in Hpe. by apply Permutation_nil_r in Hpe. }
    destruct (C47_huge p o plain_order d Hp Hp17 Hd Hbig) as (H1 & _).
    destruct (C47_huge p o' plain_order d Hp Hp17 Hd Hbig) as (H2 & _).
    destruct (H1 ops m Hm ltac:(eauto) Hv) as (w & Hw & Hh).
    destruct (H2 ops' m' Hm' ltac:(eauto)) as (w' & Hw' & Hh').
    { intros v c r Hin. rewrite <-Hpe in Hin. eauto. }
    rewrite (widest_part_unique _ _ w w' Hpe Hne Hex Hw Hw') in Hh. rewrite <-Hdd in Hh'.
    exact (huge_same p (sq_dim m) d w' _ _ _ _ Hne Hne' Hh Hh').
  - intros bits dec ops ops' m m' Hb Ho Ho' Hm Hm' Hne Hs o o'. destruct (Hse _ m m' Hs) as [Hdd Hpe].
    assert (sq_items plain_order m' <> []) as Hne'.
    { intros E. rewrite E in Hpe. by apply Permutation_nil_r in Hpe. }
    destruct (C47_huge p o plain_order d Hp Hp17 Hd Hbig) as (_ & _ & H1 & _).
    destruct (C47_huge p o' plain_order d Hp Hp17 Hd Hbig) as (_ & _ & H2 & _).
    destruct (H1 bits dec ops m Hb Hm ltac:(eauto) Ho) as (w & Hw & Hh).
    destruct (H2 bits dec ops' m' Hb Hm' ltac:(eauto) Ho') as (w' & Hw' & Hh').
    rewrite (widest_unique _ _ _ w w' Hpe Hne Hw Hw') in Hh. rewrite <-Hdd in Hh'.
    exact (huge_same p (sq_dim m) d w' _ _ _ _ Hne Hne' Hh Hh').
  - intros bits ops ops' m m' Hb Ho Ho' Hm Hm' Hne Hs o o'. destruct (Hse _ m m' Hs) as [Hdd Hpe].
    assert (sq_items plain_order m' <> []) as Hne'.
    { intros E. rewrite E in Hpe. by apply Permutation_nil_r in Hpe. }
    destruct (C47_huge p o plain_order d Hp Hp17 Hd Hbig) as (_ & _ & _ & H1).
    destruct (C47_huge p o' plain_order d Hp Hp17 Hd Hbig) as (_ & _ & _ & H2).
    destruct (H1 bits ops m Hb Hm ltac:(eauto) Ho) as (w & Hw & Hh).
    destruct (H2 bits ops' m' Hb Hm' ltac:(eauto) Ho') as (w' & Hw' & Hh').
    rewrite (widest_unique _ _ _ w w' Hpe Hne Hw Hw') in Hh. rewrite <-Hdd in Hh'.
    exact (huge_same p (sq_dim m) d w' _ _ _ _ Hne Hne' Hh Hh').
Qed.
Print Assumptions C91_huge.

(** Pooled matrices: pooling and printing in any orders, with any block dimension, give the
    same text. *)
Theorem C91_pool p o1 o2 g b m m' d : wf_platform p -> reach p g -> d + 44 <= usize_max p ->
  find_avg_pool_matrix p o1 g b = Ret m -> find_avg_pool_matrix p o2 g b = Ret m' ->
  same_text_of p f64_numeric d m m'.
Proof.
  intros Hp Hr Hd Hm Hm' o o'. pose proof Hr as Hi. apply reach_inv in Hi; [|done].
  assert (same_matrix f64_numeric m m') as (Hdim & _ & _ & Hperm).
  { destruct (C64_graph_congruence p g g Hp Hr Hr ltac:(split; [|split]; done)) as (_ & _ & _ & _ & _ & _ & H & _).
    specialize (H o1 o2 b). by rewrite Hm, Hm' in H. }
  assert (sq_inv m) as Hinv by by eapply pool_inv.
  apply (float_same f64_numeric 53 1024 f64_type); try done; [by eapply pool_inv| | |].
  - split_and!; [done..|]. destruct (sq_items plain_order m) as [|x l] eqn:E; [left|by right].
    destruct (N.eq_dec (vertex_count g) 0) as [Hn|Hn].
    { unfold find_avg_pool_matrix in Hm, Hm'. rewrite Hn in Hm, Hm'. simpl in Hm, Hm'. congruence. }
    destruct (C34_pool_dimensions_and_cells p o1 g b m Hp Hr Hm) as [_ H].
    destruct (H Hn) as (_ & Hcells & _).
    assert (forall o, adj_items o (g_adj g) = []) as Hno.
    { intros o0. destruct (adj_items o0 (g_adj g)) as [|[u v] l] eqn:Ea; [done|].
      assert ((u, v) ∈ adj_items o0 (g_adj g)) as Hin by (rewrite Ea; left).
      apply elem_of_adj_items in Hin; [|apply Hi].
      destruct (Hcells plain_order (u / N.max 1 (N.min b (vertex_count g))) (v / N.max 1 (N.min b (vertex_count g)))) as [_ Hc].
      destruct Hc as [e He].
      - exists u, v. split_and!; [|done|done]. by apply exists_has.
      - rewrite E in He. by apply elem_of_nil in He. }
    unfold find_avg_pool_matrix in Hm, Hm'. rewrite Hno in Hm, Hm'. congruence.
  - intros c r v Hv. exact (proj1 (pool_any p o1 g b m c r v Hi Hm Hv)).
  - intros c r v Hv. apply float_text_room. exact (proj2 (pool_any p o1 g b m c r v Hi Hm Hv)).
Qed.
Print Assumptions C91_pool.

(** Two histories of one matrix, read in two orders. *)
Example C91_case :
  exists m m', mrun plat64 (sint_numeric 64 false) [MSet (-50)%Z 0 1; MSet 7%Z 2 2; MInc 2 2] = Ret m /\
    mrun plat64 (sint_numeric 64 false) [MInc 1 1; MSet 8%Z 2 2; MSet (-50)%Z 0 1; MZero 1 1] = Ret m' /\
    sq_to_string_with_precision plat64 (sint_numeric 64 false) plain_order m 0 =
      sq_to_string_with_precision plat64 (sint_numeric 64 false) reversed_order m' 0 /\
    sq_to_string_with_precision plat64 (sint_numeric 64 false) plain_order m 0 =
      Ret (Ok (join ["013"%char; "010"%char]
        [txt "[   0,   0,   0 ]"; txt "[ -50,   0,   0 ]"; txt "[   0,   0,   8 ]"])).
Proof. eexists _, _. split; [reflexivity|]. split; [reflexivity|]. by vm_compute. Qed.

(** A pooled matrix made and printed in two orders, and one without entries. *)
Example C91_pool_case :
  match find_avg_pool_matrix plat64 plain_order sample_und 3, find_avg_pool_matrix plat64 reversed_order sample_und 3 with
  | Ret m, Ret m' =>
      sq_to_string_with_precision plat64 f64_numeric plain_order m 3 =
        sq_to_string_with_precision plat64 f64_numeric reversed_order m' 3 /\
      sq_to_string_with_precision plat64 f64_numeric plain_order m 3 =
        Ret (Ok (join ["013"%char; "010"%char] [txt "[ 0.222, 0.222, 0.000 ]";
          txt "[ 0.222, 0.111, 0.000 ]"; txt "[ 0.000, 0.000, 0.000 ]"]))
  | _, _ => False
  end.
Proof. by vm_compute. Qed.
