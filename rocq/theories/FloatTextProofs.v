(** Texts of floats, and what the square matrix printer does with them. *)
From Coq Require Import ZArith Ascii String.
From Verif Require Import Base HashIter F64 Numeric Adj Sq Spec TextSpec Api AdjProofs GraphProofs
  SqProofs BitsProofs TextProofs SqTextProofs NumTextProofs SqShowProofs.
Local Arguments N.mul : simpl never.
Local Arguments N.add : simpl never.
Local Arguments N.pow : simpl never.

(** ** Rounding *)

Lemma round_half_even_spec num den : den <> 0 ->
  let q := round_half_even num den in
  (2 * Z.abs (Z.of_N q * Z.of_N den - Z.of_N num) <= Z.of_N den)%Z /\
  ((2 * Z.abs (Z.of_N q * Z.of_N den - Z.of_N num) = Z.of_N den)%Z -> N.even q = true).
Proof.
  intros Hd q. unfold q, round_half_even. clear q.
  pose proof (N.div_mod num den Hd) as Hdm. pose proof (N.mod_lt num den Hd) as Hr.
  set (k := num / den) in *. set (r := num mod den) in *. clearbody k r. subst num.
  replace (Z.of_N (den * k + r)) with (Z.of_N den * Z.of_N k + Z.of_N r)%Z by lia.
  destruct (N.ltb_spec (2 * r) den) as [H|H].
  - replace (Z.of_N k * Z.of_N den - (Z.of_N den * Z.of_N k + Z.of_N r))%Z with (- Z.of_N r)%Z by lia.
    split; [lia|]. intros. lia.
  - destruct (N.ltb_spec den (2 * r)) as [H'|H'].
    + replace (Z.of_N (k + 1) * Z.of_N den - (Z.of_N den * Z.of_N k + Z.of_N r))%Z
        with (Z.of_N den - Z.of_N r)%Z by lia.
      split; [lia|]. intros. lia.
    + destruct (N.even k) eqn:E.
      * replace (Z.of_N k * Z.of_N den - (Z.of_N den * Z.of_N k + Z.of_N r))%Z with (- Z.of_N r)%Z by lia.
        split; [lia|done].
      * replace (Z.of_N (k + 1) * Z.of_N den - (Z.of_N den * Z.of_N k + Z.of_N r))%Z
          with (Z.of_N den - Z.of_N r)%Z by lia.
        split; [lia|]. intros _. rewrite N.add_1_r, N.even_succ, <- N.negb_even, E. done.
Qed.

Lemma Z_of_N_pow a b : Z.of_N (a ^ b) = (Z.of_N a ^ Z.of_N b)%Z.
Proof. apply N2Z.inj_pow. Qed.

Lemma scaled_round_nearest m e d : nearest_scaled m e d (scaled_round m e d).
Proof.
  unfold nearest_scaled, scaled_round. destruct e as [|e|e].
  - simpl Z.max. rewrite !Z.pow_0_r, N2Z.inj_mul, Z_of_N_pow.
    change (Z.of_N 10) with 10%Z. change (Z.of_N (N.pos m)) with (Z.pos m).
    replace (Z.pos m * 10 ^ Z.of_N d * 1 - Z.pos m * 1 * 10 ^ Z.of_N d)%Z with 0%Z by lia.
    simpl. split; [lia|done].
  - replace (Z.max 0 (- Z.pos e)) with 0%Z by lia. replace (Z.max 0 (Z.pos e)) with (Z.pos e) by lia.
    rewrite Z.pow_0_r, !N2Z.inj_mul, !Z_of_N_pow.
    change (Z.of_N 10) with 10%Z. change (Z.of_N 2) with 2%Z.
    change (Z.of_N (N.pos m)) with (Z.pos m). change (Z.of_N (N.pos e)) with (Z.pos e).
    rewrite Z.mul_1_r, Z.sub_diag. split; [lia|done].
  - replace (Z.max 0 (- Z.neg e)) with (Z.pos e) by lia. replace (Z.max 0 (Z.neg e)) with 0%Z by lia.
    pose proof (round_half_even_spec (N.pos m * 10 ^ d) (2 ^ N.pos e)
      ltac:(by apply N.pow_nonzero)) as H. cbv zeta in H.
    rewrite N2Z.inj_mul, !Z_of_N_pow in H.
    change (Z.of_N 10) with 10%Z in H. change (Z.of_N 2) with 2%Z in H.
    change (Z.of_N (N.pos m)) with (Z.pos m) in H. change (Z.of_N (N.pos e)) with (Z.pos e) in H.
    rewrite Z.pow_0_r, Z.mul_1_r. exact H.
Qed.

(** Rounding to the nearest leaves one choice. *)
Lemma nearest_scaled_unique m e d q q' : nearest_scaled m e d q -> nearest_scaled m e d q' -> q = q'.
Proof.
  unfold nearest_scaled. set (den := (2 ^ Z.max 0 (- e))%Z). set (num := (_ * _ * _)%Z).
  assert (0 < den)%Z as Hden by (apply Z.pow_pos_nonneg; lia). clearbody den num.
  intros [H1 H2] [H3 H4].
  assert (forall a b : N, (2 * Z.abs (Z.of_N a * den - num) <= den)%Z ->
    (2 * Z.abs (Z.of_N b * den - num) <= den)%Z -> a < b ->
    b = a + 1 /\ (2 * Z.abs (Z.of_N a * den - num) = den)%Z /\
    (2 * Z.abs (Z.of_N b * den - num) = den)%Z) as Hlt.
  { intros a b Ha Hb Hab.
    assert (Z.of_N a * den + den <= Z.of_N b * den)%Z by nia.
    assert (Z.of_N b * den = Z.of_N a * den + den)%Z by lia.
    split_and!; [|lia|lia]. assert (Z.of_N b = Z.of_N a + 1)%Z by nia. lia. }
  destruct (N.lt_trichotomy q q') as [Hq|[?|Hq]]; [|done|].
  - destruct (Hlt _ _ H1 H3 Hq) as (-> & E1 & E2). specialize (H2 E1). specialize (H4 E2).
    rewrite N.add_1_r, N.even_succ, <- N.negb_even, H2 in H4. done.
  - destruct (Hlt _ _ H3 H1 Hq) as (-> & E1 & E2). specialize (H4 E1). specialize (H2 E2).
    rewrite N.add_1_r, N.even_succ, <- N.negb_even, H4 in H2. done.
Qed.

(** ** Fixed point texts *)

Lemma digits_value_zeros k t : digits_value (replicate k "0"%char ++ t) = digits_value t.
Proof.
  rewrite digits_value_app.
  assert (digits_value (replicate k "0"%char) = 0) as ->; [|lia].
  induction k as [|k IH]; [done|]. 
  change (replicate (S k) "0"%char) with (["0"%char] ++ replicate k "0"%char).
  rewrite digits_value_app, IH. rewrite digits_value_single.
  change (N_of_ascii "0" - 48) with 0. lia.
Qed.

Lemma zeros_digits k : forallb is_digit (replicate k "0"%char) = true.
Proof. by induction k. Qed.

Lemma pad_zeros_spec d q : d <> 0 -> q < 10 ^ d ->
  forallb is_digit (pad_zeros d (N_text q)) = true /\
  N.of_nat (length (pad_zeros d (N_text q))) = d /\ digits_value (pad_zeros d (N_text q)) = q.
Proof.
  intros Hd Hq. unfold pad_zeros. pose proof (N_text_bound q d Hq Hd). split_and!.
  - by rewrite forallb_app, zeros_digits, N_text_digits.
  - rewrite app_length, replicate_length. lia.
  - rewrite digits_value_zeros. destruct (N_text_spec q) as ((_ & Hv & _) & _). done.
Qed.

Lemma fixed_text_spec q d : fixed_point d q (fixed_text q d).
Proof.
  unfold fixed_text. destruct (N.eqb_spec d 0) as [->|Hd].
  - exists (N_text (q / 10 ^ 0)), []. split_and!; try done.
    + apply N_text_spec.
    + change (10 ^ 0) with 1. by rewrite N.mod_1_r.
  - assert (q mod 10 ^ d < 10 ^ d) as Hm by (by apply N.mod_lt, N.pow_nonzero).
    destruct (pad_zeros_spec d (q mod 10 ^ d) Hd Hm) as (H1 & H2 & H3).
    exists (N_text (q / 10 ^ d)), (pad_zeros d (N_text (q mod 10 ^ d))). split_and!; try done.
    + apply N_text_spec.
    + by destruct (N.eqb_spec d 0).
Qed.

Lemma float_text_spec d x : rounded_text d x (float_text d x).
Proof.
  destruct x as [s|s| |s m e]; simpl.
  - exists (fixed_text 0 d). split; [apply fixed_text_spec|by destruct s].
  - by destruct s.
  - done.
  - exists (scaled_round m e d), (fixed_text (scaled_round m e d) d).
    split_and!; [apply scaled_round_nearest|apply fixed_text_spec|by destruct s].
Qed.

(** Texts of digits are determined by their value and length. *)
Lemma digit_inj a b : is_digit a = true -> is_digit b = true ->
  N_of_ascii a - 48 = N_of_ascii b - 48 -> a = b.
Proof.
  unfold is_digit. rewrite !andb_true_iff, !N.leb_le. intros Ha Hb H.
  rewrite <- (ascii_N_embedding a), <- (ascii_N_embedding b). f_equal. lia.
Qed.

Lemma digits_value_lt t : forallb is_digit t = true -> digits_value t < 10 ^ N.of_nat (length t).
Proof.
  induction t as [|a t IH] using rev_ind; intros H; [done|].
  rewrite forallb_app in H. apply andb_true_iff in H as [H1 H2]. simpl in H2.
  rewrite andb_true_r in H2. specialize (IH H1).
  rewrite digits_value_app, digits_value_single, app_length, Nat2N.inj_add, N.pow_add_r.
  change (10 ^ N.of_nat (length [a])) with 10. change (N.of_nat (length [a])) with 1.
  change (10 ^ 1) with 10. unfold is_digit in H2. apply andb_true_iff in H2 as [H2 H3].
  apply N.leb_le in H2, H3. lia.
Qed.

Lemma digits_inj t t' : forallb is_digit t = true -> forallb is_digit t' = true ->
  length t = length t' -> digits_value t = digits_value t' -> t = t'.
Proof.
  revert t'. induction t as [|a t IH] using rev_ind; intros t' Ht Ht' Hl Hv.
  - by destruct t'.
  - destruct t' as [|b t' _] using rev_ind; [rewrite app_length in Hl; simpl in Hl; lia|].
    rewrite !app_length in Hl. simpl in Hl. assert (length t = length t') as Hl' by lia.
    rewrite forallb_app in Ht, Ht'. apply andb_true_iff in Ht as [Ht Ha].
    apply andb_true_iff in Ht' as [Ht' Hb]. simpl in Ha, Hb. rewrite andb_true_r in Ha, Hb.
    rewrite !digits_value_app, !digits_value_single in Hv. simpl length in Hv.
    change (10 ^ N.of_nat 1) with 10 in Hv.
    assert (N_of_ascii a - 48 < 10 /\ N_of_ascii b - 48 < 10) as [Ha' Hb'].
    { unfold is_digit in Ha, Hb. rewrite !andb_true_iff, !N.leb_le in Ha, Hb. lia. }
    assert (digits_value t = digits_value t' /\ N_of_ascii a - 48 = N_of_ascii b - 48) as [Hv1 Hv2] by lia.
    f_equal; [by apply IH|]. f_equal. by apply digit_inj.
Qed.

(** A number has one decimal text. *)
Lemma decimal_length t n : decimal t n ->
  n < 10 ^ N.of_nat (length t) /\ (length t = 1%nat \/ 10 ^ (N.of_nat (length t) - 1) <= n).
Proof.
  intros (Hd & Hv & Hne & Hz). split.
  - rewrite <- Hv. by apply digits_value_lt.
  - destruct t as [|a t]; [done|]. destruct (decide (a = "0"%char)) as [->|Ha].
    + left. by destruct (Hz eq_refl).
    + right. change (a :: t) with ([a] ++ t) in *. rewrite digits_value_app, digits_value_single in Hv.
      rewrite forallb_app in Hd. apply andb_true_iff in Hd as [Hda _]. simpl in Hda.
      rewrite andb_true_r in Hda.
      assert (1 <= N_of_ascii a - 48) as H1.
      { destruct (N.eq_dec (N_of_ascii a - 48) 0) as [E|]; [|lia]. exfalso. apply Ha.
        by apply digit_inj. }
      rewrite app_length. simpl length. replace (N.of_nat (1 + length t) - 1) with (N.of_nat (length t)) by lia.
      rewrite <- Hv. nia.
Qed.

Lemma decimal_unique t t' n : decimal t n -> decimal t' n -> t = t'.
Proof.
  intros H H'. pose proof (decimal_length _ _ H) as [H1 H2].
  pose proof (decimal_length _ _ H') as [H3 H4].
  destruct H as (Hd & Hv & Hne & _). destruct H' as (Hd' & Hv' & Hne' & _).
  apply digits_inj; [done|done| |congruence].
  assert (forall a b : nat, (1 <= b)%nat -> n < 10 ^ N.of_nat b ->
    (a = 1%nat \/ 10 ^ (N.of_nat a - 1) <= n) -> (a <= b)%nat) as Hle.
  { intros a b Hb Hlt [->|Hge]; [lia|]. destruct (Nat.le_gt_cases a b) as [?|Hgt]; [done|].
    assert (10 ^ N.of_nat b <= 10 ^ (N.of_nat a - 1)) by (apply N.pow_le_mono_r; [done|lia]). lia. }
  assert (1 <= length t)%nat by (destruct t; simpl; [done|lia]).
  assert (1 <= length t')%nat by (destruct t'; simpl; [done|lia]).
  pose proof (Hle (length t) (length t')). pose proof (Hle (length t') (length t)).
  specialize (H5 ltac:(done) H3 H2) || idtac. lia.
Qed.

Lemma fixed_point_unique d q t t' : fixed_point d q t -> fixed_point d q t' -> t = t'.
Proof.
  intros (ip & fp & H1 & H2 & H3 & H4 & ->) (ip' & fp' & H1' & H2' & H3' & H4' & ->).
  f_equal; [by eapply decimal_unique|]. destruct (d =? 0); [done|]. f_equal.
  apply digits_inj; [done|done|lia|congruence].
Qed.

(** A float has one text with [d] decimals. *)
Lemma rounded_text_unique d x t t' : rounded_text d x t -> rounded_text d x t' -> t = t'.
Proof.
  destruct x as [s|s| |s m e]; simpl.
  - intros (a & Ha & ->) (b & Hb & ->). by rewrite (fixed_point_unique d 0 a b).
  - congruence.
  - congruence.
  - intros (q & a & Hq & Ha & ->) (q' & b & Hq' & Hb & ->).
    rewrite (nearest_scaled_unique m e d q' q) in Hb by done.
    by rewrite (fixed_point_unique d q a b).
Qed.

Lemma signed_decimal_unique t t' z : signed_decimal t z -> signed_decimal t' z -> t = t'.
Proof. intros (a & Ha & ->) (b & Hb & ->). by rewrite (decimal_unique a b (Z.abs_N z)). Qed.

Lemma fixed_text_ascii q d : utf8_ok (fixed_text q d) = true.
Proof.
  unfold fixed_text. rewrite utf8_app, N_text_ascii. cbn [andb]. destruct (d =? 0); [done|].
  unfold pad_zeros. change ("."%char :: replicate ?k "0"%char ++ ?t) with
    (["."%char] ++ replicate k "0"%char ++ t).
  by rewrite !utf8_app, replicate_ascii, N_text_ascii.
Qed.

Lemma float_text_ascii d x : utf8_ok (float_text d x) = true.
Proof.
  destruct x as [s|s| |s m e]; unfold float_text.
  - rewrite utf8_app, fixed_text_ascii. by destruct s.
  - by destruct s.
  - done.
  - rewrite utf8_app, fixed_text_ascii. by destruct s.
Qed.

(** ** The order of floats *)

Lemma as_i128_range x : (i128_min <= float_as_i128 x <= i128_max)%Z.
Proof.
  assert (i128_min <= 0 <= i128_max)%Z by (by vm_compute).
  destruct x as [s|s| |s m e]; unfold float_as_i128; [lia|destruct s; lia|lia|lia].
Qed.

Section Order.
Context (prec emax : Z).
Hypothesis Hprec : (1 < prec)%Z.
Hypothesis Hemax : (prec < emax)%Z.
Let emin := (3 - emax - prec)%Z.

Lemma digits2_pos_pow m : (2 ^ (Zpos (digits2_pos m) - 1) <= Zpos m < 2 ^ Zpos (digits2_pos m))%Z.
Proof.
  induction m as [m IH|m IH|]; simpl digits2_pos; [| |simpl; lia].
  - rewrite Pos2Z.inj_succ. replace (Z.succ (Z.pos (digits2_pos m)) - 1)%Z
      with (Z.succ (Z.pos (digits2_pos m) - 1)) by lia.
    rewrite !Z.pow_succ_r by lia. lia.
  - rewrite Pos2Z.inj_succ. replace (Z.succ (Z.pos (digits2_pos m)) - 1)%Z
      with (Z.succ (Z.pos (digits2_pos m) - 1)) by lia.
    rewrite !Z.pow_succ_r by lia. lia.
Qed.

Lemma bounded_spec m e : bounded prec emax m e = true ->
  (Zpos m < 2 ^ prec)%Z /\ (emin <= e <= emax - prec)%Z /\ (emin < e -> 2 ^ (prec - 1) <= Zpos m)%Z.
Proof.
  unfold bounded, canonical_mantissa, fexp. rewrite andb_true_iff, Z.leb_le.
  intros [Hc He]. apply Zeq_bool_eq in Hc.
  pose proof (digits2_pos_pow m) as [H1 H2]. unfold SpecFloat.emin in Hc. fold emin in Hc.
  split_and!; try lia.
  - eapply Z.lt_le_trans; [exact H2|]. apply Z.pow_le_mono_r; lia.
  - intros H. eapply Z.le_trans; [|exact H1]. apply Z.pow_le_mono_r; lia.
Qed.

(** The position of a float in the order: mantissas below exponents. *)
Definition fkey_pos (m : positive) (e : Z) : Z := ((e - emin) * 2 ^ prec + Zpos m)%Z.
Definition fkey (x : spec_float) : Z :=
  match x with
  | S754_zero _ => 0
  | S754_nan => 0
  | S754_infinity s => let k := ((emax - emin) * 2 ^ prec)%Z in if s then (- k)%Z else k
  | S754_finite s m e => if s then (- fkey_pos m e)%Z else fkey_pos m e
  end.

Definition not_nan (x : spec_float) : bool := match x with S754_nan => false | _ => true end.

Lemma fkey_pos_range m e : bounded prec emax m e = true ->
  (0 < fkey_pos m e < (emax - emin) * 2 ^ prec)%Z.
Proof.
  intros H. apply bounded_spec in H as (H1 & H2 & _). unfold fkey_pos.
  pose proof (Z.pow_pos_nonneg 2 prec). nia.
Qed.

Lemma fkey_pos_compare m e m' e' : bounded prec emax m e = true -> bounded prec emax m' e' = true ->
  (fkey_pos m e ?= fkey_pos m' e')%Z =
  match (e ?= e')%Z with Lt => Lt | Gt => Gt | Eq => Pos.compare m m' end.
Proof.
  intros H H'. apply bounded_spec in H as (H1 & H2 & _). apply bounded_spec in H' as (H1' & H2' & _).
  unfold fkey_pos. pose proof (Z.pow_pos_nonneg 2 prec). destruct (Z.compare_spec e e') as [->|Hlt|Hgt].
  - change (m ?= m')%positive with (Z.pos m ?= Z.pos m')%Z. destruct (Z.compare_spec (Z.pos m) (Z.pos m')); 
      [apply Z.compare_eq_iff|apply Z.compare_lt_iff|apply Z.compare_gt_iff]; lia.
  - apply Z.compare_lt_iff. nia.
  - apply Z.compare_gt_iff. nia.
Qed.

Lemma fkey_compare x y : valid_binary prec emax x = true -> valid_binary prec emax y = true ->
  not_nan x = true -> not_nan y = true -> SFcompare x y = Some (fkey x ?= fkey y)%Z.
Proof.
  intros Hx Hy Nx Ny.
  destruct x as [sx|sx| |sx mx ex], y as [sy|sy| |sy my ey]; try done; simpl in Hx, Hy.
  all: try (pose proof (fkey_pos_range _ _ Hx) as Rx).
  all: try (pose proof (fkey_pos_range _ _ Hy) as Ry).
  all: assert (0 < (emax - emin) * 2 ^ prec)%Z as R0
    by (pose proof (Z.pow_pos_nonneg 2 prec); unfold emin; nia).
  all: unfold SFcompare, fkey; cbv zeta; f_equal.
  all: try destruct sx; try destruct sy; symmetry; try reflexivity.
  all: try (apply Z.compare_eq_iff; lia).
  all: try (apply Z.compare_lt_iff; lia).
  all: try (apply Z.compare_gt_iff; lia).
  - rewrite Z.compare_opp, fkey_pos_compare by done. rewrite (Z.compare_antisym ex ey).
    destruct (ex ?= ey)%Z; try done. simpl. apply Pos.compare_antisym.
  - rewrite fkey_pos_compare by done. by destruct (ex ?= ey)%Z.
Qed.

Lemma fkey_lt x y : valid_binary prec emax x = true -> valid_binary prec emax y = true ->
  not_nan y = true -> SFltb x y = not_nan x && (fkey x <? fkey y)%Z.
Proof.
  intros Hx Hy Ny. unfold SFltb. destruct (not_nan x) eqn:Nx.
  - rewrite fkey_compare by done. unfold Z.ltb. by destruct (fkey x ?= fkey y)%Z.
  - by destruct x, y.
Qed.

Lemma fkey_gt x y : valid_binary prec emax x = true -> valid_binary prec emax y = true ->
  not_nan y = true -> SFltb y x = not_nan x && (fkey y <? fkey x)%Z.
Proof.
  intros Hx Hy Ny. unfold SFltb. destruct (not_nan x) eqn:Nx.
  - rewrite fkey_compare by done. unfold Z.ltb. by destruct (fkey y ?= fkey x)%Z.
  - by destruct x, y.
Qed.

(** Truncation follows the order. *)
Definition magnitude (m : positive) (e : Z) : Z := (Zpos m * 2 ^ (e - emin))%Z.

Lemma emin_neg : (emin < 0)%Z.
Proof. unfold emin. lia. Qed.

Lemma trunc_magnitude s m e : bounded prec emax m e = true ->
  float_trunc (S754_finite s m e) = let a := (magnitude m e / 2 ^ (- emin))%Z in if s then (- a)%Z else a.
Proof.
  intros H. apply bounded_spec in H as (_ & H & _). pose proof emin_neg.
  assert (match e with
             | Z0 => Zpos m
             | Zpos e' => (Zpos m * 2 ^ Zpos e')%Z
             | Zneg e' => (Zpos m / 2 ^ Zpos e')%Z
             end = (magnitude m e / 2 ^ (- emin))%Z) as E.
  { unfold magnitude. destruct e as [|e|e].
    - rewrite Z.sub_0_l, Z.div_mul; [done|]. apply Z.pow_nonzero; lia.
    - replace (Z.pos e - emin)%Z with (Z.pos e + - emin)%Z by lia.
      rewrite Z.pow_add_r by lia. rewrite Z.mul_assoc, Z.div_mul; [done|]. apply Z.pow_nonzero; lia.
    - replace (- emin)%Z with (Z.neg e - emin + Z.pos e)%Z by lia.
      rewrite Z.pow_add_r by lia. rewrite (Z.mul_comm (2 ^ (Z.neg e - emin))), <- Z.div_div.
      2:{ apply Z.pow_nonzero; lia. } 2:{ apply Z.pow_pos_nonneg; lia. }
      rewrite <- (Z.div_mul (Z.pos m) (2 ^ (Z.neg e - emin))) at 1 by (apply Z.pow_nonzero; lia).
      rewrite !Z.div_div; try (apply Z.pow_nonzero; lia); try (apply Z.pow_pos_nonneg; lia).
      f_equal. lia. }
  unfold float_trunc. rewrite E. done.
Qed.

Lemma magnitude_mono m e m' e' : bounded prec emax m e = true -> bounded prec emax m' e' = true ->
  (fkey_pos m e <= fkey_pos m' e')%Z -> (magnitude m e <= magnitude m' e')%Z.
Proof.
  intros H H' Hk. apply Z.compare_le_iff in Hk. rewrite fkey_pos_compare in Hk by done.
  apply bounded_spec in H as (H1 & H2 & H3). apply bounded_spec in H' as (H1' & H2' & H3').
  unfold magnitude. destruct (Z.compare_spec e e') as [->|Hlt|Hgt]; [| |done].
  - apply Z.mul_le_mono_nonneg_r; [apply Z.pow_nonneg; lia|].
    destruct (Pos.compare_spec m m'); [lia..|done].
  - specialize (H3' ltac:(lia)).
    transitivity (2 ^ prec * 2 ^ (e - emin))%Z.
    { apply Z.mul_le_mono_nonneg_r; [apply Z.pow_nonneg; lia|lia]. }
    transitivity (2 ^ (prec - 1) * 2 ^ (e' - emin))%Z.
    { rewrite <- !Z.pow_add_r by lia. apply Z.pow_le_mono_r; lia. }
    apply Z.mul_le_mono_nonneg_r; [apply Z.pow_nonneg; lia|lia].
Qed.

Lemma magnitude_pos m e : (0 <= magnitude m e / 2 ^ (- emin))%Z.
Proof.
  apply Z.div_pos; [|apply Z.pow_pos_nonneg; pose proof emin_neg; lia].
  unfold magnitude. pose proof (Z.pow_nonneg 2 (e - emin)). lia.
Qed.

Lemma as_i128_mono x y : valid_binary prec emax x = true -> valid_binary prec emax y = true ->
  not_nan x = true -> not_nan y = true ->
  (fkey x <= fkey y)%Z -> (float_as_i128 x <= float_as_i128 y)%Z.
Proof.
  intros Hx Hy Nx Ny Hk.
  pose proof (as_i128_range x) as Bx. pose proof (as_i128_range y) as By.
  assert (i128_min <= 0 <= i128_max)%Z as B0 by (by vm_compute).
  assert (0 < (emax - emin) * 2 ^ prec)%Z as R0
    by (pose proof (Z.pow_pos_nonneg 2 prec); unfold emin; nia).
  destruct x as [sx|sx| |sx mx ex], y as [sy|sy| |sy my ey]; try done; simpl in Hx, Hy;
  try (pose proof (fkey_pos_range _ _ Hx) as Rx; pose proof (magnitude_pos mx ex));
  try (pose proof (fkey_pos_range _ _ Hy) as Ry; pose proof (magnitude_pos my ey));
  unfold float_as_i128 in *; rewrite ?trunc_magnitude in * by done; cbv zeta in *;
  simpl in Hk; try destruct sx; try destruct sy; try lia.
  - pose proof (magnitude_mono my ey mx ex Hy Hx ltac:(lia)) as Hm.
    apply (Z.div_le_mono _ _ (2 ^ (- emin))) in Hm; [lia|]. apply Z.pow_pos_nonneg; pose proof emin_neg; lia.
  - pose proof (magnitude_mono mx ex my ey Hx Hy ltac:(lia)) as Hm.
    apply (Z.div_le_mono _ _ (2 ^ (- emin))) in Hm; [lia|]. apply Z.pow_pos_nonneg; pose proof emin_neg; lia.
Qed.
End Order.

(** ** Printing floats *)

Section Float.
Context (num : numeric spec_float) (prec emax : Z).

Record float_type : Prop := FloatType {
  ft_prec : (1 < prec)%Z;
  ft_emax : (prec < emax)%Z;
  ft_gt : num_gt num = f64_gt;
  ft_lt : num_lt num = f64_lt;
  ft_digits : forall x, num_digits num x = N.of_nat (length (Z_text (float_as_i128 x)));
  ft_text : num_text num = float_text;
  ft_dec : num_has_decimal num = true;
  ft_zero : num_zero num = S754_zero false;
  ft_max : exists m e, num_max num = S754_finite false m e /\ bounded prec emax m e = true;
  ft_min : exists m e, num_min num = S754_finite true m e /\ bounded prec emax m e = true;
}.
Hypothesis HT : float_type.

Definition good_float (x : spec_float) : bool := not_nan x && valid_binary prec emax x.

Lemma good_float_spec x : good_float x = true <-> not_nan x = true /\ valid_binary prec emax x = true.
Proof. apply andb_true_iff. Qed.

Lemma float_extremes o m hi lo :
  (forall c r v, sq_val m c r = Some v -> valid_binary prec emax v = true) ->
  sq_extremes num o m = (hi, lo) ->
  (1 <= sq_width0 num hi lo <= 40) /\
  (forall c r v, sq_val m c r = Some v -> not_nan v = true ->
     N.of_nat (length (Z_text (float_as_i128 v))) <= sq_width0 num hi lo).
Proof.
  intros Hval Hext. destruct HT as [Hp He Hgt Hlt Hdg _ _ Hz (mM & eM & HM & BM) (mm & em & Hm & Bm)].
  destruct (extremes_spec num (fun v => valid_binary prec emax v = true) good_float (fkey prec emax))
    with (o := o) (m := m) (hi := hi) (lo := lo) as (Gh & Gl & H1 & _); try done.
  - intros a b Ha Hb. apply good_float_spec in Hb as [Nb Vb]. rewrite Hgt. unfold f64_gt, good_float.
    rewrite Ha, andb_true_r. by apply fkey_gt.
  - intros a b Ha Hb. apply good_float_spec in Hb as [Nb Vb]. rewrite Hlt. unfold f64_lt, good_float.
    rewrite Ha, andb_true_r. by apply fkey_lt.
  - by rewrite Hz.
  - rewrite Hm. unfold good_float. simpl. exact Bm.
  - rewrite HM. unfold good_float. simpl. exact BM.
  - apply good_float_spec in Gh as [Nh Vh]. apply good_float_spec in Gl as [Nl Vl].
    unfold sq_width0. rewrite !Hdg. split.
    + pose proof (Z_text_length (float_as_i128 hi)).
      assert (forall x, N.of_nat (length (Z_text (float_as_i128 x))) <= 40) as H40.
      { intros x. apply int_width. pose proof (as_i128_range x) as Hx.
        assert (- 2 ^ 128 < i128_min)%Z by (by vm_compute).
        assert (i128_max < 2 ^ 128)%Z by (by vm_compute). lia. }
      pose proof (H40 hi). pose proof (H40 lo). lia.
    + intros c r v Hv Nv. specialize (Hval c r v Hv).
      specialize (H1 c r v Hv ltac:(by apply good_float_spec)) as [K1 K2].
      pose proof (as_i128_mono prec emax Hp He lo v Vl Hval Nl Nv K1) as I1.
      pose proof (as_i128_mono prec emax Hp He v hi Hval Vh Nv Nh K2) as I2.
      pose proof (Z_text_between _ _ _ (conj I1 I2)). lia.
Qed.

Definition shows_float (m : sq spec_float) (d c r : N) (t : text) : Prop :=
  rounded_text d (sq_get_entry num m c r) t.

Lemma zero_rounded d : d <> 0 ->
  rounded_text d (S754_zero false) (txt "0" ++ "."%char :: replicate (N.to_nat d) "0"%char).
Proof.
  intros Hd. simpl. eexists. split; [|reflexivity].
  exists (txt "0"), (replicate (N.to_nat d) "0"%char). split_and!.
  - rewrite N.div_0_l by (by apply N.pow_nonzero). apply decimal_0.
  - apply zeros_digits.
  - rewrite replicate_length. lia.
  - rewrite N.mod_0_l by (by apply N.pow_nonzero).
    rewrite <- (app_nil_r (replicate _ _)). by rewrite digits_value_zeros.
  - by destruct (N.eqb_spec d 0).
Qed.

Lemma float_prints p o m d :
  65535 <= usize_max p -> d + 44 <= 65535 -> d <> 0 -> sq_inv m ->
  (forall c r v, sq_val m c r = Some v -> valid_binary prec emax v = true) ->
  (forall c r v, sq_val m c r = Some v -> not_nan v = true ->
     exists c' r' h, sq_val m c' r' = Some h /\ not_nan h = true /\
       N.of_nat (length (float_text d v)) <= N.of_nat (length (Z_text (float_as_i128 h))) + 1 + d) ->
  prints p (sq_dim m) d (shows_float m d) (sq_to_string_with_precision p num o m d).
Proof.
  intros Hp Hdp Hd0 Hinv Hval Hfit.
  destruct (N.eq_dec (sq_dim m) 0) as [H0|Hn]; [by apply prints_empty|].
  destruct (sq_extremes num o m) as [hi lo] eqn:Hext.
  destruct (float_extremes o m hi lo Hval Hext) as (Hw & Hb).
  assert (sq_width num hi lo d = sq_width0 num hi lo + 1 + d) as Hww.
  { unfold sq_width. by rewrite (ft_dec HT). }
  apply (sq_string_prints p num o m d hi lo
    (fun v => pad_left (sq_width0 num hi lo + 1 + d) (float_text d v))); try done; try lia.
  - intros c r v Hv. rewrite Hww. split_and!.
    + unfold sq_cell_text, fmt_count. rewrite (ft_dec HT). cbn [negb andb].
      destruct (N.leb_spec (sq_width0 num hi lo + 1 + d) 65535); [|lia]. cbn [obind].
      destruct (N.leb_spec d 65535); [|lia]. cbn [obind]. by rewrite (ft_text HT).
    + rewrite pad_left_length.
      assert (N.of_nat (length (float_text d v)) <= sq_width0 num hi lo + 1 + d); [|lia].
      destruct (not_nan v) eqn:Nv.
      * destruct (Hfit c r v Hv Nv) as (c' & r' & h & Hh & Nh & Hl).
        specialize (Hb c' r' h Hh Nh). lia.
      * destruct v; try done. simpl. lia.
    + apply pad_left_ascii, float_text_ascii.
    + eexists _, _. split; [reflexivity|]. unfold shows_float. rewrite sq_get_val, Hv. cbn [default].
      apply float_text_spec.
  - intros c r Hv. unfold shows_float. rewrite sq_get_val, Hv. cbn [default].
    rewrite (ft_dec HT), (ft_zero HT). cbn [orb]. by apply zero_rounded.
Qed.

(** Texts up to two characters too long do not run out of the buffer. *)
Lemma float_safe p o m d :
  65535 <= usize_max p -> d + 44 <= 65535 -> sq_inv m ->
  (forall c r v, sq_val m c r = Some v -> valid_binary prec emax v = true) ->
  (forall c r v, sq_val m c r = Some v -> not_nan v = true ->
     exists c' r' h, sq_val m c' r' = Some h /\ not_nan h = true /\
       N.of_nat (length (float_text d v)) <= N.of_nat (length (Z_text (float_as_i128 h))) + 3 + d) ->
  exists r, sq_to_string_with_precision p num o m d = Ret r /\
    match r with Ok _ => True | Err e => exists msg, e = CapacityOverflow msg end.
Proof.
  intros Hp Hdp Hinv Hval Hfit.
  destruct (N.eq_dec (sq_dim m) 0) as [H0|Hn].
  { eexists. split; [unfold sq_to_string_with_precision; rewrite H0; reflexivity|done]. }
  destruct (sq_extremes num o m) as [hi lo] eqn:Hext.
  destruct (float_extremes o m hi lo Hval Hext) as (Hw & Hb).
  assert (sq_width num hi lo d = sq_width0 num hi lo + 1 + d) as Hww.
  { unfold sq_width. by rewrite (ft_dec HT). }
  apply (sq_string_safe p num o m d hi lo); try done; try lia.
  { apply template_ascii. lia. }
  intros c r v Hv. rewrite Hww. unfold sq_cell_text, fmt_count. rewrite (ft_dec HT). cbn [negb andb].
  destruct (N.leb_spec (sq_width0 num hi lo + 1 + d) 65535); [|lia]. cbn [obind].
  destruct (N.leb_spec d 65535); [|lia]. cbn [obind].
  eexists. split; [reflexivity|]. rewrite (ft_text HT). split; [|apply pad_left_ascii, float_text_ascii].
  rewrite pad_left_length.
  assert (N.of_nat (length (float_text d v)) <= sq_width0 num hi lo + 3 + d); [|lia].
  destruct (not_nan v) eqn:Nv.
  - destruct (Hfit c r v Hv Nv) as (c' & r' & h & Hh & Nh & Hl).
    specialize (Hb c' r' h Hh Nh). lia.
  - destruct v; try done. simpl. lia.
Qed.
End Float.

Lemma f64_type : float_type f64_numeric 53 1024.
Proof. constructor; try done; eexists _, _; split; try reflexivity; by vm_compute. Qed.

Lemma f32_type : float_type f32_numeric 24 128.
Proof. constructor; try done; eexists _, _; split; try reflexivity; by vm_compute. Qed.

(** ** i128, which claims to have decimals *)

Section I128.
Let num := i128_numeric.
Let key := fun z : Z => z.

Lemma i128_int : int_type num key.
Proof. by apply (sint_type 128 true). Qed.

(** Stored values are printed without decimals, the others as zero with decimals. *)
Definition shows_i128 (m : sq Z) (d c r : N) (t : text) : Prop :=
  signed_decimal t (sq_get_entry num m c r) \/
  sq_get_entry num m c r = 0%Z /\ t = txt "0." ++ replicate (N.to_nat d) "0"%char.

Lemma i128_prints p o m d : 65535 <= usize_max p -> d + 44 <= 65535 -> sq_inv m ->
  (forall c r v, sq_val m c r = Some v -> in_type num key v) ->
  prints p (sq_dim m) d (shows_i128 m d) (sq_to_string_with_precision p num o m d).
Proof.
  intros Hp Hdp Hinv Hty.
  destruct (N.eq_dec (sq_dim m) 0) as [H0|Hn]; [by apply prints_empty|].
  destruct (sq_extremes num o m) as [hi lo] eqn:Hext.
  destruct (int_extremes num key i128_int o m hi lo Hty Hext) as (Hb & Hw & _).
  assert (sq_width num hi lo d = sq_width0 num hi lo + 1 + d) as Hww by done.
  apply (sq_string_prints p num o m d hi lo
    (fun v => pad_left (sq_width0 num hi lo + 1 + d) (Z_text v))); try done; try lia.
  - intros c r v Hv. rewrite Hww. split_and!.
    + unfold sq_cell_text, fmt_count. change (num_has_decimal num) with true. cbn [negb andb].
      destruct (N.leb_spec (sq_width0 num hi lo + 1 + d) 65535); [|lia]. cbn [obind].
      destruct (N.leb_spec d 65535); [|lia]. done.
    + rewrite pad_left_length. pose proof (Z_text_between _ _ _ (Hb c r v Hv)) as Hz.
      unfold sq_width0, key in *. rewrite !(it_digits _ _ i128_int). unfold key. lia.
    + apply pad_left_ascii, Z_text_ascii.
    + eexists _, _. split; [reflexivity|]. left. rewrite sq_get_val, Hv. cbn [default].
      apply Z_text_spec.
  - intros c r Hv. right. rewrite sq_get_val, Hv. done.
Qed.
End I128.

(** ** Doubles between 0 and 1 *)

Lemma nearest_unit m e d q : (e < 0)%Z -> (Zpos m <= 2 ^ (- e))%Z -> nearest_scaled m e d q ->
  q <= 10 ^ d.
Proof.
  intros He Hm. unfold nearest_scaled. replace (Z.max 0 (- e)) with (- e)%Z by lia.
  replace (Z.max 0 e) with 0%Z by lia. rewrite Z.pow_0_r, Z.mul_1_r.
  assert (0 < 2 ^ (- e))%Z as Hp by (apply Z.pow_pos_nonneg; lia).
  set (den := (2 ^ (- e))%Z) in *. clearbody den.
  assert (0 < 10 ^ Z.of_N d)%Z as Ht by (apply Z.pow_pos_nonneg; lia).
  assert (Z.of_N (10 ^ d) = 10 ^ Z.of_N d)%Z as HT by apply Z_of_N_pow.
  set (ten := (10 ^ Z.of_N d)%Z) in *. clearbody ten. intros [H1 H2].
  assert (Z.pos m * ten <= den * ten)%Z by (apply Z.mul_le_mono_nonneg_r; lia).
  assert (Z.of_N q <= ten)%Z; [|lia].
  destruct (Z.le_gt_cases (Z.of_N q) ten) as [?|Hgt]; [done|].
  assert ((ten + 1) * den <= Z.of_N q * den)%Z by (apply Z.mul_le_mono_nonneg_r; lia). lia.
Qed.

Lemma fixed_text_unit q d : q <= 10 ^ d -> N.of_nat (length (fixed_text q d)) <= d + 2.
Proof.
  intros Hq. unfold fixed_text. rewrite app_length.
  assert (10 ^ d <> 0) as Hp by (by apply N.pow_nonzero).
  assert (q / 10 ^ d < 10) as Hlt.
  { apply N.div_lt_upper_bound; [done|]. lia. }
  pose proof (N_text_bound (q / 10 ^ d) 1 Hlt ltac:(done)).
  destruct (N.eqb_spec d 0); [simpl; lia|].
  pose proof (pad_zeros_spec d (q mod 10 ^ d) ltac:(done) ltac:(by apply N.mod_lt)) as (_ & Hl & _).
  simpl. lia.
Qed.

Lemma unit_text d v : is_f64 v = true -> f64_le f64_zero v = true -> f64_le v f64_one = true ->
  N.of_nat (length (float_text d v)) <= d + 3 /\
  (v <> S754_zero true -> N.of_nat (length (float_text d v)) <= d + 2).
Proof.
  intros Hv H0 H1.
  assert (f64_one = S754_finite false 4503599627370496 (-52)) as H1e by (by vm_compute).
  destruct v as [s|[]| |[] m e]; try done.
  - pose proof (fixed_text_unit 0 d (N.le_0_l _)) as HL.
    destruct s; unfold float_text; rewrite app_length.
    + change (length (txt "-")) with 1%nat. split; [lia|by intros []].
    + change (length (@nil ascii)) with 0%nat. split; [lia|intros _; lia].
  - simpl in Hv.
    assert (not_nan (S754_finite false m e) = true) as N1 by done.
    assert (fkey 53 1024 (S754_finite false m e) <= fkey 53 1024 f64_one)%Z as Hk.
    { unfold f64_le, SFleb in H1. rewrite (fkey_compare 53 1024) in H1; try done.
      apply Z.compare_le_iff. intros E. rewrite E in H1. discriminate H1. }
    rewrite H1e in Hk. simpl in Hk.
    assert (bounded 53 1024 4503599627370496 (-52) = true) as Hb1 by (by vm_compute).
    pose proof (magnitude_mono 53 1024 ltac:(done) _ _ _ _ Hv Hb1 Hk) as Hm.
    apply (bounded_spec 53 1024 ltac:(done) ltac:(done)) in Hv as (_ & He & _).
    unfold magnitude in Hm. change (3 - 1024 - 53)%Z with (-1074)%Z in *.
    change (Z.pos 4503599627370496 * 2 ^ (-52 - -1074))%Z with (2 ^ 1074)%Z in Hm.
    assert (e < 0)%Z as He0.
    { destruct (Z.lt_ge_cases e 0); [done|].
      assert (2 ^ 1074 <= 2 ^ (e - -1074))%Z by (apply Z.pow_le_mono_r; lia).
      destruct (decide (e = 0)%Z) as [->|].
      - change (0 - -1074)%Z with 1074%Z in Hm.
        assert (Z.pos m = 1)%Z by nia. assert (m = 1%positive) as -> by lia. done.
      - assert (2 ^ 1074 < 2 ^ (e - -1074))%Z by (apply Z.pow_lt_mono_r; lia). nia. }
    assert (Z.pos m <= 2 ^ (- e))%Z as Hme.
    { replace 1074%Z with (- e + (e - -1074))%Z in Hm by lia.
      rewrite Z.pow_add_r in Hm by lia.
      apply Z.mul_le_mono_pos_r in Hm; [done|]. apply Z.pow_pos_nonneg; lia. }
    pose proof (nearest_unit m e d _ He0 Hme (scaled_round_nearest m e d)) as Hq.
    apply fixed_text_unit in Hq. unfold float_text. rewrite app_length. simpl length. lia.
Qed.

(** ** Doubles within the range of i128 *)

Lemma N_text_succ n : (length (N_text (n + 1)) <= length (N_text n) + 1)%nat.
Proof.
  destruct (N_text_spec n) as (_ & Hn & _).
  pose proof (N_text_bound (n + 1) (N.of_nat (length (N_text n)) + 1)) as H.
  rewrite N.pow_add_r in H. change (10 ^ 1) with 10 in H.
  assert (1 <= 10 ^ N.of_nat (length (N_text n))) as Hp.
  { assert (10 ^ N.of_nat (length (N_text n)) <> 0) by (by apply N.pow_nonzero). lia. }
  assert (N.of_nat (length (N_text (n + 1))) <= N.of_nat (length (N_text n)) + 1); [apply H; lia|lia].
Qed.

Lemma round_half_even_le num den : den <> 0 -> round_half_even num den <= num / den + 1.
Proof. intros Hd. unfold round_half_even. repeat case_match; lia. Qed.

Lemma scaled_round_carry s m e d :
  scaled_round m e d / 10 ^ d <= Z.abs_N (float_trunc (S754_finite s m e)) + 1.
Proof.
  assert (10 ^ d <> 0) as Hp by (by apply N.pow_nonzero).
  assert (Z.abs_N (float_trunc (S754_finite s m e)) =
    Z.to_N match e with
     | Z0 => Zpos m
     | Zpos e' => (Zpos m * 2 ^ Zpos e')%Z
     | Zneg e' => (Zpos m / 2 ^ Zpos e')%Z
     end) as ->.
  { unfold float_trunc. set (a := match e with Z0 => _ | Zpos _ => _ | Zneg _ => _ end).
    assert (0 <= a)%Z.
    { unfold a. destruct e as [|e|e]; [lia| |].
      - apply Z.mul_nonneg_nonneg; [lia|]. apply Z.pow_nonneg. lia.
      - apply Z.div_pos; [lia|]. apply Z.pow_pos_nonneg; lia. }
    clearbody a. destruct s; lia. }
  unfold scaled_round. destruct e as [|e|e].
  - rewrite N.div_mul by done. lia.
  - rewrite N.div_mul by done.
    assert (Z.of_N (N.pos m * 2 ^ N.pos e) = Z.pos m * 2 ^ Z.pos e)%Z as <- by (rewrite N2Z.inj_mul, N2Z.inj_pow; done).
    rewrite N2Z.id. lia.
  - assert (2 ^ N.pos e <> 0) as Hden by (by apply N.pow_nonzero).
    assert (Z.to_N (Z.pos m / 2 ^ Z.pos e) = N.pos m / 2 ^ N.pos e) as ->.
    { assert (Z.of_N (N.pos m / 2 ^ N.pos e) = Z.pos m / 2 ^ Z.pos e)%Z as <-
        by (rewrite N2Z.inj_div, N2Z.inj_pow; done). apply N2Z.id. }
    pose proof (round_half_even_le (N.pos m * 10 ^ d) _ Hden) as Hr.
    set (den := 2 ^ N.pos e) in *. clearbody den. set (ten := 10 ^ d) in *. clearbody ten.
    assert (N.pos m * ten / den + 1 <= (N.pos m / den + 1) * ten) as Hle.
    { assert (N.pos m * ten / den < (N.pos m / den + 1) * ten); [|lia].
      apply N.div_lt_upper_bound; [done|].
      pose proof (N.mul_succ_div_gt (N.pos m) den Hden) as Hgt.
      replace (den * ((N.pos m / den + 1) * ten)) with (den * N.succ (N.pos m / den) * ten) by lia.
      apply N.mul_lt_mono_pos_r; [lia|done]. }
    replace (N.pos m / den + 1) with ((N.pos m / den + 1) * ten / ten) by (by apply N.div_mul).
    apply N.div_le_mono; [done|]. lia.
Qed.

Lemma float_text_room d v : below (2 ^ 127) v ->
  N.of_nat (length (float_text d v)) <= N.of_nat (length (Z_text (float_as_i128 v))) + 3 + d.
Proof.
  intros Hb. pose proof (Z_text_length (float_as_i128 v)) as HL.
  destruct v as [s|s| |s m e].
  - pose proof (fixed_text_unit 0 d (N.le_0_l _)) as Hu. unfold float_text. rewrite app_length.
    assert (length (if s then txt "-" else []) <= 1)%nat by (destruct s; simpl; lia). lia.
  - assert (length (float_text d (S754_infinity s)) <= 4)%nat by (destruct s; simpl; lia). lia.
  - assert (length (float_text d S754_nan) <= 3)%nat by (simpl; lia). lia.
  - pose proof (scaled_round_carry s m e d) as Hc. apply N_text_mono in Hc.
    pose proof (N_text_succ (Z.abs_N (float_trunc (S754_finite s m e)))) as Hs.
    assert (float_as_i128 (S754_finite s m e) = float_trunc (S754_finite s m e)) as ->.
    { unfold float_as_i128. cut (- 2 ^ 127 < float_trunc (S754_finite s m e) < 2 ^ 127)%Z.
      { unfold i128_min, i128_max. lia. }
      cut (0 <= match e with
          | Z0 => Zpos m
          | Zpos e' => (Zpos m * 2 ^ Zpos e')%Z
          | Zneg e' => (Zpos m / 2 ^ Zpos e')%Z
          end < 2 ^ 127)%Z.
      { unfold float_trunc. set (a := match e with Z0 => _ | Zpos _ => _ | Zneg _ => _ end).
        clearbody a. destruct s; lia. }
      unfold below in Hb. destruct e as [|e|e].
      - change (Z.max 0 0) with 0%Z in Hb. change (Z.max 0 (- 0)) with 0%Z in Hb.
        rewrite Z.pow_0_r in Hb. lia.
      - replace (Z.max 0 (Z.pos e)) with (Z.pos e) in Hb by lia.
        replace (Z.max 0 (- Z.pos e)) with 0%Z in Hb by lia. rewrite Z.pow_0_r in Hb.
        split; [|lia]. apply Z.mul_nonneg_nonneg; [lia|]. apply Z.pow_nonneg. lia.
      - replace (Z.max 0 (Z.neg e)) with 0%Z in Hb by lia.
        replace (Z.max 0 (- Z.neg e)) with (Z.pos e) in Hb by lia. rewrite Z.pow_0_r in Hb.
        assert (0 < 2 ^ Z.pos e)%Z by (apply Z.pow_pos_nonneg; lia).
        split; [apply Z.div_pos; lia|]. apply Z.div_lt_upper_bound; lia. }
    assert (length (N_text (Z.abs_N (float_trunc (S754_finite s m e)))) <=
      length (Z_text (float_trunc (S754_finite s m e))))%nat as Hz.
    { unfold Z_text. destruct (_ <? 0)%Z; simpl length; lia. }
    set (t := float_trunc (S754_finite s m e)) in *. clearbody t.
    unfold float_text. rewrite app_length. unfold fixed_text. rewrite app_length.
    assert (length (if s then txt "-" else []) <= 1)%nat by (destruct s; simpl; lia).
    destruct (N.eqb_spec d 0).
    + simpl length at 3. change (length (@nil ascii)) with 0%nat. lia.
    + assert (10 ^ d <> 0) as Hp by (by apply N.pow_nonzero).
      pose proof (pad_zeros_spec d (scaled_round m e d mod 10 ^ d) ltac:(done) ltac:(by apply N.mod_lt)) as (_ & Hl & _).
      cbn [length]. lia.
Qed.

(** Larger values, whose integer part is cut to that of i128::MAX or MIN. *)
Lemma float_text_room_wide d v :
  match v with S754_finite _ m _ => (Zpos m < 2 ^ 127)%Z | _ => True end -> below (10 ^ 41) v ->
  N.of_nat (length (float_text d v)) <= N.of_nat (length (Z_text (float_as_i128 v))) + 3 + d.
Proof.
  intros Hm Hb. destruct v as [s|s| |s m e]; try (by apply float_text_room).
  destruct (Z.lt_ge_cases (Zpos m * 2 ^ Z.max 0 e) (2 ^ 127 * 2 ^ Z.max 0 (- e))) as [Hlt|Hge];
    [by apply float_text_room|].
  assert (0 <= e)%Z as He.
  { destruct (Z.lt_ge_cases e 0) as [He|]; [|lia].
    replace (Z.max 0 e) with 0%Z in Hge by lia. rewrite Z.pow_0_r in Hge.
    assert (0 < 2 ^ Z.max 0 (- e))%Z by (apply Z.pow_pos_nonneg; lia). nia. }
  replace (Z.max 0 e) with e in Hge by lia. replace (Z.max 0 (- e)) with 0%Z in Hge by lia.
  unfold below in Hb. replace (Z.max 0 e) with e in Hb by lia. replace (Z.max 0 (- e)) with 0%Z in Hb by lia.
  rewrite Z.pow_0_r, Z.mul_1_r in Hge, Hb.
  assert (scaled_round m e d / 10 ^ d = Z.to_N (Zpos m * 2 ^ e)) as Hq.
  { assert (10 ^ d <> 0) as Hp by (by apply N.pow_nonzero).
    unfold scaled_round. destruct e as [|e|e]; [| |lia]; rewrite N.div_mul by done.
    - rewrite Z.pow_0_r. lia.
    - assert (Z.of_N (N.pos m * 2 ^ N.pos e) = Z.pos m * 2 ^ Z.pos e)%Z as <- by (rewrite N2Z.inj_mul, N2Z.inj_pow; done).
      by rewrite N2Z.id. }
  assert (float_trunc (S754_finite s m e) = (if s then - (Zpos m * 2 ^ e) else Zpos m * 2 ^ e)%Z) as Ht.
  { unfold float_trunc. destruct e as [|e|e]; [|done|lia]. by rewrite Z.pow_0_r, Z.mul_1_r. }
  assert (39 <= N.of_nat (length (Z_text (float_as_i128 (S754_finite s m e)))) - (if s then 1 else 0)) as Hw.
  { unfold float_as_i128. rewrite Ht. set (z := (Zpos m * 2 ^ e)%Z) in *. clearbody z.
    destruct s.
    - replace (Z.max i128_min (Z.min i128_max (- z))) with i128_min by (unfold i128_min, i128_max in *; lia).
      by vm_compute.
    - replace (Z.max i128_min (Z.min i128_max z)) with i128_max by (unfold i128_min, i128_max in *; lia).
      by vm_compute. }
  pose proof (Z_text_length (float_as_i128 (S754_finite s m e))) as HL.
  assert (N.of_nat (length (N_text (Z.to_N (Zpos m * 2 ^ e)))) <= 41) as Hn.
  { apply N_text_bound; [|done]. change (10 ^ 41) with (Z.to_N (10 ^ 41)). lia. }
  unfold float_text. rewrite app_length. unfold fixed_text. rewrite app_length, Hq.
  assert (length (if s then txt "-" else []) = if s then 1 else 0)%nat as -> by (by destruct s).
  destruct (N.eqb_spec d 0).
  - change (length (@nil ascii)) with 0%nat. destruct s; lia.
  - assert (10 ^ d <> 0) as Hp by (by apply N.pow_nonzero).
    pose proof (pad_zeros_spec d (scaled_round m e d mod 10 ^ d) ltac:(done) ltac:(by apply N.mod_lt)) as (_ & Hl & _).
    cbn [length]. destruct s; lia.
Qed.
