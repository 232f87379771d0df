(** Exactly what the square matrix printer leaves in its buffer. *)
From Coq Require Import ZArith Ascii String.
From Verif Require Import Base HashIter F64 Numeric Adj Sq Spec TextSpec Api AdjProofs GraphProofs
  SqProofs BitsProofs TextProofs SqTextProofs NumTextProofs SqShowProofs FloatTextProofs.
Local Arguments N.mul : simpl never.
Local Arguments N.add : simpl never.
Local Arguments N.pow : simpl never.

(** ** Writing texts of any length *)

Lemma put_over (t buf : text) pos : (pos <= length buf)%nat -> (length buf < pos + length t)%nat ->
  ofold buf_put t (buf, N.of_nat pos) = Panic.
Proof.
  revert buf pos. induction t as [|x t IH]; intros buf pos Hp Hl; simpl in Hl; [lia|].
  cbn [ofold buf_put].
  destruct (N.ltb_spec (N.of_nat pos) (N.of_nat (length buf))); [|done]. cbn [obind].
  replace (N.of_nat pos + 1) with (N.of_nat (S pos)) by lia.
  apply IH; rewrite insert_length; lia.
Qed.

Lemma put_within (t buf : text) pos : (pos + length t <= length buf)%nat ->
  ofold buf_put t (buf, N.of_nat pos) =
  Ret (take pos buf ++ t ++ drop (pos + length t) buf, N.of_nat (pos + length t)).
Proof.
  intros H.
  assert (buf = take pos buf ++ take (length t) (drop pos buf) ++ drop (pos + length t) buf) as Hb.
  { rewrite <- drop_drop. by rewrite !take_drop. }
  assert (length (take pos buf) = pos) as Hl by (rewrite take_length; lia).
  pose proof (put_text t (take pos buf) (take (length t) (drop pos buf)) (drop (pos + length t) buf)) as H'.
  rewrite <- Hb, Hl in H'. apply H'. rewrite take_length, drop_length. lia.
Qed.

Lemma overwritten (t buf : text) pos q : (pos + length t <= length buf)%nat ->
  (take pos buf ++ t ++ drop (pos + length t) buf) !! q =
  if decide (pos <= q < pos + length t)%nat then t !! (q - pos)%nat else buf !! q.
Proof.
  intros H. assert (length (take pos buf) = pos) as Hl by (rewrite take_length; lia).
  case_decide as Hq.
  - rewrite lookup_app_r by lia. rewrite Hl. by rewrite lookup_app_l by lia.
  - destruct (decide (q < pos)%nat).
    + rewrite lookup_app_l by lia. by rewrite lookup_take by lia.
    + rewrite !lookup_app_r by lia. rewrite Hl, lookup_drop. f_equal. lia.
Qed.

Definition cell_pos (n w c r : N) : nat := N.to_nat (r * (4 + n * (w + 2)) + 2 + (w + 2) * c).

Section Cells.
Context {T : Type} (p : platform) (num : numeric T) (hi lo : T) (w d n : N) (txt_of : T -> list ascii).

Definition runs_over (size : nat) (cell : N * N * T) : Prop :=
  let '(c, r, v) := cell in (size < cell_pos n w c r + length (txt_of v))%nat.

Lemma write_cells_exact l buf :
  n <= usize_max p -> (w + 2) * (n * n) + 4 * n - 2 <= usize_max p ->
  N.of_nat (length buf) = (w + 2) * (n * n) + 4 * n - 2 ->
  (forall c r v, (c, r, v) ∈ l -> c < n /\ r < n /\ sq_cell_text num hi lo w d v = Ret (txt_of v)) ->
  let out := ofold (sq_write_cell p num hi lo w d (w + 2) (4 + n * (w + 2))) l buf in
  (Exists (runs_over (length buf)) l -> out = Panic) /\
  (~ Exists (runs_over (length buf)) l -> exists buf', out = Ret buf' /\ length buf' = length buf /\
    forall q (P : ascii -> Prop),
      (forall c r v x, (c, r, v) ∈ l -> (cell_pos n w c r <= q)%nat ->
         txt_of v !! (q - cell_pos n w c r)%nat = Some x -> P x) ->
      (exists x, buf !! q = Some x /\ P x) \/
      (exists c r v, (c, r, v) ∈ l /\ (cell_pos n w c r <= q < cell_pos n w c r + length (txt_of v))%nat) ->
      exists x, buf' !! q = Some x /\ P x).
Proof.
  intros Hn Hsz. revert buf. induction l as [|[[c r] v] l IH]; intros buf Hlen Hl out; subst out.
  - split; [by intros ?%Exists_nil|]. intros _. exists buf. split_and!; [done..|].
    intros q P _ [H|(c & r & v & Hin & _)]; [done|by apply elem_of_nil in Hin].
  - destruct (Hl c r v ltac:(left)) as (Hc & Hr & Ht).
    pose proof (write_pos p n w c r Hc Hr Hn Hsz) as Hpos.
    cbn [ofold]. rewrite write_cell_unfold, Ht by done. cbn [obind].
    replace (r * (4 + n * (w + 2)) + 2 + (w + 2) * c) with (N.of_nat (cell_pos n w c r))
      by (unfold cell_pos; lia).
    assert (cell_pos n w c r <= length buf)%nat as Hle by (unfold cell_pos; lia).
    destruct (decide (length buf < cell_pos n w c r + length (txt_of v))%nat) as [Hov|Hov].
    + rewrite put_over by lia. split; [done|]. intros H. exfalso. apply H. by left.
    + rewrite put_within by lia. cbn [obind fst].
      set (buf1 := take _ buf ++ txt_of v ++ _).
      assert (length buf1 = length buf) as Hl1.
      { unfold buf1. rewrite !app_length, take_length, drop_length. lia. }
      destruct (IH buf1) as [IH1 IH2].
      * by rewrite Hl1.
      * intros c' r' v' Hin. apply Hl. by right.
      * rewrite Hl1 in IH1, IH2. split.
        -- intros [H|H]%Exists_cons; [simpl in H; lia|]. by apply IH1.
        -- intros H. destruct IH2 as (buf' & Heq & Hl' & Hq).
           { intros H'. apply H. by right. }
           exists buf'. split_and!; [done..|]. intros q P HP Hcov. apply Hq.
           { intros c' r' v' x Hin. apply HP. by right. }
           destruct (decide (cell_pos n w c r <= q < cell_pos n w c r + length (txt_of v))%nat) as [Hin|Hout].
           ++ left. destruct (lookup_lt_is_Some_2 (txt_of v) (q - cell_pos n w c r)) as [x Hx]; [lia|].
              exists x. split.
              ** unfold buf1. rewrite overwritten by lia. by rewrite decide_True.
              ** eapply HP; [left|lia|done].
           ++ destruct Hcov as [(x & Hx & HPx)|(c' & r' & v' & Hin & Hr')].
              ** left. exists x. split; [|done]. unfold buf1. rewrite overwritten by lia.
                 by rewrite decide_False.
              ** right. exists c', r', v'. split; [|done].
                 apply elem_of_cons in Hin as [[= -> -> ->]|Hin]; [lia|done].
Qed.
End Cells.

(** Positions inside cells and separators do not meet. *)
Lemma cell_pos_sep n w c r c' r' k : c < n -> r < n -> c' < n -> r' < n -> k < w + 2 ->
  forall k', k' < w + 2 ->
  (cell_pos n w c r + N.to_nat k = cell_pos n w c' r' + N.to_nat k')%nat ->
  c = c' /\ r = r' /\ k = k'.
Proof.
  intros Hc Hr Hc' Hr' Hk k' Hk' H. unfold cell_pos in H.
  assert (r * (4 + n * (w + 2)) + (w + 2) * c + k = r' * (4 + n * (w + 2)) + (w + 2) * c' + k') as E by lia.
  clear H.
  assert ((w + 2) * c + (w + 2) <= (w + 2) * n) by (rewrite <- N.mul_succ_r; apply N.mul_le_mono_l; lia).
  assert ((w + 2) * c' + (w + 2) <= (w + 2) * n) by (rewrite <- N.mul_succ_r; apply N.mul_le_mono_l; lia).
  set (R := 4 + n * (w + 2)) in *.
  assert (r = r') as ->.
  { destruct (N.lt_trichotomy r r') as [Hlt|[?|Hlt]]; [|done|].
    - assert (r * R + R <= r' * R) by (rewrite <- N.mul_succ_l; apply N.mul_le_mono_r; lia). lia.
    - assert (r' * R + R <= r * R) by (rewrite <- N.mul_succ_l; apply N.mul_le_mono_r; lia). lia. }
  assert (c = c') as ->.
  { destruct (N.lt_trichotomy c c') as [Hlt|[?|Hlt]]; [|done|].
    - assert ((w + 2) * c + (w + 2) <= (w + 2) * c') by (rewrite <- N.mul_succ_r; apply N.mul_le_mono_l; lia). lia.
    - assert ((w + 2) * c' + (w + 2) <= (w + 2) * c) by (rewrite <- N.mul_succ_r; apply N.mul_le_mono_l; lia). lia. }
  split_and!; [done..|lia].
Qed.

(** Where a laid out text has its cells and separators. *)
Lemma matrix_text_chars n (cell : N -> N -> list ascii) w c r : c < n -> r < n ->
  (forall c r, c < n -> r < n -> length (cell c r) = N.to_nat w) ->
  (forall k, (k < N.to_nat w)%nat -> (matrix_text n cell : list ascii) !! (cell_pos n w c r + k)%nat = cell c r !! k) /\
  ((matrix_text n cell : list ascii) !! (cell_pos n w c r + N.to_nat w)%nat = Some ","%char \/
   (matrix_text n cell : list ascii) !! (cell_pos n w c r + N.to_nat w)%nat = Some " "%char).
Proof.
  intros Hc Hr Hw.
  destruct (matrix_text_cell n cell (N.to_nat w) c r Hc Hr Hw) as (pre & post & Hpre & [_ Hh] & Hsp).
  rewrite (Hsp cell) by done. rewrite N2Nat.id in Hpre.
  assert (cell_pos n w c r = length pre) as -> by (unfold cell_pos; lia).
  specialize (Hw c r Hc Hr). split.
  - intros k Hk. rewrite lookup_app_r by lia.
    rewrite lookup_app_l by lia. f_equal. lia.
  - rewrite lookup_app_r by lia. rewrite lookup_app_r by lia.
    replace (length pre + N.to_nat w - length pre - length (cell c r))%nat with 0%nat by lia.
    by destruct post.
Qed.

(** A layout is determined by its length. *)
Lemma shows_matrix_width n shows s w : n <> 0 -> shows_matrix n shows s ->
  N.of_nat (length s) = (w + 2) * (n * n) + 4 * n - 2 ->
  exists cell, s = matrix_text n cell /\
    forall c r, c < n -> r < n -> length (cell c r) = N.to_nat w /\
      exists k t, cell c r = replicate k " "%char ++ t /\ shows c r t.
Proof.
  intros Hn (w' & cell & -> & H) Hl. exists cell. split; [done|].
  rewrite (matrix_text_length n cell w') in Hl; [|done|intros; by apply H].
  assert (N.of_nat w' = w) as Hw.
  { assert ((N.of_nat w' + 2) * (n * n) = (w + 2) * (n * n)) as E by nia.
    apply N.mul_cancel_r in E; [lia|nia]. }
  intros c r Hc Hr. destruct (H c r Hc Hr) as [-> ?]. split; [lia|done].
Qed.

(** ** The whole printer *)

(** What a layout shows, its cells show. *)
Lemma layout_cell n (f : N -> N -> list ascii) w shows c r : n <> 0 ->
  (forall c r, c < n -> r < n -> length (f c r) = N.to_nat w) ->
  shows_matrix n shows (matrix_text n f) -> c < n -> r < n ->
  exists k t, f c r = replicate k " "%char ++ t /\ shows c r t.
Proof.
  intros Hn Hf Hshow Hc Hr.
  pose proof (matrix_text_length n f (N.to_nat w) Hn Hf) as HL. rewrite N2Nat.id in HL.
  destruct (shows_matrix_width n _ _ w Hn Hshow HL) as (cl & Heq & Hcl).
  destruct (matrix_text_inj n n f cl (N.to_nat w) Hf ltac:(intros; by apply Hcl) Heq) as [_ E].
  rewrite (E c r Hc Hr). by apply Hcl.
Qed.

Section Exact.
Context {T : Type} (p : platform) (num : numeric T) (o : hash_order) (m : sq T) (d : N) (hi lo : T)
  (txt_of : T -> list ascii).
Let n := sq_dim m.
Let w := sq_width num hi lo d.

Lemma exact_text : sq_inv m -> n <> 0 -> sq_extremes num o m = (hi, lo) ->
  1 <= sq_width0 num hi lo -> sq_width0 num hi lo + d + 3 <= usize_max p ->
  (forall c r v, sq_val m c r = Some v ->
     sq_cell_text num hi lo w d v = Ret (txt_of v) /\ utf8_ok (txt_of v) = true) ->
  text_fits p n w = true ->
  let over := exists c r v, sq_val m c r = Some v /\
    text_size n w < N.of_nat (cell_pos n w c r + length (txt_of v)) in
  (over -> sq_to_string_with_precision p num o m d = Panic) /\
  (~ over -> exists s : list ascii, sq_to_string_with_precision p num o m d = Ret (Ok s) /\
     N.of_nat (length s) = text_size n w /\
     forall q (P : ascii -> Prop),
      (forall c r v x, sq_val m c r = Some v -> (cell_pos n w c r <= q)%nat ->
         txt_of v !! (q - cell_pos n w c r)%nat = Some x -> P x) ->
      (exists c r v, sq_val m c r = Some v /\
         (cell_pos n w c r <= q < cell_pos n w c r + length (txt_of v))%nat) ->
      exists x, s !! q = Some x /\ P x).
Proof.
  intros Hinv Hn Hext Hw0 Hw Hcells Hfit over.
  pose proof (sq_string_unfold p num o m d hi lo Hn Hext Hw0 Hw) as H.
  fold n w in H. rewrite Hfit in H. rewrite H. clear H.
  apply text_fits_spec in Hfit as [Hfit _].
  set (buf := matrix_text n (fun _ _ => template num hi lo d)).
  assert (N.of_nat (length buf) = (w + 2) * (n * n) + 4 * n - 2) as Hlen.
  { unfold buf. rewrite (matrix_text_length n _ (N.to_nat w)); [by rewrite N2Nat.id|done|].
    intros. apply template_cell_length. }
  destruct (write_cells_exact p num hi lo w d n txt_of (sq_cells o m) buf) as [H1 H2]; [nia|lia|done| |].
  { intros c r v Hv. apply elem_of_sq_cells in Hv. split_and!;
      [by apply (si_bound m Hinv c r ltac:(by eexists))..|by apply (Hcells c r)]. }
  assert (Exists (runs_over w n txt_of (length buf)) (sq_cells o m) <-> over) as Hov.
  { rewrite Exists_exists. unfold over, text_size. split.
    - intros ([[c r] v] & Hin & Hr). apply elem_of_sq_cells in Hin. exists c, r, v. split; [done|].
      simpl in Hr. lia.
    - intros (c & r & v & Hv & Hr). exists (c, r, v). split; [by apply elem_of_sq_cells|]. simpl. lia. }
  rewrite Hov in H1, H2. split; [intros Ho; by rewrite H1|].
  intros Ho. destruct (H2 Ho) as (buf' & -> & Hl' & Hq). cbn [obind]. exists buf'.
  assert (utf8_ok buf' = true) as ->.
  { unfold utf8_ok. apply forallb_forall. intros x Hx. apply elem_of_list_In in Hx.
    apply elem_of_list_lookup in Hx as [q Hx].
    destruct (Hq q (fun x => N_of_ascii x <? 128 = true)) as (x' & Hx' & HP).
    - intros c r v y Hin _ Hy. apply elem_of_sq_cells in Hin.
      destruct (Hcells c r v Hin) as [_ Ha]. unfold utf8_ok in Ha. rewrite forallb_forall in Ha.
      apply Ha. apply elem_of_list_In. by eapply elem_of_list_lookup_2.
    - left. destruct (lookup_lt_is_Some_2 buf q) as [y Hy].
      { rewrite <- Hl'. by eapply lookup_lt_Some. }
      exists y. split; [done|].
      assert (utf8_ok buf = true) as Ha.
      { apply matrix_text_ascii. intros. by apply template_ascii. }
      unfold utf8_ok in Ha. rewrite forallb_forall in Ha.
      apply Ha. apply elem_of_list_In. by eapply elem_of_list_lookup_2.
    - rewrite Hx in Hx'. by injection Hx' as <-. }
  split_and!; [done|unfold text_size; lia|].
  intros q P HP (c & r & v & Hv & Hc). apply Hq.
  - intros c' r' v' x Hin. apply HP. by apply elem_of_sq_cells in Hin.
  - right. exists c, r, v. split; [by apply elem_of_sq_cells|done].
Qed.

(** A text longer than the width destroys the separator after its cell. *)
Lemma overlong_not_shown c r v shows : sq_inv m -> n <> 0 -> sq_extremes num o m = (hi, lo) ->
  1 <= sq_width0 num hi lo -> sq_width0 num hi lo + d + 3 <= usize_max p ->
  (forall c r v, sq_val m c r = Some v ->
     sq_cell_text num hi lo w d v = Ret (txt_of v) /\ utf8_ok (txt_of v) = true) ->
  (forall c r v k x, sq_val m c r = Some v -> (N.to_nat w <= k)%nat -> txt_of v !! k = Some x ->
     x <> ","%char /\ x <> " "%char) ->
  sq_val m c r = Some v -> w < N.of_nat (length (txt_of v)) ->
  forall s, sq_to_string_with_precision p num o m d = Ret (Ok s) -> ~ shows_matrix n shows s.
Proof.
  intros Hinv Hn Hext Hw0 Hw Hcells Htail Hv Hlong s Hs Hshow.
  pose proof (sq_string_unfold p num o m d hi lo Hn Hext Hw0 Hw) as H. fold n w in H.
  destruct (text_fits p n w) eqn:Hfit.
  2:{ destruct H as [msg H]. rewrite Hs in H. done. }
  clear H. destruct (exact_text Hinv Hn Hext Hw0 Hw Hcells Hfit) as [H1 H2].
  destruct H2 as (s' & Hs' & Hl & Hq).
  { intros Ho. rewrite Hs in H1. by specialize (H1 Ho). }
  rewrite Hs in Hs'. injection Hs' as <-.
  destruct (si_bound m Hinv c r ltac:(by eexists)) as [Hc Hr]. fold n in Hc, Hr.
  destruct (Hq (cell_pos n w c r + N.to_nat w)%nat (fun x => x <> ","%char /\ x <> " "%char))
    as (x & Hx & Hx1 & Hx2).
  - intros c' r' v' x Hv' Hp Hx. eapply Htail; [exact Hv'| |exact Hx].
    destruct (si_bound m Hinv c' r' ltac:(by eexists)) as [Hc' Hr']. fold n in Hc', Hr'.
    destruct (decide (N.to_nat w <= cell_pos n w c r + N.to_nat w - cell_pos n w c' r')%nat) as [|Hk]; [done|].
    destruct (cell_pos_sep n w c r c' r' w Hc Hr Hc' Hr' ltac:(lia)
      (N.of_nat (cell_pos n w c r + N.to_nat w - cell_pos n w c' r')) ltac:(lia) ltac:(lia)) as (_ & _ & E). lia.
  - exists c, r, v. split; [done|lia].
  - destruct (shows_matrix_width n shows s w Hn Hshow Hl) as (cell & -> & Hcell).
    destruct (matrix_text_chars n cell w c r Hc Hr) as [_ Hsep].
    { intros. by apply Hcell. }
    destruct Hsep as [Hsep|Hsep]; rewrite Hsep in Hx; injection Hx as <-; done.
Qed.

(** Nor if a stored value's text has a character that no right cell has there. *)
Lemma wrong_char_not_shown c r v (k : nat) (x : ascii) (shows : N -> N -> text -> Prop) : sq_inv m -> n <> 0 -> sq_extremes num o m = (hi, lo) ->
  1 <= sq_width0 num hi lo -> sq_width0 num hi lo + d + 3 <= usize_max p ->
  (forall c r v, sq_val m c r = Some v ->
     sq_cell_text num hi lo w d v = Ret (txt_of v) /\ utf8_ok (txt_of v) = true /\
     (length (txt_of v) <= N.to_nat w)%nat) ->
  sq_val m c r = Some v -> txt_of v !! k = Some x ->
  (forall j (t : list ascii), shows c r t -> length (replicate j " "%char ++ t) = N.to_nat w ->
     (replicate j " "%char ++ t) !! k <> Some x) ->
  forall s, sq_to_string_with_precision p num o m d = Ret (Ok s) -> ~ shows_matrix n shows s.
Proof.
  intros Hinv Hn Hext Hw0 Hw Hcells Hv Hx Hno s Hs Hshow.
  pose proof (sq_string_unfold p num o m d hi lo Hn Hext Hw0 Hw) as H. fold n w in H.
  destruct (text_fits p n w) eqn:Hfit.
  2:{ destruct H as [msg H]. rewrite Hs in H. done. }
  clear H.
  destruct (exact_text Hinv Hn Hext Hw0 Hw) as [H1 H2]; [|done|].
  { intros c' r' v' Hv'. by destruct (Hcells c' r' v' Hv') as (? & ? & _). }
  destruct H2 as (s' & Hs' & Hl & Hq).
  { intros Ho. rewrite Hs in H1. by specialize (H1 Ho). }
  rewrite Hs in Hs'. injection Hs' as <-.
  destruct (si_bound m Hinv c r ltac:(by eexists)) as [Hc Hr]. fold n in Hc, Hr.
  pose proof (lookup_lt_Some _ _ _ Hx) as Hk.
  destruct (Hcells c r v Hv) as (_ & _ & Hlw).
  destruct (Hq (cell_pos n w c r + k)%nat (fun y => y = x)) as (y & Hy & ->).
  - intros c' r' v' y Hv' Hp Hy.
    destruct (si_bound m Hinv c' r' ltac:(by eexists)) as [Hc' Hr']. fold n in Hc', Hr'.
    pose proof (lookup_lt_Some _ _ _ Hy) as Hk'.
    destruct (Hcells c' r' v' Hv') as (_ & _ & Hlw').
    destruct (cell_pos_sep n w c r c' r' (N.of_nat k) Hc Hr Hc' Hr' ltac:(lia)
      (N.of_nat (cell_pos n w c r + k - cell_pos n w c' r')) ltac:(lia) ltac:(lia)) as (-> & -> & E).
    rewrite Hv in Hv'. injection Hv' as ->.
    replace (cell_pos n w c' r' + k - cell_pos n w c' r')%nat with k in Hy by lia.
    rewrite Hx in Hy. by injection Hy.
  - exists c, r, v. split; [done|lia].
  - destruct (shows_matrix_width n shows s w Hn Hshow Hl) as (cell & -> & Hcell).
    destruct (matrix_text_chars n cell w c r Hc Hr) as [Hch _].
    { intros. by apply Hcell. }
    destruct (Hcell c r Hc Hr) as (Hcl & j & t & Hj & Ht).
    rewrite Hch in Hy by lia. rewrite Hj in Hcl, Hy. by eapply Hno.
Qed.
End Exact.

(** ** Integers *)

Lemma Z_text_no_point z : "."%char ∉ Z_text z.
Proof.
  assert ("."%char ∉ N_text (Z.abs_N z)) as Hn.
  { intros H. destruct (N_text_spec (Z.abs_N z)) as [[Hd _] _].
    pose proof (proj1 (forallb_forall is_digit _) Hd) as Hd'.
    by apply elem_of_list_In, Hd' in H. }
  unfold Z_text. destruct (z <? 0)%Z; [|done]. intros H. by apply elem_of_cons in H as [?|?].
Qed.

(** Where the point of a right cell is. *)
Lemma integer_text_point d z j t w k : d <> 0 -> integer_text d z t ->
  length (replicate j " "%char ++ t) = N.to_nat (w + 1 + d) ->
  (replicate j " "%char ++ t) !! k = Some "."%char <-> k = N.to_nat w.
Proof.
  intros Hd (t' & Ht' & ->). rewrite (signed_decimal_unique _ _ _ Ht' (Z_text_spec z)).
  destruct (N.eqb_spec d 0) as [|_]; [done|]. rewrite app_assoc.
  set (a := replicate j " "%char ++ Z_text z). rewrite app_length. simpl. rewrite replicate_length.
  intros HL. assert (length a = N.to_nat w) as Ha by lia. split.
  - intros Hk. destruct (decide (k < length a)%nat) as [Hlt|Hge].
    + rewrite lookup_app_l in Hk by lia. apply elem_of_list_lookup_2 in Hk.
      apply elem_of_app in Hk as [Hk|Hk]; [by apply elem_of_replicate in Hk as [? _]|].
      by apply Z_text_no_point in Hk.
    + rewrite lookup_app_r in Hk by lia. destruct (k - length a)%nat as [|i] eqn:E; [lia|].
      simpl in Hk. apply lookup_replicate in Hk as [? _]. done.
  - intros ->. rewrite lookup_app_r by lia.
    by replace (N.to_nat w - length a)%nat with 0%nat by lia.
Qed.

Section IntExact.
Context {T : Type} (num : numeric T) (key : T -> Z).
Hypothesis HT : int_type num key.

Lemma int_not_shown p o m d hi lo s : 65535 <= usize_max p -> d + 44 <= usize_max p -> d <> 0 ->
  sq_inv m -> num_has_decimal num = false -> (forall c r v, sq_val m c r = Some v -> in_type num key v) ->
  sq_extremes num o m = (hi, lo) -> (exists c r v, sq_val m c r = Some v) -> (key lo < 0)%Z ->
  length (Z_text (key lo)) <> S (length (Z_text (key hi))) ->
  sq_to_string_with_precision p num o m d = Ret (Ok s) ->
  ~ shows_matrix (sq_dim m) (shows_int num key m d) s.
Proof.
  intros Hp Hdp Hd0 Hinv Hdec Hty Hext Hex Hneg Hlen Hs.
  destruct (int_extremes num key HT o m hi lo Hty Hext) as (Hb & Hw & Hst).
  destruct (Hst Hex) as [(c1 & r1 & Hhi) _].
  assert (sq_dim m <> 0) as Hn.
  { destruct (si_bound m Hinv c1 r1 ltac:(by eexists)). lia. }
  assert (sq_width num hi lo d = sq_width0 num hi lo + 1 + d) as Hww.
  { unfold sq_width. destruct (N.ltb_spec 0 d); [by rewrite orb_true_r|lia]. }
  set (wh := num_digits num hi + 1).
  set (txt_of := fun v => pad_left wh (Z_text (key v)) ++ ["."%char] ++ replicate (N.to_nat d) "0"%char).
  assert (forall v, length (txt_of v) = Nat.max (N.to_nat wh) (length (Z_text (key v))) + 1 + N.to_nat d)%nat as HL.
  { intros v. unfold txt_of. rewrite !app_length, pad_left_length, replicate_length. simpl. lia. }
  assert (forall c r v, sq_val m c r = Some v ->
    sq_cell_text num hi lo (sq_width num hi lo d) d v = Ret (txt_of v) /\ utf8_ok (txt_of v) = true) as Hcells.
  { intros c r v Hv. split.
    - unfold sq_cell_text, fmt_count. rewrite Hdec. cbn [negb andb].
      destruct (N.ltb_spec 0 d); [|lia].
      rewrite (it_lt _ _ HT), (it_zero _ _ HT). destruct (Z.ltb_spec (key lo) 0); [|lia].
      destruct (N.leb_spec (num_digits num hi + 1) 65535) as [|Hbig].
      2:{ unfold sq_width0 in Hw. lia. }
      cbn [obind]. rewrite (it_text _ _ HT). done.
    - unfold txt_of. rewrite !utf8_app, replicate_ascii by done.
      rewrite pad_left_ascii by apply Z_text_ascii. done. }
  assert (sq_width0 num hi lo = N.max (N.of_nat (length (Z_text (key hi)))) (N.of_nat (length (Z_text (key lo))))) as Hw0.
  { unfold sq_width0. rewrite !(it_digits _ _ HT). lia. }
  assert (wh = N.of_nat (length (Z_text (key hi))) + 1) as Hwh by (unfold wh; by rewrite (it_digits _ _ HT)).
  destruct (decide (length (Z_text (key lo)) <= length (Z_text (key hi)))%nat) as [Hle|Hgt].
  - apply (overlong_not_shown p num o m d hi lo txt_of c1 r1 hi); try done; try lia.
    + intros c r v k x Hv Hk Hx. pose proof (lookup_lt_Some _ _ _ Hx) as Hk'. rewrite HL in Hk'.
      pose proof (Z_text_between _ _ _ (Hb c r v Hv)) as Hz.
      unfold txt_of in Hx. rewrite app_assoc in Hx. rewrite lookup_app_r in Hx.
      2:{ rewrite app_length, pad_left_length. simpl. lia. }
      apply lookup_replicate in Hx as [-> _]. done.
    + rewrite HL. lia.
  - apply (wrong_char_not_shown p num o m d hi lo txt_of c1 r1 hi (N.to_nat wh) "."%char); try done; try lia.
    + intros c r v Hv. destruct (Hcells c r v Hv). split_and!; [done..|].
      pose proof (Z_text_between _ _ _ (Hb c r v Hv)) as Hz. rewrite HL. lia.
    + unfold txt_of. rewrite lookup_app_r; rewrite pad_left_length; [|lia].
      by replace (N.to_nat wh - Nat.max (N.to_nat wh) (length (Z_text (key hi))))%nat with 0%nat by lia.
    + intros j t Ht HLt Hk. rewrite Hww in HLt.
      apply (integer_text_point d _ j t (sq_width0 num hi lo) _ Hd0 Ht HLt) in Hk. lia.
Qed.
End IntExact.

(** i128, which claims to have decimals. *)
Lemma i128_exact p o m d s : 65535 <= usize_max p -> d + 44 <= 65535 -> sq_inv m ->
  (forall c r v, sq_val m c r = Some v -> in_type i128_numeric (fun z => z) v) ->
  sq_to_string_with_precision p i128_numeric o m d = Ret (Ok s) ->
  shows_matrix (sq_dim m) (shows_int i128_numeric (fun z => z) m d) s <->
  (if d =? 0 then forall c r, c < sq_dim m -> r < sq_dim m -> is_Some (sq_val m c r)
   else forall c r, sq_val m c r = None).
Proof.
  intros Hp Hdp Hinv Hty Hs.
  destruct (N.eq_dec (sq_dim m) 0) as [H0|Hn].
  { split; intros _.
    - destruct (N.eqb_spec d 0); intros c r; [lia|].
      destruct (sq_val m c r) eqn:E; [|done].
      destruct (si_bound m Hinv c r ltac:(by eexists)). lia.
    - unfold sq_to_string_with_precision in Hs. rewrite H0 in Hs. simpl in Hs. injection Hs as <-.
      rewrite H0. exists 0%nat, (fun _ _ => []). split; [done|]. intros; lia. }
  destruct (sq_extremes i128_numeric o m) as [hi lo] eqn:Hext.
  destruct (int_extremes _ _ i128_int o m hi lo Hty Hext) as (Hb & Hw & _).
  assert (sq_width i128_numeric hi lo d = sq_width0 i128_numeric hi lo + 1 + d) as Hww by done.
  set (w := sq_width0 i128_numeric hi lo + 1 + d) in *.
  assert (forall c r v, sq_val m c r = Some v -> length (pad_left w (Z_text v)) = N.to_nat w) as HL.
  { intros c r v Hv. rewrite pad_left_length. pose proof (Z_text_between _ _ _ (Hb c r v Hv)) as Hz.
    unfold w, sq_width0 in *. rewrite !(it_digits _ _ i128_int). lia. }
  pose proof (sq_string_layout p i128_numeric o m d hi lo (fun v => pad_left w (Z_text v))
    Hinv Hn Hext ltac:(lia) ltac:(lia) (template_ascii i128_numeric hi lo d ltac:(lia))) as Hlay.
  rewrite Hww in Hlay.
  assert (forall c r v, sq_val m c r = Some v ->
    sq_cell_text i128_numeric hi lo w d v = Ret (pad_left w (Z_text v)) /\
    length (pad_left w (Z_text v)) = N.to_nat w /\ utf8_ok (pad_left w (Z_text v)) = true) as Hcells.
  { intros c r v Hv. split_and!; [|by eapply HL|apply pad_left_ascii, Z_text_ascii].
    unfold sq_cell_text, fmt_count. change (num_has_decimal i128_numeric) with true. cbn [negb andb].
    destruct (N.leb_spec w 65535); [|lia]. cbn [obind]. destruct (N.leb_spec d 65535); [|lia]. done. }
  destruct (text_fits p (sq_dim m) w).
  2:{ destruct (Hlay Hcells) as [msg Hlay']. rewrite Hs in Hlay'. done. }
  specialize (Hlay Hcells). rewrite Hs in Hlay. injection Hlay as ->.
  set (f := fun c r => match sq_val m c r with Some v => pad_left w (Z_text v) | None => template i128_numeric hi lo d end).
  assert (forall c r, c < sq_dim m -> r < sq_dim m -> length (f c r) = N.to_nat w) as Hf.
  { intros c r _ _. unfold f. destruct (sq_val m c r) eqn:E; [by eapply HL|apply template_cell_length]. }
  split.
  - intros Hshow. destruct (N.eqb_spec d 0) as [->|Hd0].
    + intros c r Hc Hr. destruct (sq_val m c r) as [v|] eqn:Hv; [by eexists|]. exfalso.
      destruct (layout_cell _ f w _ c r Hn Hf Hshow Hc Hr) as (k & t & Hk & t' & Ht' & ->).
      unfold f in Hk. rewrite Hv, template_eq in Hk by lia.
      rewrite sq_get_val, Hv in Ht'. cbn [default] in Ht'.
      rewrite (signed_decimal_unique _ _ _ Ht' (Z_text_spec 0)) in Hk.
      apply (f_equal (@rev ascii)) in Hk. rewrite !rev_app_distr in Hk. simpl in Hk. discriminate Hk.
    + intros c r. destruct (sq_val m c r) as [v|] eqn:Hv; [|done]. exfalso.
      destruct (si_bound m Hinv c r ltac:(by eexists)) as [Hc Hr].
      destruct (layout_cell _ f w _ c r Hn Hf Hshow Hc Hr) as (k & t & Hk & Ht).
      specialize (Hf c r Hc Hr). rewrite Hk in Hf.
      pose proof (proj2 (integer_text_point d _ k t (sq_width0 i128_numeric hi lo) _ Hd0 Ht Hf) eq_refl) as Hpt.
      rewrite <- Hk in Hpt. unfold f in Hpt. rewrite Hv in Hpt. apply elem_of_list_lookup_2 in Hpt.
      unfold pad_left in Hpt. apply elem_of_app in Hpt as [Hpt|Hpt].
      * by apply elem_of_replicate in Hpt as [? _].
      * by apply Z_text_no_point in Hpt.
  - intros Hall. exists (N.to_nat w), f. split; [done|]. intros c r Hc Hr. split; [by apply Hf|].
    unfold f. destruct (N.eqb_spec d 0) as [->|Hd0].
    + destruct (Hall c r Hc Hr) as [v Hv]. rewrite Hv. eexists _, _. split; [reflexivity|].
      pose proof (shows_int_stored i128_numeric (fun z => z) m 0 c r v Hv) as Hsh.
      by rewrite app_nil_r in Hsh.
    + rewrite Hall. eexists _, _. split; [apply template_eq; lia|].
      unfold shows_int. rewrite sq_get_val, Hall. cbn [default]. exists (txt "0"). split.
      * apply (Z_text_spec 0).
      * change (num_has_decimal i128_numeric) with true. cbn [orb]. by destruct (N.eqb_spec d 0).
Qed.

(** ** Floats *)

Lemma digit_not_sep x : is_digit x = true -> x <> ","%char /\ x <> " "%char.
Proof. intros H. by split; intros ->. Qed.

Lemma digits_no_sep t : forallb is_digit t = true -> Forall (fun x => x <> ","%char /\ x <> " "%char) t.
Proof.
  intros H. apply Forall_forall. intros x Hx. rewrite forallb_forall in H.
  apply digit_not_sep, H. by apply elem_of_list_In.
Qed.

Lemma fixed_text_no_sep q d : Forall (fun x => x <> ","%char /\ x <> " "%char) (fixed_text q d).
Proof.
  destruct (fixed_text_spec q d) as (ip & fp & (Hi & _) & Hf & _ & _ & ->).
  apply Forall_app. split; [by apply digits_no_sep|]. destruct (d =? 0); [done|].
  constructor; [done|by apply digits_no_sep].
Qed.

Lemma float_text_no_sep d x : Forall (fun x => x <> ","%char /\ x <> " "%char) (float_text d x).
Proof.
  destruct x as [[]|[]| |[] mm e]; unfold float_text.
  all: try (apply Forall_app; split; [by repeat constructor|apply fixed_text_no_sep]).
  all: by repeat constructor.
Qed.

(** The integer part the code computes. *)
Lemma integer_part_spec x z : integer_part x z <-> z = float_as_i128 x.
Proof.
  assert (forall a b q, (0 < b)%Z -> (q * b <= a < (q + 1) * b)%Z <-> q = (a / b)%Z) as Hdiv.
  { intros a b q Hb. split.
    - intros H. apply (Z.div_unique a b q (a - q * b)); lia.
    - intros ->. pose proof (Z.mul_div_le a b Hb). pose proof (Z.mul_succ_div_gt a b Hb). lia. }
  destruct x as [s|s| |s m e]; [done|by destruct s|done|].
  assert (0 < 2 ^ Z.max 0 (- e))%Z as Hp by (apply Z.pow_pos_nonneg; lia).
  assert (float_trunc (S754_finite s m e) =
    let q := (Zpos m * 2 ^ Z.max 0 e / 2 ^ Z.max 0 (- e))%Z in if s then (- q)%Z else q) as E.
  { unfold float_trunc. destruct e as [|e|e].
    - change (Z.max 0 0) with 0%Z. change (Z.max 0 (- 0)) with 0%Z.
      rewrite Z.pow_0_r, Z.mul_1_r, Z.div_1_r. done.
    - change (Z.max 0 (Zpos e)) with (Zpos e). change (Z.max 0 (- Zpos e)) with 0%Z.
      rewrite Z.pow_0_r, Z.div_1_r. done.
    - change (Z.max 0 (Zneg e)) with 0%Z. change (Z.max 0 (- Zneg e)) with (Zpos e).
      rewrite Z.pow_0_r, Z.mul_1_r. done. }
  unfold float_as_i128. rewrite E. cbv zeta. simpl integer_part.
  split.
  - intros (q & Hq & ->). apply Hdiv in Hq as ->; [|done]. done.
  - intros ->. eexists. split; [by apply Hdiv|]. done.
Qed.

Section FloatExact.
Context (num : numeric spec_float) (prec emax : Z).
Hypothesis HT : float_type num prec emax.
Hypothesis Hmin : float_as_i128 (num_min num) = i128_min.
Hypothesis Hmax : float_as_i128 (num_max num) = i128_max.

Lemma float_widest o o' m hi lo : sq_inv m ->
  (forall c r v, sq_val m c r = Some v -> valid_binary prec emax v = true) ->
  sq_extremes num o m = (hi, lo) -> widest_integer_part (sq_items o' m) (sq_width0 num hi lo).
Proof.
  intros Hinv Hval Hext.
  destruct (float_extremes num prec emax HT o m hi lo Hval Hext) as [Hw40 Hb].
  split.
  { intros v c r z t Hv Nv Hz Ht. apply integer_part_spec in Hz as ->.
    rewrite (signed_decimal_unique _ _ _ Ht (Z_text_spec _)).
    eapply Hb; [by apply (elem_of_sq_items o')|]. by destruct v. }
  destruct HT as [Hp He Hgt Hlt Hdg _ _ Hz (mM & eM & HM & BM) (mm & em & Hm & Bm)].
  destruct (extremes_spec num (fun v => valid_binary prec emax v = true) (good_float prec emax)
    (fkey prec emax)) with (o := o) (m := m) (hi := hi) (lo := lo)
    as (Gh & Gl & H1 & H2 & H3 & H4); try done.
  { intros a b Ha Hb'. apply good_float_spec in Hb' as [Nb Vb]. rewrite Hgt. unfold f64_gt, good_float.
    rewrite Ha, andb_true_r. by apply fkey_gt. }
  { intros a b Ha Hb'. apply good_float_spec in Hb' as [Nb Vb]. rewrite Hlt. unfold f64_lt, good_float.
    rewrite Ha, andb_true_r. by apply fkey_lt. }
  { by rewrite Hz. }
  { rewrite Hm. unfold good_float. simpl. exact Bm. }
  { rewrite HM. unfold good_float. simpl. exact BM. }
  assert (forall x, good_float prec emax x = true -> forall c r, sq_val m c r = Some x ->
    sq_width0 num hi lo = N.of_nat (length (Z_text (float_as_i128 x))) ->
    exists v c r z t, (v, c, r) ∈ sq_items o' m /\ v <> S754_nan /\
      integer_part v z /\ signed_decimal t z /\ N.of_nat (length t) = sq_width0 num hi lo) as Huse.
  { intros x Gx c r Hx Hl. exists x, c, r, (float_as_i128 x), (Z_text (float_as_i128 x)).
    apply good_float_spec in Gx as [Nx _].
    split_and!; [by apply (elem_of_sq_items o')|by intros ->|by apply integer_part_spec|apply Z_text_spec|done]. }
  destruct (decide (Exists (fun '(v, _, _) => not_nan v = true) (sq_items o' m))) as [Hex|Hno].
  - left. apply Exists_exists in Hex as ([[v c] r] & Hin & Nv).
    apply (elem_of_sq_items o') in Hin; [|done].
    assert (good_float prec emax v = true) as Gv.
    { apply good_float_spec. split; [done|by eapply Hval]. }
    destruct (H1 c r v Hin Gv) as [K1 K2].
    destruct H4 as (_ & _ & H4); [eauto|].
    apply good_float_spec in Gh as [Nh Vh]. apply good_float_spec in Gl as [Nl Vl].
    apply good_float_spec in Gv as [Nv' Vv].
    assert (exists x c r, sq_val m c r = Some x /\ good_float prec emax x = true /\
      float_as_i128 x = float_as_i128 hi) as (xh & ch & rh & Xh & Gxh & Eh).
    { destruct H4 as [->|(c' & r' & Hh)].
      - exists v, c, r. split_and!; [done|by apply good_float_spec|].
        pose proof (as_i128_mono prec emax Hp He v _ Vv Vh Nv' Nh K2) as Hle.
        rewrite Hmin in *. pose proof (as_i128_range v). lia.
      - exists hi, c', r'. split_and!; [done|by apply good_float_spec|done]. }
    assert (exists x c r, sq_val m c r = Some x /\ good_float prec emax x = true /\
      float_as_i128 x = float_as_i128 lo) as (xl & cl & rl & Xl & Gxl & El).
    { destruct H3 as [->|(c' & r' & Hh)].
      - exists v, c, r. split_and!; [done|by apply good_float_spec|].
        pose proof (as_i128_mono prec emax Hp He _ v Vl Vv Nl Nv' K1) as Hle.
        rewrite Hmax in *. pose proof (as_i128_range v). lia.
      - exists lo, c', r'. split_and!; [done|by apply good_float_spec|done]. }
    unfold sq_width0 in Huse |- *. rewrite !Hdg in Huse |- *. rewrite <- Eh, <- El in Huse |- *.
    destruct (N.le_ge_cases (N.of_nat (length (Z_text (float_as_i128 xh))))
      (N.of_nat (length (Z_text (float_as_i128 xl))))) as [Hle|Hle].
    + rewrite N.max_r in Huse |- * by done. by apply (Huse xl Gxl cl rl).
    + rewrite N.max_l in Huse |- * by done. by apply (Huse xh Gxh ch rh).
  - right.
    assert (forall v c r, (v, c, r) ∈ sq_items o' m -> v = S754_nan) as Hnan.
    { intros v c r Hin. destruct (not_nan v) eqn:Nv; [|by destruct v]. exfalso. apply Hno.
      apply Exists_exists. by exists (v, c, r). }
    split; [done|].
    assert (lo = num_max num) as ->.
    { destruct H3 as [->|(c & r & Hl)]; [done|]. apply (elem_of_sq_items o') in Hl; [|done].
      apply Hnan in Hl as ->. done. }
    split; [|lia]. unfold sq_width0. rewrite !Hdg, Hmax.
    assert (length (Z_text i128_max) = 39%nat) as -> by by vm_compute. lia.
Qed.

Lemma end_distance n w c r : c < n -> r < n ->
  N.of_nat (cell_pos n w c r) + ((n - 1 - r) * (4 + n * (w + 2)) + (n - 1 - c) * (w + 2) + w + 2)
  = text_size n w.
Proof.
  intros Hc Hr. unfold cell_pos, text_size. rewrite N2Nat.id.
  assert (exists i, n = c + i + 1) as [i Hi] by (exists (n - c - 1); lia).
  assert (exists j, n = r + j + 1) as [j Hj] by (exists (n - r - 1); lia).
  replace (n - 1 - r) with j by lia. replace (n - 1 - c) with i by lia.
  assert (r * (4 + n * (w + 2)) + j * (4 + n * (w + 2)) = (n - 1) * (4 + n * (w + 2))) as E1.
  { rewrite <- N.mul_add_distr_r. f_equal. lia. }
  assert ((w + 2) * c + i * (w + 2) = (n - 1) * (w + 2)) as E2.
  { rewrite (N.mul_comm (w + 2) c), <- N.mul_add_distr_r. f_equal. lia. }
  assert (exists k, n = k + 1) as [k ->] by (exists (n - 1); lia).
  replace (k + 1 - 1) with k in * by lia.
  assert ((w + 2) * ((k + 1) * (k + 1)) + 4 * (k + 1) = k * (4 + (k + 1) * (w + 2)) + k * (w + 2) + (w + 2) + 4) by ring.
  lia.
Qed.

Lemma float_exact p o o' m d : 65535 <= usize_max p -> d + 44 <= usize_max p -> sq_inv m ->
  sq_dim m <> 0 -> (forall c r v, sq_val m c r = Some v -> valid_binary prec emax v = true) ->
  prints_floats p (sq_dim m) d (sq_items o' m) (shows_float num m d)
    (sq_to_string_with_precision p num o m d).
Proof.
  intros Hp Hd Hinv Hn Hval. destruct (sq_extremes num o m) as [hi lo] eqn:Hext.
  exists (sq_width0 num hi lo). split; [by eapply float_widest|].
  destruct (float_extremes num prec emax HT o m hi lo Hval Hext) as [Hw40 Hb].
  assert (sq_width0 num hi lo + 1 + d = sq_width num hi lo d) as Hww.
  { unfold sq_width. by rewrite (ft_dec _ _ _ HT). }
  cbv zeta. rewrite !Hww.
  set (n := sq_dim m) in *. set (w := sq_width num hi lo d) in *.
  set (fits := (w + 2) * (n * n) + 4 * n <= usize_max p /\
    can_alloc p ((w + 2) * (n * n) + 4 * n - 2) = true).
  set (panics := exists v c r t, _).
  pose proof (sq_string_unfold p num o m d hi lo Hn Hext ltac:(lia) ltac:(lia)) as Hun.
  fold n w in Hun.
  assert (fits <-> text_fits p n w = true) as Hfits.
  { unfold fits, text_fits, text_size. rewrite andb_true_iff, N.leb_le. done. }
  split_and!.
  - intros Hf. destruct (text_fits p n w); [by rewrite Hfits in Hf|done].
  - intros Hf (v & c & r & t & Hv & Ht & Hbad).
    apply (elem_of_sq_items o') in Hv; [|done].
    destruct (si_bound m Hinv c r ltac:(by eexists)) as [Hc Hr]. fold n in Hc, Hr.
    rewrite (rounded_text_unique _ _ _ _ Ht (float_text_spec d v)) in Hbad.
    apply Hfits in Hf. destruct (decide (w <= 65535)) as [Hw|Hw].
    + destruct Hbad as [?|Hbad]; [lia|].
      destruct (exact_text p num o m d hi lo (fun v => pad_left w (float_text d v))) as [H1 _];
        [done|done|done|lia|lia| |done|].
      { fold w. intros c' r' v' _. split; [|apply pad_left_ascii, float_text_ascii].
        unfold sq_cell_text, fmt_count. rewrite (ft_dec _ _ _ HT). cbn [negb andb].
        destruct (N.leb_spec w 65535); [|lia]. cbn [obind].
        destruct (N.leb_spec d 65535); [|lia]. cbn [obind]. by rewrite (ft_text _ _ _ HT). }
      apply H1. fold n w. exists c, r, v. split; [done|]. rewrite pad_left_length.
      pose proof (end_distance n w c r Hc Hr). lia.
    + rewrite Hf in Hun. rewrite Hun.
      destruct (sq_cells o m) as [|[[c' r'] v'] l] eqn:E.
      { apply (elem_of_sq_cells o) in Hv. rewrite E in Hv. by apply elem_of_nil in Hv. }
      assert (sq_val m c' r' = Some v') as Hv'.
      { apply (elem_of_sq_cells o). rewrite E. left. }
      destruct (si_bound m Hinv c' r' ltac:(by eexists)) as [Hc' Hr']. fold n in Hc', Hr'.
      apply text_fits_spec in Hf as [Hf _].
      cbn [ofold]. rewrite write_cell_unfold; [|done|done|nia|lia].
      unfold sq_cell_text, fmt_count. rewrite (ft_dec _ _ _ HT). cbn [negb andb].
      by destruct (N.leb_spec w 65535).
  - intros Hf Hnp. apply Hfits in Hf.
    assert (forall c r v, sq_val m c r = Some v -> w <= 65535) as Hw.
    { intros c r v Hv. destruct (decide (w <= 65535)); [done|]. exfalso. apply Hnp.
      exists v, c, r, (float_text d v). split_and!; [by apply (elem_of_sq_items o')|apply float_text_spec|].
      left. lia. }
    assert (forall c r v, sq_val m c r = Some v ->
      sq_cell_text num hi lo w d v = Ret (pad_left w (float_text d v)) /\
      utf8_ok (pad_left w (float_text d v)) = true) as Hcells.
    { intros c r v Hv. specialize (Hw c r v Hv). split; [|apply pad_left_ascii, float_text_ascii].
      unfold sq_cell_text, fmt_count. rewrite (ft_dec _ _ _ HT). cbn [negb andb].
      destruct (N.leb_spec w 65535); [|lia]. cbn [obind].
      destruct (N.leb_spec d 65535); [|lia]. cbn [obind]. by rewrite (ft_text _ _ _ HT). }
    destruct (exact_text p num o m d hi lo (fun v => pad_left w (float_text d v))) as [_ H2];
      [done|done|done|lia|lia|done|done|]. fold n w in H2.
    destruct H2 as (s & Hs & Hl & _).
    { intros (c & r & v & Hv & Ho). apply Hnp.
      destruct (si_bound m Hinv c r ltac:(by eexists)) as [Hc Hr]. fold n in Hc, Hr.
      exists v, c, r, (float_text d v). split_and!; [by apply (elem_of_sq_items o')|apply float_text_spec|].
      right. rewrite pad_left_length in Ho. pose proof (end_distance n w c r Hc Hr).
      revert Ho H. generalize ((n - 1 - r) * (4 + n * (w + 2))) ((n - 1 - c) * (w + 2)). lia. }
    exists s. split; [done|].
    (* what it is when everything fits *)
    assert ((forall c r v, sq_val m c r = Some v -> N.of_nat (length (float_text d v)) <= w) ->
      s = matrix_text n (fun c r => match sq_val m c r with
        Some v => pad_left w (float_text d v) | None => template num hi lo d end)) as Hlay.
    { intros Hall. pose proof (sq_string_layout p num o m d hi lo (fun v => pad_left w (float_text d v))
        Hinv Hn Hext ltac:(lia) ltac:(lia) (template_ascii num hi lo d ltac:(lia))) as H.
      fold n w in H. rewrite Hf, Hs in H.
      assert (Ret (Ok s) = Ret (Ok (matrix_text n (fun c r => match sq_val m c r with
        Some v => pad_left w (float_text d v) | None => template num hi lo d end)))) as E.
      { apply H. intros c r v Hv. destruct (Hcells c r v Hv). split_and!; [done| |done].
        rewrite pad_left_length. specialize (Hall c r v Hv). lia. }
      by injection E. }
    split.
    + intros Hshow.
      assert (forall c r v, sq_val m c r = Some v -> N.of_nat (length (float_text d v)) <= w) as Hall.
      { intros c r v Hv. destruct (decide (N.of_nat (length (float_text d v)) <= w)) as [|Hlong]; [done|].
        exfalso. eapply (overlong_not_shown p num o m d hi lo (fun v => pad_left w (float_text d v)));
          [done|done|done|lia|lia|done| |exact Hv| |exact Hs|exact Hshow].
        - fold w. intros c' r' v' k x Hv' Hk Hx.
          assert (N.to_nat w < length (float_text d v'))%nat as Hlt.
          { apply lookup_lt_Some in Hx. rewrite pad_left_length in Hx. lia. }
          unfold pad_left in Hx. replace (N.to_nat w - length (float_text d v'))%nat with 0%nat in Hx by lia.
          simpl in Hx. pose proof (float_text_no_sep d v') as Hno. rewrite Forall_forall in Hno.
          apply Hno. by eapply elem_of_list_lookup_2.
        - fold w. rewrite pad_left_length. lia. }
      split.
      * intros v c r t Hv Ht. apply (elem_of_sq_items o') in Hv; [|done].
        rewrite (rounded_text_unique _ _ _ _ Ht (float_text_spec d v)). by eapply Hall.
      * intros -> c r Hc Hr. destruct (sq_val m c r) as [v|] eqn:Hv.
        { exists v. by apply (elem_of_sq_items o'). }
        exfalso. rewrite (Hlay Hall) in Hshow.
        match type of Hshow with shows_matrix _ _ (matrix_text _ ?f) =>
          destruct (layout_cell n f w (shows_float num m 0) c r Hn) as (k & t & Hk & Ht); [|exact Hshow|done|done|] end.
        { intros c' r' _ _. cbv beta. destruct (sq_val m c' r') as [v'|] eqn:E; [|apply template_cell_length].
          rewrite pad_left_length. specialize (Hall c' r' v' E). lia. }
        cbv beta in Hk. rewrite Hv in Hk.
        unfold shows_float in Ht. rewrite sq_get_val, Hv in Ht. cbn [default] in Ht.
        rewrite (ft_zero _ _ _ HT) in Ht.
        rewrite (rounded_text_unique _ _ _ _ Ht (float_text_spec 0 f64_zero)) in Hk.
        change (float_text 0 f64_zero) with (txt "0") in Hk.
        rewrite template_eq in Hk by lia. rewrite (ft_dec _ _ _ HT) in Hk. cbn [orb] in Hk.
        apply (f_equal (@rev ascii)) in Hk. rewrite !rev_app_distr in Hk. simpl in Hk. discriminate Hk.
    + intros [Hall Hfull].
      assert (forall c r v, sq_val m c r = Some v -> N.of_nat (length (float_text d v)) <= w) as Hall'.
      { intros c r v Hv. eapply Hall; [by apply (elem_of_sq_items o')|apply float_text_spec]. }
      rewrite (Hlay Hall'). exists (N.to_nat w). eexists. split; [reflexivity|].
      intros c r Hc Hr. cbv beta. destruct (sq_val m c r) as [v|] eqn:Hv.
      * split; [rewrite pad_left_length; specialize (Hall' c r v Hv); lia|].
        eexists _, _. split; [reflexivity|]. unfold shows_float. rewrite sq_get_val, Hv. apply float_text_spec.
      * split; [apply template_cell_length|].
        destruct (decide (d = 0)) as [->|Hd0].
        { destruct (Hfull eq_refl c r Hc Hr) as [v Hin]. apply (elem_of_sq_items o') in Hin; [|done]. congruence. }
        eexists _, _. split; [apply template_eq; lia|]. unfold shows_float. rewrite sq_get_val, Hv.
        cbn [default]. rewrite (ft_dec _ _ _ HT), (ft_zero _ _ _ HT). cbn [orb]. by apply zero_rounded.
Qed.
End FloatExact.
