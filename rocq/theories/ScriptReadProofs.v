(** Lemmas about reading: what the scripts take from any text file. *)
From Coq Require Import ZArith Ascii String.
From Verif Require Import Base Spec TextSpec F64 Numeric Sq Standard Compressed Api CApi CSpec Py
  PySpec Script ScriptSpec ScriptProofs.
Local Arguments N.mul : simpl never.
Local Arguments N.add : simpl never.
Local Arguments N.pow : simpl never.
Local Arguments Z.mul : simpl never.
Local Arguments Z.add : simpl never.

Lemma is_char_spec n c : n < 256 -> is_char n c = true <-> c = ascii_of_N n.
Proof.
  intros Hn. unfold is_char. rewrite N.eqb_eq. split.
  - intros <-. by rewrite ascii_N_embedding.
  - intros ->. by apply N_ascii_embedding.
Qed.
Lemma is_char_not n c : n < 256 -> is_char n c = false <-> c <> ascii_of_N n.
Proof. intros Hn. rewrite <-is_char_spec by done. by destruct is_char. Qed.

(** ** Lines *)

Lemma lines_exact file ls : lines_of file ls -> file_lines file = ls.
Proof.
  induction 1 as [|t Hne Ht|t rest ls Ht Hr IH|t rest ls Ht Hr IH|t rest ls Ht Hh Hr IH].
  - done.
  - rewrite file_lines_last by done. by destruct t.
  - change (ascii_of_N 10 :: rest) with ([ascii_of_N 10] ++ rest).
    rewrite file_lines_line; [by rewrite IH|done|by left].
  - change (ascii_of_N 13 :: ascii_of_N 10 :: rest) with ([ascii_of_N 13; ascii_of_N 10] ++ rest).
    rewrite file_lines_line; [by rewrite IH|done|by right].
  - rewrite <-IH. clear IH Hr. induction Ht as [|c t [Hc1 Hc2] Ht IH].
    + simpl. destruct rest as [|c rest]; [done|].
      assert (is_char 10 c = false) as -> by (apply is_char_not; [done|]; by intros ->).
      done.
    + cbn [app file_lines]. rewrite !is_char_ne by done. by rewrite IH.
Qed.

Lemma lines_total_aux n file : (length file <= n)%nat -> lines_of file (file_lines file).
Proof.
  revert file. induction n as [|n IH]; intros file Hn.
  { destruct file; [constructor|simpl in Hn; lia]. }
  destruct file as [|c s]; [constructor|]. cbn [length] in Hn. cbn [file_lines].
  destruct (is_char 10 c) eqn:E10.
  { apply is_char_spec in E10 as ->; [|done].
    apply (lines_lf [] s); [constructor|]. apply IH. lia. }
  destruct (is_char 13 c) eqn:E13.
  { apply is_char_spec in E13 as ->; [|done]. destruct s as [|c' s].
    - apply (lines_cr [] []); [constructor|done|constructor].
    - cbn [length] in Hn. destruct (is_char 10 c') eqn:E.
      + apply is_char_spec in E as ->; [|done]. apply (lines_crlf [] s); [constructor|]. apply IH. lia.
      + apply is_char_not in E; [|done]. apply (lines_cr [] (c' :: s)); [constructor|by intros [= ->]|].
        apply IH. cbn [length]. lia. }
  apply is_char_not in E10; [|done]. apply is_char_not in E13; [|done].
  specialize (IH s ltac:(lia)). remember (file_lines s) as ls eqn:El. clear El.
  assert (forall t, no_line_end t -> no_line_end (c :: t)) as Hc by (intros t Ht; by constructor).
  destruct IH as [|t Hne Ht|t rest ls Ht Hr|t rest ls Ht Hr|t rest ls Ht Hh Hr].
  - apply lines_last; [done|]. apply Hc. constructor.
  - apply lines_last; [done|]. by apply Hc.
  - apply (lines_lf (c :: t)); [by apply Hc|done].
  - apply (lines_crlf (c :: t)); [by apply Hc|done].
  - apply (lines_cr (c :: t)); [by apply Hc|done..].
Qed.
Lemma lines_iff file ls : lines_of file ls <-> file_lines file = ls.
Proof. split; [apply lines_exact|]. intros <-. by apply (lines_total_aux (length file)). Qed.

(** ** Words *)

Lemma white_spec c : is_space c = true <-> white c.
Proof.
  unfold white, is_space. rewrite !elem_of_cons, elem_of_nil. rewrite orb_true_iff, !andb_true_iff, !N.leb_le. lia.
Qed.
Lemma white_not c : is_space c = false <-> ~ white c.
Proof. rewrite <-white_spec. by destruct is_space. Qed.

Lemma split_white b s : Forall white b -> str_split (b ++ s) = str_split s.
Proof. induction 1 as [|c b Hc Hb IH]; [done|]. simpl. apply white_spec in Hc. by rewrite Hc. Qed.

Lemma words_exact t ws : words_of t ws -> str_split t = ws.
Proof.
  induction 1 as [t Ht|b w t ws Hb Hne Hw Ht Hr IH].
  - rewrite <-(app_nil_r t). by rewrite split_white.
  - rewrite split_white by done. rewrite split_word; [by rewrite IH| |].
    + split; [done|]. eapply Forall_impl; [exact Hw|]. intros c. by rewrite white_not.
    + intros c s' ->. apply white_spec. by apply Ht.
Qed.

Lemma words_total t : words_of t (str_split t).
Proof.
  induction t as [|c t IH]; [apply words_none; constructor|]. cbn [str_split].
  destruct (is_space c) eqn:E.
  { apply white_spec in E. destruct IH as [t Ht|b w t ws Hb Hne Hw Ht Hr].
    - apply words_none. by constructor.
    - apply (words_word (c :: b) w t ws); try done. by constructor. }
  apply white_not in E. destruct t as [|c' t].
  { apply (words_word [] [c] []); try done; by repeat constructor. }
  destruct (is_space c') eqn:E'.
  { apply (words_word [] [c] (c' :: t)); try done; [by repeat constructor|].
    intros ? [= <-]. by apply white_spec. }
  apply white_not in E'.
  inversion IH as [t' Ht Et|b w t' ws Hb Hne Hw Ht Hr Et Ews]; subst.
  { apply Forall_cons in Ht as [Ht _]. done. }
  destruct Hb as [|d b Hd Hb].
  - simpl in *. destruct w as [|c0 w]; [done|]. injection Et as -> <-.
    apply (words_word [] (c :: c' :: w) t' ws); try done. by constructor.
  - by injection Et as -> _.
Qed.
Lemma words_iff t ws : words_of t ws <-> str_split t = ws.
Proof. split; [apply words_exact|]. intros <-. apply words_total. Qed.

(** ** Numbers *)

Lemma digit_of_spec c : digit_of c = if is_digit c then Some (Z.of_N (N_of_ascii c - 48)) else None.
Proof. done. Qed.

Lemma int_digits_app ds s acc : forallb is_digit ds = true ->
  int_digits (Z.of_N acc) (ds ++ s) =
  int_digits (Z.of_N (fold_left (fun n a => 10 * n + (N_of_ascii a - 48)) ds acc)) s.
Proof.
  revert acc. induction ds as [|c ds IH]; intros acc H; [done|]. simpl in H.
  apply andb_true_iff in H as [Hc Hs]. destruct (digit_char c Hc) as (Hd & _ & Hu & _).
  cbn [app int_digits fold_left]. rewrite Hu, Hd.
  rewrite <-IH by done. f_equal. lia.
Qed.

Lemma underscored_cons c (g : text) groups :
  underscored (@cons text (c :: g) groups) = c :: underscored (@cons text g groups).
Proof. by destruct groups. Qed.

(** The text after the first digit. *)
Lemma int_digits_groups g groups acc : forallb is_digit g = true ->
  Forall (fun g => g <> [] /\ forallb is_digit g = true) groups ->
  int_digits (Z.of_N acc) (underscored (g :: groups)) =
  Some (Z.of_N (fold_left (fun n a => 10 * n + (N_of_ascii a - 48)) (concat (g :: groups)) acc)).
Proof.
  revert g acc. induction groups as [|g' groups IH]; intros g acc Hg Hgs.
  - cbn [underscored concat]. rewrite app_nil_r. by apply int_digits_spec.
  - apply Forall_cons in Hgs as [[Hne Hg'] Hgs].
    change (underscored (g :: g' :: groups)) with (g ++ "_"%char :: underscored (g' :: groups)).
    rewrite int_digits_app by done. cbn [concat]. rewrite fold_left_app.
    destruct g' as [|d g']; [done|]. simpl in Hg'. apply andb_true_iff in Hg' as [Hd Hg'].
    assert (underscored ((d :: g') :: groups) = d :: underscored (g' :: groups)) as -> by (by destruct groups).
    cbn [int_digits]. change (is_char 95 "_"%char) with true. cbv iota.
    destruct (digit_char d Hd) as (-> & _).
    cbn [app fold_left]. change (g' ++ concat groups) with (concat (g' :: groups)).
    rewrite <-(IH g' (10 * _ + (N_of_ascii d - 48))) by done. f_equal. lia.
Qed.

Lemma int_digits_inv n s acc z : (length s <= n)%nat -> int_digits acc s = Some z ->
  exists g groups, s = underscored (g :: groups) /\ forallb is_digit g = true /\
    Forall (fun g => g <> [] /\ forallb is_digit g = true) groups.
Proof.
  revert s acc. induction n as [|n IH]; intros s acc Hn H.
  { destruct s; [|simpl in Hn; lia]. by exists [], []. }
  destruct s as [|c s]; [by exists [], []|]. cbn [length] in Hn. cbn [int_digits] in H.
  destruct (is_char 95 c) eqn:E.
  - apply is_char_spec in E as ->; [|done]. destruct s as [|d s]; [done|].
    rewrite digit_of_spec in H. destruct (is_digit d) eqn:Ed; [|done]. cbn [length] in Hn.
    apply IH in H as (g & groups & -> & Hg & Hgs); [|lia].
    exists [], ((d :: g) :: groups). split_and!; [by destruct groups|done|].
    constructor; [|done]. split; [done|]. simpl. by rewrite Ed.
  - rewrite digit_of_spec in H. destruct (is_digit c) eqn:Ec; [|done].
    apply IH in H as (g & groups & -> & Hg & Hgs); [|lia].
    exists (c :: g), groups. split_and!; [by destruct groups| |done]. simpl. by rewrite Ec.
Qed.

Lemma filter_groups groups : Forall (fun g => forallb is_digit g = true) groups ->
  List.filter (fun c => negb (is_char 95 c)) (underscored groups) = concat groups.
Proof.
  induction 1 as [|g groups Hg Hgs IH]; [done|]. destruct groups as [|g' groups].
  - cbn [underscored concat]. rewrite app_nil_r. by apply no_underscores.
  - change (underscored (g :: g' :: groups)) with (g ++ "_"%char :: underscored (g' :: groups)).
    rewrite List.filter_app, no_underscores by done. cbn [List.filter concat].
    change (is_char 95 "_"%char) with true. cbn [negb]. by rewrite IH.
Qed.

Definition digit_groups (limit : option N) (groups : list text) : Prop :=
  groups <> [] /\ Forall (fun g => g <> [] /\ forallb is_digit g = true) groups /\
  (forall n, limit = Some n -> N.of_nat (length (concat groups)) <= n).

Lemma int_unsigned_groups limit groups : digit_groups limit groups ->
  int_unsigned limit (underscored groups) = Some (Z.of_N (digits_value (concat groups))) /\
  exists c s, underscored groups = c :: s /\ is_digit c = true.
Proof.
  intros (Hne & Hg & Hl). destruct groups as [|g groups]; [done|].
  pose proof Hg as Hg'. apply Forall_cons in Hg' as [[Hgne Hgd] Hgs].
  assert (Forall (fun g => forallb is_digit g = true) (g :: groups)) as Hd
    by (eapply Forall_impl; [exact Hg|]; by intros ? []).
  pose proof (filter_groups _ Hd) as Hf.
  destruct g as [|c g]; [done|]. simpl in Hgd. apply andb_true_iff in Hgd as [Hc Hgd].
  pose proof (underscored_cons c g groups) as E.
  rewrite E in Hf |- *. unfold int_unsigned. rewrite Hf. destruct (digit_char c Hc) as (-> & _).
  split; [|by exists c, (underscored (g :: groups))].
  rewrite int_digits_groups by done.
  assert (forall n, limit = Some n -> (n <? N.of_nat (length (concat (@cons text (c :: g) groups)))) = false) as Hl'.
  { intros n Hn. apply N.ltb_ge. by apply Hl. }
  assert (digits_value (concat (@cons text (c :: g) groups)) =
    fold_left (fun n a => 10 * n + (N_of_ascii a - 48)) (concat (g :: groups)) (N_of_ascii c - 48)) as ->.
  { unfold digits_value. cbn [concat app fold_left]. by f_equal. }
  destruct limit as [n|]; [|done]. by rewrite (Hl' n eq_refl).
Qed.

Lemma int_unsigned_inv limit s z : int_unsigned limit s = Some z ->
  exists groups, s = underscored groups /\ digit_groups limit groups.
Proof.
  destruct s as [|c s]; [done|]. unfold int_unsigned. rewrite digit_of_spec.
  destruct (is_digit c) eqn:Ec; [|done]. intros H.
  assert ((forall n, limit = Some n ->
      N.of_nat (length (List.filter (fun c => negb (is_char 95 c)) (c :: s))) <= n) /\
    int_digits (Z.of_N (N_of_ascii c - 48)) s = Some z) as [Hl Hi].
  { destruct limit as [n|]; [|done]. revert H. case_match eqn:E; [done|]. intros H. apply N.ltb_ge in E.
    split; [|done]. by intros ? [= <-]. }
  destruct (int_digits_inv (length s) s _ z ltac:(done) Hi) as (g & groups & -> & Hg & Hgs).
  rewrite <-underscored_cons in Hl |- *. exists ((c :: g) :: groups). split; [done|].
  assert (Forall (fun g => g <> [] /\ forallb is_digit g = true) ((c :: g) :: groups)) as Hall.
  { constructor; [|done]. split; [done|]. simpl. by rewrite Ec. }
  split_and!; [done..|]. rewrite filter_groups in Hl; [done|].
  eapply Forall_impl; [exact Hall|]. by intros ? [].
Qed.

Lemma int_iff limit t z : str_int limit t = Some z <-> integer_text limit t z.
Proof.
  split.
  - destruct t as [|c t]; [done|]. unfold str_int. destruct (is_char 45 c) eqn:E45.
    { apply is_char_spec in E45 as ->; [|done]. intros (y & Hy & ->)%fmap_Some.
      pose proof Hy as Hy'. apply int_unsigned_inv in Hy' as (groups & -> & Hg).
      destruct (int_unsigned_groups _ _ Hg) as [E _]. rewrite E in Hy. injection Hy as <-.
      destruct Hg as (? & ? & ?). exists ["-"%char], groups. split_and!; try done. by right. }
    destruct (is_char 43 c) eqn:E43.
    { apply is_char_spec in E43 as ->; [|done]. intros Hy.
      pose proof Hy as Hy'. apply int_unsigned_inv in Hy' as (groups & -> & Hg).
      destruct (int_unsigned_groups _ _ Hg) as [E _]. rewrite E in Hy. injection Hy as <-.
      destruct Hg as (? & ? & ?). exists ["+"%char], groups. split_and!; try done. left. split; [by right|done]. }
    intros Hy. pose proof Hy as Hy'. apply int_unsigned_inv in Hy' as (groups & Et & Hg).
    destruct (int_unsigned_groups _ _ Hg) as [E _]. rewrite Et, E in Hy. injection Hy as <-.
    destruct Hg as (? & ? & ?). exists [], groups. split_and!; try done. left. split; [by left|done].
  - intros (sign & groups & -> & Hne & Hg & Hl & Hz).
    destruct (int_unsigned_groups limit groups (conj Hne (conj Hg Hl))) as (E & c & s & Es & Hc).
    destruct Hz as [[[-> | ->] ->]|[-> ->]].
    + cbn [app]. unfold str_int. rewrite Es in *. destruct (digit_char c Hc) as (_ & _ & _ & -> & -> & _). done.
    + exact E.
    + unfold str_int. cbn [app]. change (is_char 45 "-"%char) with true. cbv iota. by rewrite E.
Qed.
Lemma int_none limit t : str_int limit t = None <-> forall z, ~ integer_text limit t z.
Proof.
  split.
  - intros E z Hz. apply int_iff in Hz. by rewrite E in Hz.
  - intros H. destruct (str_int limit t) as [z|] eqn:E; [|done]. apply int_iff in E. by apply H in E.
Qed.

(** ** Lines and files *)

(** The values of the variables after a line. *)
Definition take_item (v : ids) (i : item) : ids :=
  match i with
  | IPair a b => Ids (id_pairs v ++ [(a, b)]) (Some a) (Some b)
  | IHalf a => Ids (id_pairs v) (Some a) (id1 v)
  | INothing => v
  end.

(** The first word of a comment is no number. *)
Lemma comment_word s w0 w1 limit : str_split ("#"%char :: s) = [w0; w1] -> str_int limit w0 = None.
Proof.
  intros E. pose proof (words_total ("#"%char :: s)) as H. rewrite E in H.
  inversion H as [|b w t ws Hb Hne Hw Ht Hr Et Ews]; subst. destruct Hb as [|c b Hc Hb].
  - destruct w0 as [|c w0]; [done|]. simpl in Et. injection Et as -> _. done.
  - injection Et as -> _. by apply white_spec in Hc.
Qed.

Definition read_item (limit : option N) (t : text) : item :=
  match str_split t with
  | [w0; w1] =>
      match str_int limit w0 with
      | None => INothing
      | Some a => match str_int limit w1 with None => IHalf a | Some b => IPair a b end
      end
  | _ => INothing
  end.

Lemma read_line_item limit v t : read_line limit v t = take_item v (read_item limit t).
Proof.
  unfold read_line, read_item. destruct t as [|c t]; [done|]. destruct (is_char 35 c) eqn:E.
  - apply is_char_spec in E as ->; [|done]. change (ascii_of_N 35) with "#"%char.
    destruct (str_split ("#"%char :: t)) as [|w0 [|w1 [|]]] eqn:Es; try done.
    by rewrite (comment_word t w0 w1 limit Es).
  - destruct (str_split (c :: t)) as [|w0 [|w1 [|]]]; try done.
    destruct (str_int limit w0); [|done]. by destruct (str_int limit w1).
Qed.

Lemma says_iff limit t i : line_says limit t i <-> read_item limit t = i.
Proof.
  unfold read_item. split.
  - destruct 1 as [w0 w1 a b Hw H0 H1|w0 w1 a Hw H0 H1|w0 w1 Hw H0|ws Hw Hl]; apply words_iff in Hw; rewrite Hw.
    + apply int_iff in H0, H1. by rewrite H0, H1.
    + apply int_iff in H0. apply int_none in H1. by rewrite H0, H1.
    + apply int_none in H0. by rewrite H0.
    + by destruct ws as [|? [|? [|]]].
  - intros <-. pose proof (words_total t) as Hw. destruct (str_split t) as [|w0 [|w1 [|]]];
      try (by eapply says_other).
    destruct (str_int limit w0) as [a|] eqn:E0; [|by eapply says_word, int_none].
    apply int_iff in E0.
    destruct (str_int limit w1) as [b|] eqn:E1; [|by eapply says_half, int_none].
    apply int_iff in E1. by eapply says_pair.
Qed.

Lemma file_says_iff limit file items :
  file_says limit file items <-> items = read_item limit <$> file_lines file.
Proof.
  unfold file_says. split.
  - intros (ls & Hls & H). apply lines_iff in Hls as ->.
    induction H as [|t i ls items Ht H IH]; [done|]. apply says_iff in Ht as <-. by rewrite IH.
  - intros ->. exists (file_lines file). split; [by apply lines_iff|].
    apply Forall2_fmap_r, Forall_Forall2_diag, Forall_forall. intros t _. by apply says_iff.
Qed.

Lemma take_items items v :
  let v' := fold_left take_item items v in
  id_pairs v' = id_pairs v ++ item_pairs items /\
  id0 v' = match last (item_firsts items) with Some a => Some a | None => id0 v end /\
  id1 v' = match last (item_pairs items) with Some (_, b) => Some b | None => id1 v end.
Proof.
  revert v. induction items as [|i items IH]; intros v.
  - cbn. by rewrite app_nil_r.
  - cbn [fold_left]. destruct (IH (take_item v i)) as (H1 & H2 & H3). rewrite H1, H2, H3.
    destruct i as [a b|a|].
    + change (item_pairs (IPair a b :: items)) with ((a, b) :: item_pairs items).
      change (item_firsts (IPair a b :: items)) with (a :: item_firsts items).
      rewrite !last_cons. cbn [take_item id_pairs id0 id1]. rewrite <-app_assoc. split_and!; [done|..].
      * by destruct (last (item_firsts items)).
      * by destruct (last (item_pairs items)) as [[]|].
    + change (item_pairs (IHalf a :: items)) with (item_pairs items).
      change (item_firsts (IHalf a :: items)) with (a :: item_firsts items).
      rewrite !last_cons. cbn [take_item id_pairs id0 id1]. split_and!; [done| |done].
      by destruct (last (item_firsts items)).
    + done.
Qed.

Lemma read_ids_spec limit file items : file_says limit file items ->
  id_pairs (read_ids limit file) = item_pairs items /\
  id0 (read_ids limit file) = last (item_firsts items) /\
  id1 (read_ids limit file) = snd <$> last (item_pairs items).
Proof.
  intros ->%file_says_iff. unfold read_ids.
  assert (forall ls v, fold_left (read_line limit) ls v =
    fold_left take_item (read_item limit <$> ls) v) as ->.
  { induction ls as [|t ls IH]; intros v; [done|]. cbn. by rewrite read_line_item, IH. }
  destruct (take_items (read_item limit <$> file_lines file) (Ids [] None None)) as (-> & -> & ->).
  split_and!; [done| |].
  - by destruct (last (item_firsts _)).
  - by destruct (last (item_pairs _)) as [[]|].
Qed.
