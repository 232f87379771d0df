(** Lemmas about the scripts. *)
From Coq Require Import ZArith Ascii String.
From stdpp Require Import sorting.
From Verif Require Import Base Spec TextSpec F64 Numeric Sq Standard Compressed Api CApi CSpec Py
  PySpec Script ScriptSpec.
Local Arguments N.mul : simpl never.
Local Arguments N.add : simpl never.
Local Arguments N.pow : simpl never.
Local Arguments Z.mul : simpl never.
Local Arguments Z.add : simpl never.

(** ** Reading *)

Lemma is_char_ne n c : n < 256 -> c <> ascii_of_N n -> is_char n c = false.
Proof.
  intros Hn Hc. unfold is_char. apply N.eqb_neq. intros E. apply Hc. by rewrite <-E, ascii_N_embedding.
Qed.

Lemma file_lines_word t s : no_line_end t -> t <> [] ->
  file_lines (t ++ s) = match file_lines s with [] => [t] | _ => file_lines (t ++ s) end.
Proof.
  intros Ht Hne. destruct (file_lines s) as [|l ls] eqn:E; [|done].
  induction Ht as [|c t [Hc1 Hc2] Ht IH]; [done|]. simpl.
  rewrite !is_char_ne by done. destruct t as [|c' t].
  - simpl. by rewrite E.
  - rewrite IH by done. done.
Qed.

Lemma file_lines_last t : no_line_end t -> file_lines t = match t with [] => [] | _ => [t] end.
Proof.
  intros Ht. destruct t as [|c t]; [done|]. rewrite <-(app_nil_r (c :: t)).
  rewrite file_lines_word by done. simpl. by rewrite app_nil_r.
Qed.

Lemma file_lines_line t nl s : no_line_end t -> line_end nl ->
  file_lines (t ++ nl ++ s) = t :: file_lines s.
Proof.
  intros Ht Hnl. induction Ht as [|c t [Hc1 Hc2] Ht IH].
  - by destruct Hnl as [-> | ->].
  - cbn [app file_lines]. rewrite !is_char_ne by done. by rewrite IH.
Qed.

Definition word (t : text) : Prop := t <> [] /\ Forall (fun c => is_space c = false) t.

Lemma blank_space c : c = " "%char \/ c = ascii_of_N 9 -> is_space c = true.
Proof. by intros [-> | ->]. Qed.

Lemma split_blanks b s : blanks b -> str_split (b ++ s) = str_split s.
Proof.
  induction 1 as [|c b Hc Hb IH]; [done|]. simpl. by rewrite (blank_space c Hc).
Qed.
Lemma split_all_blanks b : blanks b -> str_split b = [].
Proof. intros Hb. rewrite <-(app_nil_r b). by rewrite split_blanks. Qed.

Lemma split_word t s : word t -> (forall c s', s = c :: s' -> is_space c = true) ->
  str_split (t ++ s) = t :: str_split s.
Proof.
  intros [Hne Ht] Hs. induction Ht as [|c t Hc Ht IH]; [done|].
  destruct t as [|c' t].
  - cbn [app str_split]. rewrite Hc. destruct s as [|d s]; [done|].
    by rewrite (Hs d s eq_refl).
  - cbn [app str_split] in *. rewrite Hc. pose proof Ht as Ht'. apply Forall_cons in Ht' as [Hc' _]. rewrite Hc' in *.
    by rewrite IH.
Qed.

Lemma blanks_app_space b s : blanks b -> b <> [] \/ s = [] ->
  forall c s', b ++ s = c :: s' -> is_space c = true.
Proof.
  intros Hb Hne c s' E. destruct Hb as [|d b Hd Hb].
  - destruct Hne as [? | ->]; [done|]. simpl in E. done.
  - injection E as <- _. by apply blank_space.
Qed.

Lemma split_pair b0 t0 b1 t1 b2 : blanks b0 -> word t0 -> blanks b1 -> b1 <> [] -> word t1 ->
  blanks b2 -> str_split (b0 ++ t0 ++ b1 ++ t1 ++ b2) = [t0; t1].
Proof.
  intros H0 W0 H1 Hne W1 H2. rewrite split_blanks by done.
  rewrite split_word; [|done|by apply blanks_app_space; [|left]].
  rewrite split_blanks by done. rewrite split_word; [by rewrite split_all_blanks|done|].
  intros c s' E. apply (blanks_app_space b2 [] H2 ltac:(by right) c s'). by rewrite app_nil_r.
Qed.

(** ** Numerals *)

Lemma digit_char c : is_digit c = true ->
  digit_of c = Some (Z.of_N (N_of_ascii c - 48)) /\ is_space c = false /\ is_char 95 c = false /\
  is_char 45 c = false /\ is_char 43 c = false /\ is_char 35 c = false /\
  c <> ascii_of_N 10 /\ c <> ascii_of_N 13.
Proof.
  unfold is_digit, digit_of, is_space, is_char. intros H. rewrite H.
  apply andb_true_iff in H as [H1%N.leb_le H2%N.leb_le]. split_and!; try done.
  - destruct (N.leb_spec 9 (N_of_ascii c)), (N.leb_spec (N_of_ascii c) 13),
      (N.leb_spec 28 (N_of_ascii c)), (N.leb_spec (N_of_ascii c) 32); done || lia.
  - apply N.eqb_neq. lia.
  - apply N.eqb_neq. lia.
  - apply N.eqb_neq. lia.
  - apply N.eqb_neq. lia.
  - intros ->. by vm_compute in H1.
  - intros ->. by vm_compute in H1.
Qed.

Lemma digits_value_cons_aux t n :
  fold_left (fun n a => 10 * n + (N_of_ascii a - 48)) t n = digits_value t + n * 10 ^ N.of_nat (length t).
Proof.
  unfold digits_value. revert n. induction t as [|a t IH]; intros n; cbn [fold_left length].
  - rewrite N.pow_0_r. lia.
  - rewrite IH, (IH (10 * 0 + _)). rewrite Nat2N.inj_succ, N.pow_succ_r'. lia.
Qed.

Lemma int_digits_spec s acc : forallb is_digit s = true ->
  int_digits (Z.of_N acc) s = Some (Z.of_N (fold_left (fun n a => 10 * n + (N_of_ascii a - 48)) s acc)).
Proof.
  revert acc. induction s as [|c s IH]; intros acc H; [done|]. simpl in H.
  apply andb_true_iff in H as [Hc Hs]. destruct (digit_char c Hc) as (Hd & _ & Hu & _).
  cbn [int_digits fold_left]. rewrite Hu, Hd.
  rewrite <-IH by done. f_equal. lia.
Qed.

Lemma no_underscores s : forallb is_digit s = true ->
  List.filter (fun c => negb (is_char 95 c)) s = s.
Proof.
  induction s as [|c s IH]; [done|]. simpl. intros [Hc Hs]%andb_true_iff.
  destruct (digit_char c Hc) as (_ & _ & -> & _). simpl. by rewrite IH.
Qed.

Lemma int_unsigned_spec limit ds : ds <> [] -> forallb is_digit ds = true ->
  (forall n, limit = Some n -> N.of_nat (length ds) <= n) ->
  int_unsigned limit ds = Some (Z.of_N (digits_value ds)).
Proof.
  intros Hne Hd Hl. destruct ds as [|c ds]; [done|]. unfold int_unsigned.
  rewrite no_underscores by done. simpl in Hd. apply andb_true_iff in Hd as [Hc Hds].
  destruct (digit_char c Hc) as (-> & _).
  rewrite int_digits_spec by done. unfold digits_value. cbn [fold_left].
  replace (10 * 0 + (N_of_ascii c - 48)) with (N_of_ascii c - 48) by lia.
  destruct limit as [n|]; [|done]. specialize (Hl n eq_refl).
  destruct (N.ltb_spec n (N.of_nat (length (c :: ds)))); [lia|done].
Qed.

Lemma numeral_int limit t z : numeral limit t z -> str_int limit t = Some z.
Proof.
  intros (sign & ds & -> & Hne & Hd & Hl & Hz). pose proof (int_unsigned_spec limit ds Hne Hd Hl) as Hi.
  destruct Hz as [[-> ->]|[[-> ->]|[-> ->]]].
  - destruct ds as [|c ds]; [done|]. pose proof Hd as Hd'. simpl in Hd'.
    apply andb_true_iff in Hd' as [Hc _]. destruct (digit_char c Hc) as (_ & _ & _ & H45 & H43 & _).
    unfold str_int. cbn [app]. by rewrite H45, H43.
  - exact Hi.
  - unfold str_int. cbn [app]. change (is_char 45 "-"%char) with true. cbn [fmap]. by rewrite Hi.
Qed.

Lemma digits_word ds : forallb is_digit ds = true -> Forall (fun c => is_space c = false) ds.
Proof.
  intros H. apply Forall_forall. intros c Hc. rewrite forallb_forall in H.
  by apply digit_char, H, elem_of_list_In.
Qed.
Lemma numeral_word limit t z : numeral limit t z -> word t.
Proof.
  intros (sign & ds & -> & Hne & Hd & _ & Hz). split.
  - by destruct sign, ds.
  - apply Forall_app. split; [|by apply digits_word].
    destruct Hz as [[-> _]|[[-> _]|[-> _]]]; by repeat constructor.
Qed.
Lemma numeral_chars limit t z : numeral limit t z -> no_line_end t /\ Forall (fun c => is_char 35 c = false) t.
Proof.
  intros (sign & ds & -> & _ & Hd & _ & Hz).
  assert (no_line_end ds /\ Forall (fun c => is_char 35 c = false) ds) as [H1 H2].
  { split; apply Forall_forall; intros c Hc; rewrite forallb_forall in Hd;
    apply elem_of_list_In, Hd, digit_char in Hc; tauto. }
  unfold no_line_end. rewrite !Forall_app. split_and!; try done;
    destruct Hz as [[-> _]|[[-> _]|[-> _]]]; by repeat constructor.
Qed.
Lemma blanks_chars t : blanks t -> no_line_end t /\ Forall (fun c => is_char 35 c = false) t.
Proof.
  intros H. split; (eapply Forall_impl; [exact H|]); intros c [-> | ->]; done.
Qed.

Lemma shows_line_chars limit t l : shows_line limit t l -> no_line_end t.
Proof.
  unfold no_line_end. destruct 1 as [t Ht|t Ht|b0 t0 b1 t1 b2 a b H0 N0 H1 Hne N1 H2].
  - by constructor.
  - by apply blanks_chars.
  - rewrite !Forall_app. split_and!; try (by apply blanks_chars); by eapply numeral_chars.
Qed.

Lemma read_line_spec limit t l v : shows_line limit t l ->
  id_pairs (read_line limit v t) = id_pairs v ++ l /\
  (l = [] -> read_line limit v t = v) /\
  (forall a b, l = [(a, b)] -> id0 (read_line limit v t) = Some a /\ id1 (read_line limit v t) = Some b).
Proof.
  destruct 1 as [t Ht|t Ht|b0 t0 b1 t1 b2 a b H0 N0 H1 Hne N1 H2].
  - simpl. by rewrite app_nil_r.
  - assert (read_line limit v t = v) as ->.
    { destruct t as [|c t]; [done|]. cbn [read_line].
      destruct (blanks_chars _ Ht) as [_ Hc]. apply Forall_cons in Hc as [Hc _]. rewrite Hc.
      by rewrite split_all_blanks. }
    by rewrite app_nil_r.
  - pose proof (split_pair b0 t0 b1 t1 b2 H0 (numeral_word _ _ _ N0) H1 Hne (numeral_word _ _ _ N1) H2) as Hs.
    assert (Forall (fun c => is_char 35 c = false) (b0 ++ t0 ++ b1 ++ t1 ++ b2)) as Hc.
    { rewrite !Forall_app. split_and!; try (by apply blanks_chars); by eapply numeral_chars. }
    unfold read_line. destruct (b0 ++ t0 ++ b1 ++ t1 ++ b2) as [|c s]; [done|].
    apply Forall_cons in Hc as [Hc _]. rewrite Hc, Hs, (numeral_int _ _ _ N0), (numeral_int _ _ _ N1).
    split_and!; [done..|]. by intros ?? [= -> ->].
Qed.

Lemma read_lines_spec limit t l v : shows_pairs limit t l ->
  let v' := fold_left (read_line limit) (file_lines t) v in
  id_pairs v' = id_pairs v ++ l /\
  (l = [] -> v' = v) /\
  (forall a b, last l = Some (a, b) -> id0 v' = Some a /\ id1 v' = Some b).
Proof.
  intros H. revert v. induction H as [t l Hl|t nl rest l l' Hl Hnl Hr IH]; intros v.
  - rewrite file_lines_last by (by eapply shows_line_chars).
    destruct (read_line_spec _ _ _ v Hl) as (H1 & H2 & H3).
    destruct t as [|c t].
    + assert (l = []) as ->.
      { remember [] as t eqn:Et in Hl. destruct Hl as [| |b0 t0 b1 t1 b2 a b B0 N0 B1 Bne N1 B2]; [done..|].
        destruct b1; [done|]. by destruct b0, t0. }
      simpl. by rewrite app_nil_r.
    + cbn [fold_left]. split_and!; [done..|]. intros a b E. apply H3.
      inversion Hl; subst; try done. by injection E as -> ->.
  - rewrite file_lines_line by (done || by eapply shows_line_chars). cbn [fold_left].
    destruct (read_line_spec _ _ _ v Hl) as (H1 & H2 & H3).
    destruct (IH (read_line limit v t)) as (I1 & I2 & I3). split_and!.
    + by rewrite I1, H1, app_assoc.
    + intros E. apply app_nil in E as [El El']. by rewrite I2, H2.
    + intros a b. destruct (decide (l' = [])) as [->|Hne].
      * rewrite app_nil_r, I2 by done. intros E. apply H3. inversion Hl; subst; try done.
        by injection E as -> ->.
      * rewrite last_app. destruct (last l') as [x|] eqn:E; [|by apply last_None in E].
        intros [= ->]. by apply I3.
Qed.

(** ** Renumbering *)

Lemma rank_lt D x y : x ∈ D -> (x < y)%Z -> rank D x < rank D y.
Proof.
  intros Hx Hxy. unfold rank.
  assert (filter (λ a, a < x)%Z D ⊂ filter (λ a, a < y)%Z D) as Hs.
  { split.
    - intros a. rewrite !elem_of_filter. intros []. split; [lia|done].
    - intros Hc. specialize (Hc x). rewrite !elem_of_filter in Hc. destruct (Hc (conj Hxy Hx)). lia. }
  apply subset_size in Hs. lia.
Qed.
Lemma rank_inj D x y : x ∈ D -> y ∈ D -> rank D x = rank D y -> x = y.
Proof.
  intros Hx Hy E. destruct (Z.lt_total x y) as [H|[H|H]]; [|done|].
  - apply (rank_lt D) in H; [lia|done].
  - apply (rank_lt D) in H; [lia|done].
Qed.
Lemma rank_bound D x : x ∈ D -> rank D x < N.of_nat (size D).
Proof.
  intros Hx. unfold rank.
  assert (filter (λ a, a < x)%Z D ⊂ D) as Hs.
  { split; [set_solver|]. intros Hc. specialize (Hc x Hx). rewrite elem_of_filter in Hc. lia. }
  apply subset_size in Hs. lia.
Qed.
Lemma rank_le D x : rank D x <= N.of_nat (size D).
Proof.
  unfold rank. assert (filter (λ a, a < x)%Z D ⊆ D) as Hs by set_solver.
  apply subseteq_size in Hs. lia.
Qed.
Lemma rank_surj D u : u < N.of_nat (size D) -> exists x, x ∈ D /\ rank D x = u.
Proof.
  intros Hu.
  assert (rank D <$> elements D ≡ₚ N.of_nat <$> seq 0 (size D)) as HP.
  { assert (rank D <$> elements D ⊆+ N.of_nat <$> seq 0 (size D)) as Hs.
    - apply NoDup_submseteq.
      + apply NoDup_fmap_2_strong; [|apply NoDup_elements].
        intros x y Hx%elem_of_elements Hy%elem_of_elements. by apply rank_inj.
      + intros k (x & -> & Hx%elem_of_elements)%elem_of_list_fmap.
        apply rank_bound in Hx. apply elem_of_list_fmap. exists (N.to_nat (rank D x)).
        split; [lia|]. apply elem_of_seq. lia.
    - apply submseteq_Permutation_length_eq; [|done]. by rewrite !fmap_length, seq_length. }
  assert (u ∈ rank D <$> elements D) as Hin.
  { rewrite HP. apply elem_of_list_fmap. exists (N.to_nat u). split; [lia|]. apply elem_of_seq. lia. }
  apply elem_of_list_fmap in Hin as (x & -> & Hx%elem_of_elements). by exists x.
Qed.
Lemma rank_add D i x : (x <= i)%Z -> rank ({[i]} ∪ D) x = rank D x.
Proof.
  intros H. unfold rank. f_equal. f_equal. apply set_eq. intros a.
  rewrite !elem_of_filter, elem_of_union, elem_of_singleton. split; [|tauto].
  intros [? [-> | ?]]; [lia|done].
Qed.
Lemma rank_all D i : (forall d, d ∈ D -> (d < i)%Z) -> rank D i = N.of_nat (size D).
Proof.
  intros H. unfold rank. do 2 f_equal. apply set_eq. intros a. rewrite elem_of_filter.
  split; [tauto|]. intros Ha. split; [by apply H|done].
Qed.

(** What the array holds for the id [x] when the ids in [D] are numbered. *)
Definition new_id (D : gset Z) (x : Z) : Z :=
  if decide (x ∈ D) then Z.of_N (rank D x) else (-1)%Z.
Definition is_map (n : nat) (D : gset Z) (M : list Z) : Prop :=
  length M = n /\ forall x, (0 <= x < Z.of_nat n)%Z -> M !! Z.to_nat x = Some (new_id D x).

Lemma np_get_map n D M x h : is_map n D M -> (0 <= x < Z.of_nat n)%Z ->
  np_get M x h = PyDone (new_id D x) h.
Proof.
  intros [Hl HM] Hx. unfold np_get, np_index. rewrite Hl.
  destruct (Z.leb_spec 0 x), (Z.ltb_spec x (Z.of_nat n)); try lia. cbn [andb mbind option_bind].
  by rewrite HM.
Qed.
Lemma np_get_over n D M x h : is_map n D M -> (Z.of_nat n <= x)%Z ->
  np_get M x h = PyRaise IndexError h.
Proof.
  intros [Hl HM] Hx. unfold np_get, np_index. rewrite Hl.
  destruct (Z.leb_spec 0 x), (Z.ltb_spec x (Z.of_nat n)), (Z.ltb_spec x 0); try lia. cbn [andb].
  by rewrite andb_false_r.
Qed.

Lemma number_ids_spec n l : forall D M h, is_map n D M ->
  StronglySorted pair_le l ->
  (forall d i j, d ∈ D -> (i, j) ∈ l -> (d <= i)%Z) ->
  (forall i j, (i, j) ∈ l -> (0 <= i < Z.of_nat n)%Z) ->
  exists M', number_ids l M (Z.of_nat (size D)) h = PyDone M' h /\ is_map n (sources l ∪ D) M'.
Proof.
  induction l as [|[i j] l IH]; intros D M h HM Hs HD Hb.
  - exists M. split; [done|]. unfold sources. cbn [fmap list_fmap list_to_set].
    by rewrite (left_id_L ∅ (∪)).
  - apply StronglySorted_inv in Hs as [Hs Hall]. rewrite Forall_forall in Hall.
    pose proof (Hb i j ltac:(left)) as Hi.
    cbn [number_ids]. unfold pbind. rewrite (np_get_map n D M i h HM Hi). unfold new_id at 1.
    assert (forall d k m, d ∈ {[i]} ∪ D -> (k, m) ∈ l -> (d <= k)%Z) as HD'.
    { intros d k m [->%elem_of_singleton|Hd]%elem_of_union Hk.
      - destruct (Hall _ Hk) as [H|[H _]]; simpl in H; lia.
      - apply (HD d k m Hd). by right. }
    assert (sources ((i, j) :: l) ∪ D = sources l ∪ ({[i]} ∪ D)) as Hsrc.
    { unfold sources. simpl. set_solver. }
    rewrite Hsrc. destruct (decide (i ∈ D)) as [Hin|Hin].
    + destruct (Z.eqb_spec (Z.of_N (rank D i)) (-1)); [lia|].
      assert ({[i]} ∪ D = D) as -> by set_solver.
      destruct (IH D M h HM Hs) as (M' & E & HM'); [| |by exists M'].
      * intros d k m Hd Hk. apply (HD d k m Hd). by right.
      * intros k m Hk. apply (Hb k m). by right.
    + cbn [Z.eqb]. change ((-1 =? -1)%Z) with true. cbn match.
      assert (size ({[i]} ∪ D) = S (size D)) as Hsz.
      { rewrite size_union by set_solver. by rewrite size_singleton. }
      unfold np_set, np_index. pose proof HM as [Hl HMx]. rewrite Hl.
      destruct (Z.leb_spec 0 i), (Z.ltb_spec i (Z.of_nat n)); try lia. cbn [andb]. unfold pret at 1.
      destruct (IH ({[i]} ∪ D) (<[Z.to_nat i:=Z.of_nat (size D)]> M) h) as (M' & E & HM').
      * split; [by rewrite insert_length|]. intros x Hx. unfold new_id.
        destruct (decide (x = i)) as [->|Hxi].
        -- rewrite list_lookup_insert by lia. rewrite decide_True by set_solver.
           rewrite rank_add, rank_all; [f_equal; lia| |lia].
           intros d Hd. pose proof (HD d i j Hd ltac:(left)). destruct (decide (d = i)); [by subst|lia].
        -- rewrite list_lookup_insert_ne by lia. rewrite HMx by done. unfold new_id.
           destruct (decide (x ∈ D)) as [Hx1|Hx1].
           ++ rewrite decide_True by set_solver.
              pose proof (HD x i j Hx1 ltac:(left)). by rewrite rank_add by lia.
           ++ by rewrite decide_False by set_solver.
      * done.
      * exact HD'.
      * intros k m Hk. apply (Hb k m). by right.
      * exists M'. split; [|done]. rewrite <-E. f_equal. rewrite Hsz. lia.
Qed.

Lemma sort_pairs_perm l : sort_pairs l ≡ₚ l.
Proof. apply merge_sort_Permutation. Qed.
Lemma sort_pairs_sorted l : StronglySorted pair_le (sort_pairs l).
Proof.
  apply StronglySorted_merge_sort.
  - intros x y z. unfold pair_le. lia.
  - intros x y. unfold pair_le. lia.
Qed.
Lemma sources_perm l l' : l ≡ₚ l' -> sources l = sources l'.
Proof. intros H. unfold sources. by rewrite H. Qed.
Lemma elem_of_sources l a : a ∈ sources l <-> exists b, (a, b) ∈ l.
Proof.
  unfold sources. rewrite elem_of_list_to_set, elem_of_list_fmap. split.
  - intros ([x y] & -> & H). by exists y.
  - intros [b H]. by exists (a, b).
Qed.

Lemma sorted_last l m b : StronglySorted pair_le l -> last l = Some (m, b) -> largest_source l m.
Proof.
  intros Hs Hl. split.
  - apply elem_of_sources. exists b. apply last_Some in Hl as [l' ->]. set_solver.
  - intros a (c & Hc)%elem_of_sources. apply last_Some in Hl as [l' ->].
    apply elem_of_app in Hc as [Hc|Hc].
    + pose proof (elem_of_StronglySorted_app _ _ _ (a, c) (m, b) Hs Hc ltac:(left)) as H.
      destruct H as [H|[H _]]; simpl in H; lia.
    + apply elem_of_list_singleton in Hc as [= -> ->]. lia.
Qed.

(** ** Names *)

Lemma prefix_iff s t : String.prefix s t = true <-> exists b, t = (s ++ b)%string.
Proof.
  revert t. induction s as [|c s IH]; intros t.
  - split; [|by destruct t]. intros _. by exists t.
  - destruct t as [|d t]; cbn [String.prefix].
    + split; [done|]. by intros [b [=]].
    + destruct (ascii_dec c d) as [->|Hne].
      * rewrite IH. split; intros [b Hb]; exists b; [by rewrite Hb|]. by injection Hb.
      * split; [done|]. intros [b Hb]. by injection Hb.
Qed.

Lemma str_in_iff sub s : str_in sub s = true <-> contains sub s.
Proof.
  unfold str_in. induction s as [|c s IH].
  - destruct sub as [|d sub]; simpl.
    + split; [|done]. intros _. by exists ""%string, ""%string.
    + split; [done|]. intros ([|] & b & [=]).
  - cbn [index]. destruct (String.prefix sub (String c s)) eqn:E.
    + split; [|done]. intros _. apply prefix_iff in E as [b ->]. by exists ""%string, b.
    + assert (contains sub (String c s) <-> contains sub s) as ->.
      { split.
        - intros ([|d a] & b & H); cbn [String.append] in H.
          + assert (String.prefix sub (String c s) = true) as H' by (apply prefix_iff; by exists b). congruence.
          + injection H as -> ->. by exists a, b.
        - intros (a & b & ->). by exists (String c a), b. }
      rewrite <-IH. by destruct (index 0 sub s).
Qed.

Lemma lower_char_case c c' : lower_case c c' <-> c' = lower_char c.
Proof.
  unfold lower_case, lower_char. split.
  - intros [(k & Hk & -> & ->)|[Hn ->]].
    + rewrite N_ascii_embedding by lia. destruct (N.leb_spec 65 (65 + k)); [|lia].
      destruct (N.leb_spec (65 + k) 90); [|lia]. simpl. f_equal. lia.
    + destruct (N.leb_spec 65 (N_of_ascii c)) as [H1|]; [|done].
      destruct (N.leb_spec (N_of_ascii c) 90) as [H2|]; [|done]. destruct Hn.
      exists (N_of_ascii c - 65). split; [lia|]. replace (65 + (N_of_ascii c - 65)) with (N_of_ascii c) by lia.
      by rewrite ascii_N_embedding.
  - intros ->. destruct (N.leb_spec 65 (N_of_ascii c)) as [H1|H1];
      [destruct (N.leb_spec (N_of_ascii c) 90) as [H2|H2]|]; simpl.
    + left. exists (N_of_ascii c - 65). split_and!; [lia| |f_equal; lia].
      replace (65 + (N_of_ascii c - 65)) with (N_of_ascii c) by lia. by rewrite ascii_N_embedding.
    + right. split; [|done]. intros (k & Hk & ->). rewrite N_ascii_embedding in H2 by lia. lia.
    + right. split; [|done]. intros (k & Hk & ->). rewrite N_ascii_embedding in H1 by lia. lia.
Qed.

Lemma str_lower_cased s s' : lower_cased s s' <-> s' = str_lower s.
Proof.
  unfold lower_cased. revert s'. induction s as [|c s IH]; intros [|c' s']; simpl.
  - split; [done|constructor].
  - split; [inversion 1|done].
  - split; [inversion 1|done].
  - rewrite Forall2_cons, IH, lower_char_case. split; [by intros [-> ->]|]. by intros [= -> ->].
Qed.
