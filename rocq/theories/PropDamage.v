(** Property C97: what reading a damaged file can give. *)
From Coq Require Import Ascii String.
From Verif Require Import Base HashIter F64 Numeric Adj Sq Standard Compressed Error Spec MatSpec Api
  HashIterProofs AdjProofs SqProofs GraphProofs GraphMoreProofs PoolProofs BitsProofs
  CompressProofs BytesProofs GraphCodecProofs CGraphCodecProofs ApproxProofs CodecMoreProofs
  PropCommon PropGraph PropCodec PropCompress PropMore.
Local Open Scope N_scope.

Local Arguments N.mul : simpl never.
Local Arguments N.add : simpl never.
Local Arguments N.div : simpl never.
Local Arguments N.modulo : simpl never.

(** The [len] bytes from position [a] on are other ones; all other bytes are the same. *)
Definition damaged (a len : nat) (bytes bytes' : list N) : Prop :=
  exists x y y' z, bytes = x ++ y ++ z /\ bytes' = x ++ y' ++ z /\
    length x = a /\ length y = len /\ length y' = len /\ y <> y'.

(** ** Lemmas: damage in a sequence of words *)

Definition enc_words (ws : list N) : list N := ws ≫= be64.

Definition pair_words (l : list (N * N)) : list N := l ≫= fun '(u, v) => [u; v].
Definition triple_words (l : list (N * N * N)) : list N := l ≫= fun '(w, c, r) => [w; c; r].

Lemma enc_pair_words l : enc_pairs l = enc_words (pair_words l).
Proof.
  induction l as [|[u v] l IH]; [done|]. unfold enc_pairs, pair_words, enc_words in *.
  rewrite !bind_cons, bind_app, <- IH. rewrite !bind_cons. simpl mbind. by rewrite app_nil_r.
Qed.
Lemma enc_triple_words l : enc_triples l = enc_words (triple_words l).
Proof.
  induction l as [|[[w c] r] l IH]; [done|]. unfold enc_triples, triple_words, enc_words in *.
  rewrite !bind_cons, bind_app, <- IH. rewrite !bind_cons. simpl mbind. by rewrite app_nil_r.
Qed.

Lemma length_be64 x : length (be64 x) = 8%nat.
Proof. done. Qed.

Lemma enc_words_inj ws ws' : Forall (fun w => w < two64) ws -> Forall (fun w => w < two64) ws' ->
  enc_words ws = enc_words ws' -> ws = ws'.
Proof.
  revert ws'. induction ws as [|w ws IH]; intros [|w' ws'] H H' E; try done.
  unfold enc_words in *. rewrite !bind_cons in E. apply app_inj_len in E as [E1 E2]; [|done].
  inversion H; inversion H'; subst. f_equal; [by apply be64_inj|by apply IH].
Qed.

Lemma one_word k ws ws' x y y' z :
  Forall (fun w => w < two64) ws -> Forall (fun w => w < two64) ws' ->
  enc_words ws = x ++ y ++ z -> enc_words ws' = x ++ y' ++ z ->
  length x = (8 * k)%nat -> length y = 8%nat -> length y' = 8%nat ->
  exists a w w' b, ws = a ++ w :: b /\ ws' = a ++ w' :: b /\ length a = k /\ y = be64 w /\ y' = be64 w'.
Proof.
  revert ws ws' x. induction k as [|k IH]; intros ws ws' x H H' E E' Hx Hy Hy'.
  - destruct x; [|done]. simpl in E, E'.
    destruct ws as [|w ws]; [by apply (f_equal length) in E; rewrite app_length, Hy in E|].
    destruct ws' as [|w' ws']; [by apply (f_equal length) in E'; rewrite app_length, Hy' in E'|].
    unfold enc_words in *. rewrite bind_cons in E, E'.
    apply app_inj_len in E as [E1 E2]; [|by rewrite Hy].
    apply app_inj_len in E' as [E1' E2']; [|by rewrite Hy'].
    inversion H; inversion H'; subst.
    exists [], w, w', ws. split_and!; [done| |done|done|done]. simpl. f_equal.
    by apply enc_words_inj.
  - destruct ws as [|w ws]; [apply (f_equal length) in E; rewrite app_length, Hx in E; simpl in E; lia|].
    destruct ws' as [|w' ws'];
      [apply (f_equal length) in E'; rewrite app_length, Hx in E'; simpl in E'; lia|].
    unfold enc_words in *. rewrite bind_cons in E, E'.
    rewrite <- (take_drop 8 x), <- app_assoc in E, E'.
    assert (length (take 8 x) = 8%nat) as Ht by (rewrite take_length; lia).
    apply app_inj_len in E as [E1 E2]; [|by rewrite Ht].
    apply app_inj_len in E' as [E1' E2']; [|by rewrite Ht].
    inversion H; inversion H'; subst.
    assert (w = w') as <- by (apply be64_inj; [done|done|congruence]).
    destruct (IH ws ws' (drop 8 x)) as (a & v & v' & b & -> & -> & <- & Ey & Ey'); try done.
    { rewrite drop_length. lia. }
    exists (w :: a), v, v', b. done.
Qed.

Lemma one_pair l l' a w w' b : pair_words l = a ++ w :: b -> pair_words l' = a ++ w' :: b ->
  exists l1 l2 u v, (l = l1 ++ (w, v) :: l2 /\ l' = l1 ++ (w', v) :: l2) \/
    (l = l1 ++ (u, w) :: l2 /\ l' = l1 ++ (u, w') :: l2).
Proof.
  assert (forall l l', pair_words l = pair_words l' -> l = l') as Hinj.
  { clear. induction l as [|[u v] l IH]; intros [|[u' v'] l'] H; try done.
    unfold pair_words in *. rewrite !bind_cons in H. injection H as -> -> H. f_equal. by apply IH. }
  revert l' a. induction l as [|[u v] l IH]; intros l' a E E'.
  { by destruct a. }
  destruct l' as [|[u' v'] l']; [by destruct a|].
  unfold pair_words in *. rewrite !bind_cons in E, E'.
  destruct a as [|x [|x' a]]; simpl in E, E'.
  - injection E as -> E. injection E' as -> E'. rewrite <- E' in E. injection E as -> E.
    exists [], l', 0, v'. left. by rewrite (Hinj _ _ E).
  - injection E as -> -> E. injection E' as -> -> E'. rewrite <- E' in E.
    exists [], l', x, 0. right. by rewrite (Hinj _ _ E).
  - injection E as -> -> E. injection E' as -> -> E'.
    destruct (IH l' a E E') as (l1 & l2 & u & v & [[-> ->]|[-> ->]]).
    + exists ((x, x') :: l1), l2, u, v. by left.
    + exists ((x, x') :: l1), l2, u, v. by right.
Qed.

Lemma one_triple l l' a w w' b : triple_words l = a ++ w :: b -> triple_words l' = a ++ w' :: b ->
  exists l1 l2 t t', l = l1 ++ t :: l2 /\ l' = l1 ++ t' :: l2 /\
    match (length a mod 3)%nat with
    | 0%nat => t.1.1 = w /\ t'.1.1 = w' /\ t.1.2 = t'.1.2 /\ t.2 = t'.2
    | 1%nat => t.1.1 = t'.1.1 /\ t.1.2 = w /\ t'.1.2 = w' /\ t.2 = t'.2
    | _ => t.1.1 = t'.1.1 /\ t.1.2 = t'.1.2 /\ t.2 = w /\ t'.2 = w'
    end.
Proof.
  assert (forall l l', triple_words l = triple_words l' -> l = l') as Hinj.
  { clear. induction l as [|[[u v] r] l IH]; intros [|[[u' v'] r'] l'] H; try done.
    unfold triple_words in *. rewrite !bind_cons in H. injection H as -> -> -> H. f_equal. by apply IH. }
  revert l' a. induction l as [|[[u v] r] l IH]; intros l' a E E'.
  { by destruct a. }
  destruct l' as [|[[u' v'] r'] l']; [by destruct a|].
  unfold triple_words in *. rewrite !bind_cons in E, E'.
  destruct a as [|x [|x' [|x'' a]]]; simpl in E, E'.
  - injection E as -> E. injection E' as -> E'. rewrite <- E' in E. injection E as -> -> E.
    eexists [], l', _, _. rewrite (Hinj _ _ E). by split_and!.
  - injection E as -> -> E. injection E' as -> -> E'. rewrite <- E' in E. injection E as -> E.
    eexists [], l', _, _. rewrite (Hinj _ _ E). by split_and!.
  - injection E as -> -> -> E. injection E' as -> -> -> E'. rewrite <- E' in E.
    eexists [], l', _, _. rewrite (Hinj _ _ E). by split_and!.
  - injection E as -> -> -> E. injection E' as -> -> -> E'.
    destruct (IH l' a E E') as (l1 & l2 & t & t' & -> & -> & H).
    exists ((x, x', x'') :: l1), l2, t, t'. split_and!; [done|done|].
    replace (length (x :: x' :: x'' :: a) mod 3)%nat with (length a mod 3)%nat; [done|].
    cbn [length]. replace (S (S (S (length a)))) with (length a + 1 * 3)%nat by lia.
    by rewrite Nat.mod_add.
Qed.

(** Damage moves into the part of a file that holds the damaged field. *)
Lemma damaged_sym a len bytes bytes' : damaged a len bytes bytes' -> damaged a len bytes' bytes.
Proof. intros (x & y & y' & z & ? & ? & ? & ? & ? & ?). exists x, y', y, z. done. Qed.

Lemma damaged_cases len a b s s' t t' : damaged a len (s ++ t) (s' ++ t') ->
  length s = b -> length s' = b ->
  (a + len <= b -> damaged a len s s' /\ t = t')%nat /\
  (b <= a -> s = s' /\ damaged (a - b) len t t')%nat.
Proof.
  intros (x & y & y' & z & E & E' & Hx & Hy & Hy' & Hne) Hs Hs'. split; intros Hb.
  - pose proof (f_equal (take b) E) as T. pose proof (f_equal (take b) E') as T'.
    pose proof (f_equal (drop b) E) as D. pose proof (f_equal (drop b) E') as D'.
    rewrite take_app_alt in T, T' by done. rewrite drop_app_alt in D, D' by done.
    rewrite !take_app_ge in T, T' by lia. rewrite !drop_app_ge in D, D' by lia.
    split.
    + exists x, y, y', (take (b - a - len) z). rewrite T, T'. rewrite Hx, Hy, Hy'. done.
    + rewrite D, D'. by rewrite Hx, Hy, Hy'.
  - pose proof (f_equal (take b) E) as T. pose proof (f_equal (take b) E') as T'.
    pose proof (f_equal (drop b) E) as D. pose proof (f_equal (drop b) E') as D'.
    rewrite take_app_alt in T, T' by done. rewrite drop_app_alt in D, D' by done.
    rewrite !take_app_le in T, T' by lia. rewrite !drop_app_le in D, D' by lia.
    split; [by rewrite T, T'|]. exists (drop b x), y, y', z. rewrite D, D', drop_length.
    split_and!; [done|done|lia|done|done|done].
Qed.

Lemma damaged_ne a len s : ~ damaged a len s s.
Proof.
  intros (x & y & y' & z & E & E' & Hx & Hy & Hy' & Hne). rewrite E in E'.
  apply app_inj_len in E' as [_ E']; [|done]. apply app_inj_len in E' as [E' _]; [done|lia].
Qed.

(** ** Lemmas: damage in a file *)

Definition flag (und : bool) : N := if und then 1 else 0.
Lemma flag_inj und und' : [flag und] = [flag und'] -> und = und'.
Proof. by destruct und, und'. Qed.

Lemma graph_fields und n c l : graph_file und n c l =
  [0x7a; 0xe7; 0x1f; 0xfd; 0; 0; 0; 1] ++ be64 n ++ be64 c ++ [flag und] ++ [0] ++ enc_pairs l.
Proof. done. Qed.

Lemma cgraph_fields und dim c e n level l : cgraph_file und dim c e n level l =
  [0x71; 0xff; 0x7a; 0xed; 0; 0; 0; 2] ++ be64 dim ++ be64 c ++ be64 e ++ be64 n ++ [flag und] ++
  [level] ++ enc_triples l.
Proof. done. Qed.

Lemma damaged_length a len s s' : damaged a len s s' -> length s = length s'.
Proof.
  intros (x & y & y' & z & -> & -> & Hx & Hy & Hy' & Hne). rewrite !app_length. lia.
Qed.

Lemma damaged_pos a len s s' : damaged a len s s' -> (len <> 0)%nat.
Proof.
  intros (x & y & y' & z & _ & _ & _ & Hy & Hy' & Hne) ->.
  by destruct y, y'.
Qed.

Lemma damaged_all len s s' : damaged 0 len s s' -> s <> s'.
Proof. intros D ->. by apply damaged_ne in D. Qed.

(** One changed id of a list of pairs. *)
Lemma damaged_pair k l l' : Forall (fun '(u, v) => u < two64 /\ v < two64) l ->
  Forall (fun '(u, v) => u < two64 /\ v < two64) l' ->
  damaged (8 * k) 8 (enc_pairs l) (enc_pairs l') ->
  exists l1 l2 u v w w', w <> w' /\ ((l = l1 ++ (w, v) :: l2 /\ l' = l1 ++ (w', v) :: l2) \/
    (l = l1 ++ (u, w) :: l2 /\ l' = l1 ++ (u, w') :: l2)).
Proof.
  intros H H' (x & y & y' & z & E & E' & Hx & Hy & Hy' & Hne).
  rewrite enc_pair_words in E, E'.
  assert (forall m, Forall (fun '(u, v) => u < two64 /\ v < two64) m ->
    Forall (fun w => w < two64) (pair_words m)) as Hw.
  { clear. intros m Hm. unfold pair_words. induction Hm as [|[u v] m [Hu Hv] Hm IH]; [constructor|].
    rewrite bind_cons. by repeat constructor. }
  destruct (one_word k _ _ _ _ _ _ (Hw l H) (Hw l' H') E E' Hx Hy Hy')
    as (a & w & w' & b & Ea & Ea' & _ & -> & ->).
  destruct (one_pair l l' a w w' b Ea Ea') as (l1 & l2 & u & v & HH).
  exists l1, l2, u, v, w, w'. split; [congruence|done].
Qed.

Lemma damaged_triple k l l' :
  Forall (fun '(w, c, r) => w < two64 /\ c < two64 /\ r < two64) l ->
  Forall (fun '(w, c, r) => w < two64 /\ c < two64 /\ r < two64) l' ->
  damaged (8 * k) 8 (enc_triples l) (enc_triples l') ->
  exists l1 l2 t t', t <> t' /\ l = l1 ++ t :: l2 /\ l' = l1 ++ t' :: l2 /\
    match (k mod 3)%nat with
    | 0%nat => t.1.2 = t'.1.2 /\ t.2 = t'.2
    | 1%nat => t.1.1 = t'.1.1 /\ t.2 = t'.2
    | _ => t.1.1 = t'.1.1 /\ t.1.2 = t'.1.2
    end.
Proof.
  intros H H' (x & y & y' & z & E & E' & Hx & Hy & Hy' & Hne).
  rewrite enc_triple_words in E, E'.
  assert (forall m, Forall (fun '(w, c, r) => w < two64 /\ c < two64 /\ r < two64) m ->
    Forall (fun w => w < two64) (triple_words m)) as Hw.
  { clear. intros m Hm. unfold triple_words.
    induction Hm as [|[[u v] r] m (Hu & Hv & Hr) Hm IH]; [constructor|].
    rewrite bind_cons. by repeat constructor. }
  destruct (one_word k _ _ _ _ _ _ (Hw l H) (Hw l' H') E E' Hx Hy Hy')
    as (a & w & w' & b & Ea & Ea' & <- & -> & ->).
  destruct (one_triple l l' a w w' b Ea Ea') as (l1 & l2 & t & t' & -> & -> & HH).
  assert (w <> w') by congruence.
  exists l1, l2, t, t'. destruct (length a mod 3)%nat as [|[|?]]; split_and!; try done; naive_solver congruence.
Qed.

(** Where damage can be in a pair of files that are both accepted. *)
Lemma graph_damage a len und n l und' n' l' : n < two64 -> n' < two64 ->
  Forall (fun '(u, v) => u < two64 /\ v < two64) l ->
  Forall (fun '(u, v) => u < two64 /\ v < two64) l' ->
  damaged a len (graph_file und n (N.of_nat (length l)) l) (graph_file und' n' (N.of_nat (length l')) l') ->
  length l = length l' /\
  ~ (a + len <= 8)%nat /\
  (8 <= a -> a + len <= 16 -> n <> n' /\ und = und' /\ l = l')%nat /\
  ~ (16 <= a /\ a + len <= 24)%nat /\
  (a = 24 -> len = 1 -> n = n' /\ und <> und' /\ l = l')%nat /\
  ~ (a = 25 /\ len = 1)%nat /\
  (26 <= a -> n = n' /\ und = und' /\ damaged (a - 26) len (enc_pairs l) (enc_pairs l'))%nat.
Proof.
  intros Hn Hn' Hl Hl' D.
  assert (length l = length l') as Hlen.
  { apply damaged_length in D. rewrite !length_graph_file in D. lia. }
  assert (forall m m', Forall (fun '(u, v) => u < two64 /\ v < two64) m ->
    Forall (fun '(u, v) => u < two64 /\ v < two64) m' -> enc_pairs m = enc_pairs m' -> m = m') as Henc.
  { clear. induction m as [|[u v] m IH]; intros [|[u' v'] m'] H H' E; try done.
    unfold enc_pairs in *. rewrite !bind_cons, <- !app_assoc in E.
    apply app_inj_len in E as [E1 E]; [|done]. apply app_inj_len in E as [E2 E]; [|done].
    destruct (Forall_cons_1 _ _ _ H) as [[? ?] ?]. destruct (Forall_cons_1 _ _ _ H') as [[? ?] ?].
    f_equal; [f_equal; by apply be64_inj|by apply IH]. }
  pose proof (damaged_pos _ _ _ _ D) as Hpos.
  rewrite <- Hlen in D. rewrite !graph_fields in D.
  split; [done|].
  destruct (damaged_cases len a 8 _ _ _ _ D) as [A1 A2]; [done|done|].
  split; [intros H; apply A1 in H as [H _]; by apply damaged_ne in H|].
  destruct (decide (8 <= a)%nat) as [Ha|Ha]; [|split_and!; intros; lia].
  clear A1. destruct (A2 Ha) as [_ D1]. clear A2 D.
  destruct (damaged_cases len (a - 8) 8 _ _ _ _ D1) as [A1 A2]; [done|done|].
  split.
  { intros _ H. destruct A1 as [A1 A3]; [lia|]. split; [intros ->; by apply damaged_ne in A1|].
    apply app_inj_len in A3 as [_ A3]; [|done]. apply app_inj_len in A3 as [A4 A3]; [|done].
    apply app_inj_len in A3 as [_ A3]; [|done]. split; [by apply flag_inj|by apply Henc]. }
  destruct (decide (16 <= a)%nat) as [Ha'|Ha']; [|split_and!; intros; lia].
  clear A1. destruct A2 as [En D2]; [lia|]. apply be64_inj in En as <-; [|done|done]. clear D1.
  destruct (damaged_cases len (a - 8 - 8) 8 _ _ _ _ D2) as [A1 A2]; [done|done|].
  split; [intros H; destruct A1 as [A1 _]; [lia|]; by apply damaged_ne in A1|].
  destruct (decide (24 <= a)%nat) as [Ha2|Ha2]; [|split_and!; intros; lia].
  clear A1. destruct A2 as [_ D3]; [lia|]. clear D2.
  destruct (damaged_cases len (a - 8 - 8 - 8) 1 _ _ _ _ D3) as [A1 A2]; [done|done|].
  split.
  { intros -> ->. destruct A1 as [A1 A3]; [lia|]. split; [done|].
    apply app_inj_len in A3 as [_ A3]; [|done].
    split; [intros ->; by apply damaged_ne in A1|by apply Henc]. }
  destruct (decide (25 <= a)%nat) as [Ha3|Ha3]; [|split_and!; intros; lia].
  clear A1. destruct A2 as [Ef D4]; [lia|]. apply flag_inj in Ef as <-. clear D3.
  destruct (damaged_cases len (a - 8 - 8 - 8 - 1) 1 _ _ _ _ D4) as [A1 A2]; [done|done|].
  split; [intros H; destruct A1 as [A1 _]; [lia|]; by apply damaged_ne in A1|].
  intros Ha4. destruct A2 as [_ A2]; [lia|]. split_and!; [done|done|].
  by replace (a - 26)%nat with (a - 8 - 8 - 8 - 1 - 1)%nat by lia.
Qed.

Lemma cgraph_damage a len und n level l und' n' level' l' : n < two64 -> n' < two64 ->
  Forall (fun '(w, c, r) => w < two64 /\ c < two64 /\ r < two64) l ->
  Forall (fun '(w, c, r) => w < two64 /\ c < two64 /\ r < two64) l' ->
  popcount_total l < two64 -> popcount_total l' < two64 ->
  damaged a len (cgraph_file und (blocks_of n) (N.of_nat (length l)) (popcount_total l) n level l)
    (cgraph_file und' (blocks_of n') (N.of_nat (length l')) (popcount_total l') n' level' l') ->
  length l = length l' /\
  ~ (a + len <= 8)%nat /\
  ~ (8 <= a /\ a + len <= 16)%nat /\
  ~ (16 <= a /\ a + len <= 24)%nat /\
  ~ (24 <= a /\ a + len <= 32)%nat /\
  (32 <= a -> a + len <= 40 -> n <> n' /\ blocks_of n = blocks_of n' /\ und = und' /\ level = level' /\ l = l')%nat /\
  (a = 40 -> len = 1 -> n = n' /\ und <> und' /\ level = level' /\ l = l')%nat /\
  (a = 41 -> len = 1 -> n = n' /\ und = und' /\ level <> level' /\ l = l')%nat /\
  (42 <= a -> n = n' /\ und = und' /\ level = level' /\ popcount_total l = popcount_total l' /\
     damaged (a - 42) len (enc_triples l) (enc_triples l'))%nat.
Proof.
  intros Hn Hn' Hl Hl' Hp Hp' D.
  assert (length l = length l') as Hlen.
  { apply damaged_length in D. rewrite !cgraph_fields, !app_length, !length_be64, !length_enc_triples in D.
    simpl in D. lia. }
  assert (forall m m', Forall (fun '(w, c, r) => w < two64 /\ c < two64 /\ r < two64) m ->
    Forall (fun '(w, c, r) => w < two64 /\ c < two64 /\ r < two64) m' ->
    enc_triples m = enc_triples m' -> m = m') as Henc.
  { clear. induction m as [|[[u v] r] m IH]; intros [|[[u' v'] r'] m'] H H' E; try done.
    unfold enc_triples in *. rewrite !bind_cons, <- !app_assoc in E.
    apply app_inj_len in E as [E1 E]; [|done]. apply app_inj_len in E as [E2 E]; [|done].
    apply app_inj_len in E as [E3 E]; [|done].
    destruct (Forall_cons_1 _ _ _ H) as [(? & ? & ?) ?]. destruct (Forall_cons_1 _ _ _ H') as [(? & ? & ?) ?].
    f_equal; [f_equal; [f_equal|]; by apply be64_inj|by apply IH]. }
  assert (blocks_of n < two64 /\ blocks_of n' < two64) as [Hb Hb'].
  { unfold blocks_of. unfold two64 in *.
    assert ((n + 7) / 8 < 2 ^ 64 /\ (n' + 7) / 8 < 2 ^ 64) as [? ?]
      by (split; apply N.div_lt_upper_bound; lia). lia. }
  pose proof (damaged_pos _ _ _ _ D) as Hpos.
  rewrite <- Hlen in D. rewrite !cgraph_fields in D.
  split; [done|].
  destruct (damaged_cases len a 8 _ _ _ _ D) as [A1 A2]; [done|done|].
  split; [intros H; apply A1 in H as [H _]; by apply damaged_ne in H|].
  destruct (decide (8 <= a)%nat) as [Ha|Ha]; [|split_and!; intros; lia].
  clear A1. destruct (A2 Ha) as [_ D1]. clear A2 D.
  destruct (damaged_cases len (a - 8) 8 _ _ _ _ D1) as [A1 A2]; [done|done|].
  split.
  { intros H. destruct A1 as [A1 A3]; [lia|].
    apply app_inj_len in A3 as [_ A3]; [|done]. apply app_inj_len in A3 as [_ A3]; [|done].
    apply app_inj_len in A3 as [A4 A3]; [|done]. apply be64_inj in A4 as <-; [|done|done].
    by apply damaged_ne in A1. }
  destruct (decide (16 <= a)%nat) as [Ha'|Ha']; [|split_and!; intros; lia].
  clear A1. destruct A2 as [En D2]; [lia|]. apply be64_inj in En as En; [|done|done]. clear D1.
  destruct (damaged_cases len (a - 8 - 8) 8 _ _ _ _ D2) as [A1 A2]; [done|done|].
  split; [intros H; destruct A1 as [A1 _]; [lia|]; by apply damaged_ne in A1|].
  destruct (decide (24 <= a)%nat) as [Ha2|Ha2]; [|split_and!; intros; lia].
  clear A1. destruct A2 as [_ D3]; [lia|]. clear D2.
  destruct (damaged_cases len (a - 8 - 8 - 8) 8 _ _ _ _ D3) as [A1 A2]; [done|done|].
  split.
  { intros H. destruct A1 as [A1 A3]; [lia|].
    apply app_inj_len in A3 as [_ A3]; [|done]. apply app_inj_len in A3 as [_ A3]; [|done].
    apply app_inj_len in A3 as [_ A3]; [|done]. apply Henc in A3 as <-; [|done|done].
    by apply damaged_ne in A1. }
  destruct (decide (32 <= a)%nat) as [Ha3|Ha3]; [|split_and!; intros; lia].
  clear A1. destruct A2 as [Ep D4]; [lia|]. apply be64_inj in Ep; [|done|done]. clear D3.
  destruct (damaged_cases len (a - 8 - 8 - 8 - 8) 8 _ _ _ _ D4) as [A1 A2]; [done|done|].
  split.
  { intros _ H. destruct A1 as [A1 A3]; [lia|]. split; [intros ->; by apply damaged_ne in A1|].
    apply app_inj_len in A3 as [A4 A3]; [|done]. apply app_inj_len in A3 as [A5 A3]; [|done].
    split_and!; [done|by apply flag_inj|congruence|by apply Henc]. }
  destruct (decide (40 <= a)%nat) as [Ha4|Ha4]; [|split_and!; intros; lia].
  clear A1. destruct A2 as [En2 D5]; [lia|]. apply be64_inj in En2 as <-; [|done|done]. clear D4.
  destruct (damaged_cases len (a - 8 - 8 - 8 - 8 - 8) 1 _ _ _ _ D5) as [A1 A2]; [done|done|].
  split.
  { intros -> ->. destruct A1 as [A1 A3]; [lia|].
    apply app_inj_len in A3 as [A4 A3]; [|done].
    split_and!; [done|intros ->; by apply damaged_ne in A1|congruence|by apply Henc]. }
  destruct (decide (41 <= a)%nat) as [Ha5|Ha5]; [|split_and!; intros; lia].
  clear A1. destruct A2 as [Ef D6]; [lia|]. apply flag_inj in Ef as <-. clear D5.
  destruct (damaged_cases len (a - 8 - 8 - 8 - 8 - 8 - 1) 1 _ _ _ _ D6) as [A1 A2]; [done|done|].
  split.
  { intros -> ->. destruct A1 as [A1 A3]; [lia|].
    split_and!; [done|done|intros ->; by apply damaged_ne in A1|by apply Henc]. }
  intros Ha6. destruct A2 as [Elev A2]; [lia|]. split_and!; [done|done|congruence|done|].
  by replace (a - 42)%nat with (a - 8 - 8 - 8 - 8 - 8 - 1 - 1)%nat by lia.
Qed.

(** ** Lemmas: the edges of a damaged file *)

Lemma valid_u64 und n l : valid_graph_file und n l ->
  Forall (fun '(u, v) => u < two64 /\ v < two64) l.
Proof. intros H. apply good_file_valid in H. eapply bound_u64; apply H. Qed.

Lemma cvalid_u64 n level l : valid_cgraph_file n level l ->
  Forall (fun '(w, c, r) => w < two64 /\ c < two64 /\ r < two64) l.
Proof.
  intros H. apply Forall_forall. intros [[w c] r] Hin.
  pose proof (vc_words _ _ _ H w c r Hin). pose proof (vc_keys _ _ _ H w c r Hin).
  pose proof (vc_count _ _ _ H) as Hn.
  assert (blocks_of n < two64); [|lia]. unfold blocks_of. unfold two64 in *.
  assert ((n + 7) / 8 < 2 ^ 64) by (apply N.div_lt_upper_bound; lia). lia.
Qed.

(** The edges of an undirected list that is its own mirror, when one id of a pair changes. *)
Lemma changed_pair_und l1 l2 e e' : let l := l1 ++ e :: l2 in let l' := l1 ++ e' :: l2 in
  NoDup l -> (forall u v, (u, v) ∈ l -> (v, u) ∈ l) -> e <> e' -> e.1 = e'.1 \/ e.2 = e'.2 ->
  has_card (described true l') (N.of_nat (length l')) ->
  forall x, described true l' x <-> x ∈ l.
Proof.
  intros l l' Hnd Hsym Hne Hone Hcard.
  assert (NoDup (l1 ++ l2) /\ e ∉ l1 ++ l2) as [Hnd12 Hnin].
  { unfold l in Hnd. rewrite <- Permutation_middle in Hnd. by apply NoDup_cons in Hnd as [? ?]. }
  assert (forall x, x ∈ l <-> x = e \/ x ∈ l1 ++ l2) as Hl.
  { intros x. unfold l. rewrite <- Permutation_middle. apply elem_of_cons. }
  assert (forall x, x ∈ l' <-> x = e' \/ x ∈ l1 ++ l2) as Hl'.
  { intros x. unfold l'. rewrite <- Permutation_middle. apply elem_of_cons. }
  assert (length l' = S (length (l1 ++ l2))) as Hlen.
  { unfold l'. rewrite <- Permutation_middle. done. }
  assert (forall u v, (u, v) ∈ l1 ++ l2 -> (v, u) ∈ l) as Hsym12.
  { intros u v H. apply Hsym, Hl. by right. }
  destruct e as [u v], e' as [u' v']. simpl in Hone.
  destruct (N.eq_dec u v) as [<-|Huv].
  - (* a loop *)
    exfalso. assert (u' <> v') as Huv' by (intros ->; apply Hne; destruct Hone as [<-|<-]; done).
    assert (forall a b, (a, b) ∈ l1 ++ l2 -> (b, a) ∈ l1 ++ l2) as Hs.
    { intros a b H. destruct (proj1 (Hl _) (Hsym12 a b H)) as [[= -> ->]|]; done. }
    destruct (decide ((u', v') ∈ l1 ++ l2)) as [Hin|Hin].
    + assert (has_card (described true l') (N.of_nat (length (l1 ++ l2)))) as H2.
      { exists (l1 ++ l2). split_and!; [done| |done]. intros [a b]. unfold described. simpl.
        rewrite !Hl'. split; [by left; right|].
        intros [[[= -> ->]|H]|[_ [[= -> ->]|H]]]; [done|done|by apply Hs|by apply Hs]. }
      pose proof (has_card_unique _ _ _ Hcard H2). lia.
    + assert (has_card (described true l') (N.of_nat (length ((u', v') :: (v', u') :: l1 ++ l2)))) as H2.
      { exists ((u', v') :: (v', u') :: l1 ++ l2). split_and!; [| |done].
        - constructor; [|constructor; [|done]].
          + intros [[= ? ?]|H]%elem_of_cons; [congruence|done].
          + intros H. by apply Hs in H.
        - intros [a b]. unfold described. simpl. rewrite !Hl', !elem_of_cons. split.
          + intros [H|[[= -> ->]|H]]; [by left; left|by right; split; [|left]|by left; right].
          + intros [[H|H]|[_ [[= -> ->]|H]]]; [by left|by right; right|by right; left|].
            right. right. by apply Hs. }
      pose proof (has_card_unique _ _ _ Hcard H2) as E. simpl in E. lia.
  - (* an edge between two vertices: its mirror still describes it *)
    assert ((v, u) ∈ l1 ++ l2) as Hmir.
    { assert ((v, u) ∈ l) as H by (apply Hsym, Hl; by left).
      apply Hl in H as [[= E _]|H]; [congruence|done]. }
    destruct Hcard as (L & HndL & HL & HlenL).
    assert (forall x, x ∈ l -> x ∈ L) as Hsub.
    { intros [a b]. rewrite Hl, HL. unfold described. simpl. rewrite !Hl'.
      intros [[= -> ->]|H]; [right; split; [done|by right]|left; by right]. }
    assert (l ≡ₚ L) as Hperm.
    { apply submseteq_Permutation_length_eq; [|by apply NoDup_submseteq].
      assert (length l = S (length (l1 ++ l2))) by (unfold l; by rewrite <- Permutation_middle). lia. }
    intros x. by rewrite Hperm, HL.
Qed.

(** The same for directed lists. *)
Lemma changed_pair_dir l1 l2 e e' : let l := l1 ++ e :: l2 in let l' := l1 ++ e' :: l2 in
  NoDup l -> e <> e' -> has_card (described false l') (N.of_nat (length l')) ->
  e ∈ l /\ e' ∉ l /\ forall x, described false l' x <-> (x ∈ l /\ x <> e) \/ x = e'.
Proof.
  intros l l' Hnd Hne Hcard.
  assert (NoDup (l1 ++ l2) /\ e ∉ l1 ++ l2) as [Hnd12 Hnin].
  { unfold l in Hnd. rewrite <- Permutation_middle in Hnd. by apply NoDup_cons in Hnd as [? ?]. }
  assert (forall x, x ∈ l <-> x = e \/ x ∈ l1 ++ l2) as Hl.
  { intros x. unfold l. rewrite <- Permutation_middle. apply elem_of_cons. }
  assert (forall x, x ∈ l' <-> x = e' \/ x ∈ l1 ++ l2) as Hl'.
  { intros x. unfold l'. rewrite <- Permutation_middle. apply elem_of_cons. }
  assert (length l' = S (length (l1 ++ l2))) as Hlen.
  { unfold l'. rewrite <- Permutation_middle. done. }
  assert (forall x, described false l' x <-> x ∈ l') as Hd by (intros x; unfold described; naive_solver).
  split; [apply Hl; by left|]. split.
  - rewrite Hl. intros [?|Hin]; [congruence|].
    assert (has_card (described false l') (N.of_nat (length (l1 ++ l2)))) as H2.
    { exists (l1 ++ l2). split_and!; [done| |done]. intros x. rewrite Hd, Hl'. naive_solver. }
    pose proof (has_card_unique _ _ _ Hcard H2). lia.
  - intros x. rewrite Hd, Hl', Hl. split; [|naive_solver].
    intros [->|H]; [by right|]. left. split; [by right|]. by intros ->.
Qed.

(** ** C97 *)

(** Damage can be described by any larger part of the file: a changed byte is a changed field. *)
Theorem C97_wider a len b len' bytes bytes' : damaged a len bytes bytes' ->
  (b <= a -> a + len <= b + len' -> b + len' <= length bytes -> damaged b len' bytes bytes')%nat.
Proof.
  intros (x & y & y' & z & -> & -> & <- & Hy & Hy' & Hne) H1 H2 H3. rewrite !app_length in H3.
  exists (take b x), (drop b x ++ y ++ take (b + len' - length x - len) z),
    (drop b x ++ y' ++ take (b + len' - length x - len) z), (drop (b + len' - length x - len) z).
  split_and!.
  - rewrite <- !app_assoc, (app_assoc (take b x)), !take_drop. done.
  - rewrite <- !app_assoc, (app_assoc (take b x)), !take_drop. done.
  - rewrite take_length. lia.
  - rewrite !app_length, drop_length, take_length. lia.
  - rewrite !app_length, drop_length, take_length. lia.
  - intros E. apply app_inj_len in E as [_ E]; [|done]. apply app_inj_len in E as [E _]; [done|lia].
Qed.
Print Assumptions C97_wider.

(** Any damage to the magic number, the version, the edge count or the last byte of the header
    of a graph file is detected. *)
Theorem C97_graph_fixed p bytes bytes' g a len : wf_platform p -> is_slice p bytes -> is_slice p bytes' ->
  graph_try_from p bytes = Ret (Ok g) -> damaged a len bytes bytes' ->
  (a + len <= 8 \/ (16 <= a /\ a + len <= 24) \/ (a = 25 /\ len = 1))%nat ->
  exists msg, graph_try_from p bytes' = Ret (Err (InvalidFormat msg)).
Proof.
  intros Hp Hs Hs' Hok D Ha.
  destruct (C18_graph_decoding p bytes Hp Hs) as (res & E & H). rewrite Hok in E. injection E as <-.
  destruct H as (und & n & l & Ef & Hv & _).
  destruct (C18_graph_decoding p bytes' Hp Hs') as ([g'|e] & E' & H').
  2: { destruct H' as [[msg ->] _]. eauto. }
  exfalso. destruct H' as (und' & n' & l' & Ef' & Hv' & _). subst.
  apply graph_damage in D; [|apply Hv|apply Hv'|by eapply valid_u64|by eapply valid_u64]. lia.
Qed.
Print Assumptions C97_graph_fixed.

(** What a graph of the program is written as. *)
Lemma written p o g bytes k : wf_platform p -> reach p g ->
  has_card (fun '(u, v) => does_edge_exist g u v = true) k -> k < two64 ->
  graph_to_bytes p o g = Ok bytes ->
  exists l, bytes = graph_file (is_undirected g) (vertex_count g) (N.of_nat (length l)) l /\
    NoDup l /\ (forall u v, (u, v) ∈ l <-> does_edge_exist g u v = true) /\
    vertex_count g < two64 /\ (forall u v, (u, v) ∈ l -> u < vertex_count g /\ v < vertex_count g) /\
    N.of_nat (length l) = k.
Proof.
  intros Hp Hr Hk Hk64 Hb. pose proof (C17_graph_layout p o g k Hp Hr Hk Hk64) as H.
  destruct (_ && _); [|destruct H as [msg H]; congruence].
  destruct H as (bytes' & l & E & -> & Hnd & Hl & Hlen). rewrite Hb in E. injection E as ->.
  apply reach_inv in Hr; [|done].
  assert (N.of_nat (length l) = k) as El.
  { eapply has_card_unique; [apply (has_card_list l Hnd)|]. eapply has_card_ext; [|exact Hk].
    intros [u v]. by rewrite Hl. }
  exists l. rewrite El. split_and!; [done|done|done|by apply vc_u64| |done].
  intros u v H. by apply Hl, exists_has, has_bound in H.
Qed.

(** A damaged flag of a written graph is detected, except that a graph whose edges all go both
    ways is read as a graph of the other kind, with the same edges. *)
Theorem C97_graph_flag p p' o g bytes bytes' k : wf_platform p -> wf_platform p' -> reach p g ->
  has_card (fun '(u, v) => does_edge_exist g u v = true) k -> k < two64 ->
  graph_to_bytes p o g = Ok bytes -> is_slice p' bytes' -> damaged 24 1 bytes bytes' ->
  exists res, graph_try_from p' bytes' = Ret res /\
  match res with
  | Ok g' => is_undirected g' = negb (is_undirected g) /\ vertex_count g' = vertex_count g /\
      edge_count g' = edge_count g /\
      (forall u v, does_edge_exist g' u v = does_edge_exist g u v) /\
      (forall u v, does_edge_exist g u v = does_edge_exist g v u)
  | Err _ => (exists b, bytes' !! 24%nat = Some b /\ 1 < b) \/
      exists u v, does_edge_exist g u v = true /\ does_edge_exist g v u = false
  end.
Proof.
  intros Hp Hp' Hr Hk Hk64 Hb Hs' D.
  destruct (written p o g bytes k Hp Hr Hk Hk64 Hb) as (l & Ef & Hnd & Hl & Hn & Hids & Hlen).
  assert (Forall (fun '(u, v) => u < two64 /\ v < two64) l) as Hl64.
  { apply Forall_forall. intros [u v] H. apply Hids in H. lia. }
  assert (edge_count g = N.of_nat (length l)) as Hec.
  { apply reach_inv in Hr; [|done]. rewrite (edge_count_card g k Hr Hk), Hlen. by apply N.mod_small. }
  destruct (C18_graph_decoding p' bytes' Hp' Hs') as (res & E & H). exists res. split; [done|].
  destruct res as [g'|e].
  - destruct H as (und' & n' & l' & Ef' & Hv & Hu & Hvc & Hec' & He). subst bytes bytes'.
    apply graph_damage in D; [|done|apply Hv|done|by eapply valid_u64].
    destruct D as (_ & _ & _ & _ & D & _). destruct (D eq_refl eq_refl) as (<- & Hne & <-).
    assert (forall x, described und' l x <-> x ∈ l) as Hdesc.
    { destruct (vg_edges _ _ _ Hv) as (L & HndL & HL & HlenL).
      assert (l ≡ₚ L) as Hperm.
      { apply submseteq_Permutation_length_eq; [lia|]. apply NoDup_submseteq; [done|].
        intros x Hx. apply HL. by left. }
      intros x. by rewrite <- HL, Hperm. }
    assert (forall u v, does_edge_exist g' u v = does_edge_exist g u v) as Hsame.
    { intros u v. apply eq_true_iff_eq. by rewrite He, Hdesc, Hl. }
    split_and!; [|done|congruence|done|].
    + rewrite Hu. by destruct und', (is_undirected g).
    + intros u v. destruct (is_undirected g) eqn:Eu.
      * apply reach_inv in Hr; [|done]. apply eq_true_iff_eq. rewrite !exists_has.
        split; by apply (gi_sym g Hr).
      * destruct und'; [|done]. apply eq_true_iff_eq. rewrite <- !Hl.
        split; intros H; apply Hdesc; right; done.
  - destruct H as [_ Hno]. destruct D as (x & y & y' & z & E1 & E2 & Hx & Hy & Hy' & Hne).
    destruct y as [|c [|]]; try done. destruct y' as [|c' [|]]; try done.
    assert (bytes' !! 24%nat = Some c') as Hc.
    { rewrite E2, lookup_app_r by lia. by rewrite Hx. }
    destruct (N.le_gt_cases c' 1) as [Hc1|Hc1]; [|left; eauto].
    right. rewrite Ef, graph_fields in E1.
    change ([0x7a; 0xe7; 0x1f; 0xfd; 0; 0; 0; 1] ++ be64 (vertex_count g) ++ be64 (N.of_nat (length l)) ++
      [flag (is_undirected g)] ++ [0] ++ enc_pairs l) with
      (([0x7a; 0xe7; 0x1f; 0xfd; 0; 0; 0; 1] ++ be64 (vertex_count g) ++ be64 (N.of_nat (length l))) ++
      [flag (is_undirected g)] ++ [0] ++ enc_pairs l) in E1.
    apply app_inj_len in E1 as [<- E1]; [|by rewrite Hx]. injection E1 as <- <-.
    assert (exists und', c' = flag und' /\ und' = negb (is_undirected g)) as (und' & -> & Eu).
    { assert (c' = 0 \/ c' = 1) as [-> | ->] by lia.
      - exists false. split; [done|]. destruct (is_undirected g); done.
      - exists true. split; [done|]. destruct (is_undirected g); done. }
    assert (~ valid_graph_file und' (vertex_count g) l) as Hnv by (by apply Hno).
    destruct (decide (Forall (fun e => (e.2, e.1) ∈ l) l)) as [Hf|Hf].
    { exfalso. apply Hnv. constructor; [done|done|]. exists l. split_and!; [done| |done].
      intros [u v]. unfold described. simpl. split; [by left|]. intros [H|[_ H]]; [done|].
      rewrite Forall_forall in Hf. by apply Hf in H. }
    apply not_Forall_Exists in Hf; [|apply _]. apply Exists_exists in Hf as ([u v] & Hin & Hnot).
    simpl in Hnot. exists u, v. split; [by apply Hl|].
    destruct (does_edge_exist g v u) eqn:Ev; [|done]. by apply Hl in Ev.
Qed.
Print Assumptions C97_graph_flag.

(** A damaged vertex count is detected exactly when it is too small for an edge; otherwise the
    edges are the same. *)
Theorem C97_graph_vertices p bytes bytes' g : wf_platform p -> is_slice p bytes -> is_slice p bytes' ->
  graph_try_from p bytes = Ret (Ok g) -> damaged 8 8 bytes bytes' ->
  exists n', is_u64 n' /\ n' <> vertex_count g /\ take 8 (drop 8 bytes') = be64 n' /\
  exists res, graph_try_from p bytes' = Ret res /\
  match res with
  | Ok g' => is_undirected g' = is_undirected g /\ vertex_count g' = n' /\
      edge_count g' = edge_count g /\
      (forall u v, does_edge_exist g' u v = does_edge_exist g u v)
  | Err _ => exists u v, does_edge_exist g u v = true /\ (n' <= u \/ n' <= v)
  end.
Proof.
  intros Hp Hs Hs' Hok D.
  destruct (C18_graph_decoding p bytes Hp Hs) as (res & E & H). rewrite Hok in E. injection E as <-.
  destruct H as (und & n & l & Ef & Hv & Hu & Hvc & Hec & He).
  pose proof D as (x & y & y' & z & E1 & E2 & Hx & Hy & Hy' & Hne).
  exists (from_be_bytes y').
  assert (Forall is_byte y') as Hyb.
  { destruct Hs' as [Hs' _]. rewrite E2 in Hs'. apply Forall_app in Hs' as [_ Hs'].
    by apply Forall_app in Hs' as [? _]. }
  assert (be64 (from_be_bytes y') = y') as Ey by by apply be64_from.
  rewrite Ef, graph_fields in E1. apply app_inj_len in E1 as [<- E1]; [|by rewrite Hx].
  apply app_inj_len in E1 as [<- <-]; [|by rewrite Hy].
  assert (is_u64 (from_be_bytes y')) as Hn'.
  { unfold is_u64. pose proof (from_be_lt y' Hyb) as Hbd. rewrite Hy' in Hbd. exact Hbd. }
  assert (from_be_bytes y' <> n) as Hnn by (intros En; rewrite <- En in Hne; congruence).
  split; [done|]. split; [congruence|]. split.
  { rewrite E2, Ey, drop_app_alt by done. by apply take_app_alt. }
  destruct (C18_graph_decoding p bytes' Hp Hs') as (res & E & H). exists res. split; [done|].
  set (n' := from_be_bytes y') in *. clearbody n'. subst y'.
  assert (bytes' = graph_file und n' (N.of_nat (length l)) l) as Ef' by done.
  destruct res as [g'|e].
  - destruct H as (und2 & n2 & l2 & Ef2 & Hv2 & Hu2 & Hvc2 & Hec2 & He2).
    rewrite Ef' in Ef2. assert (length l = length l2) as Hll.
    { apply (f_equal length) in Ef2. rewrite !length_graph_file in Ef2. lia. }
    assert (N.of_nat (length l) < two64) as Hl64.
    { eapply (good_file_len und n l p Hp). by rewrite <- Ef. }
    apply graph_file_inj in Ef2 as (<- & <- & _ & <-);
      [|done|apply Hv2|done|by rewrite <- Hll|by eapply valid_u64|by eapply valid_u64].
    split_and!; [congruence|done|congruence|]. intros u v. apply eq_true_iff_eq. by rewrite He2, He.
  - destruct H as [_ Hno]. specialize (Hno und n' l Ef').
    destruct (decide (Forall (fun e => e.1 < n' /\ e.2 < n') l)) as [Hf|Hf].
    { exfalso. apply Hno. constructor; [done| |apply Hv].
      intros u v Hin. rewrite Forall_forall in Hf. exact (Hf _ Hin). }
    apply not_Forall_Exists in Hf; [|apply _]. apply Exists_exists in Hf as ([u v] & Hin & Hnot).
    simpl in Hnot. exists u, v. split; [apply He; by left|]. lia.
Qed.
Print Assumptions C97_graph_vertices.

(** One changed id in the file of a written graph. An undirected graph lists every edge between two
    vertices both ways: the changed file is refused or gives the same graph. For a directed graph it
    is refused or exactly one edge is replaced by an edge the graph does not have. *)
Theorem C97_graph_record p p' o g bytes bytes' k i : wf_platform p -> wf_platform p' -> reach p g ->
  has_card (fun '(u, v) => does_edge_exist g u v = true) k -> k < two64 ->
  graph_to_bytes p o g = Ok bytes -> is_slice p' bytes' -> damaged (26 + 8 * i) 8 bytes bytes' ->
  exists res, graph_try_from p' bytes' = Ret res /\
  match res with
  | Ok g' => if is_undirected g then same_graph g' g
      else is_undirected g' = false /\ vertex_count g' = vertex_count g /\ edge_count g' = edge_count g /\
        exists e e', does_edge_exist g e.1 e.2 = true /\ does_edge_exist g e'.1 e'.2 = false /\
          (e.1 = e'.1 \/ e.2 = e'.2) /\
          forall u v, does_edge_exist g' u v = true <->
            (does_edge_exist g u v = true /\ (u, v) <> e) \/ (u, v) = e'
  | Err e => exists msg, e = InvalidFormat msg
  end.
Proof.
  intros Hp Hp' Hr Hk Hk64 Hb Hs' D.
  destruct (written p o g bytes k Hp Hr Hk Hk64 Hb) as (l & Ef & Hnd & Hl & Hn & Hids & Hlen).
  assert (Forall (fun '(u, v) => u < two64 /\ v < two64) l) as Hl64.
  { apply Forall_forall. intros [u v] H. apply Hids in H. lia. }
  assert (edge_count g = N.of_nat (length l)) as Hec.
  { apply reach_inv in Hr; [|done]. rewrite (edge_count_card g k Hr Hk), Hlen. by apply N.mod_small. }
  destruct (C18_graph_decoding p' bytes' Hp' Hs') as (res & E & H). exists res. split; [done|].
  destruct res as [g'|e]; [|apply H].
  destruct H as (und' & n' & l' & Ef' & Hv & Hu & Hvc & Hec' & He). subst bytes bytes'.
  apply graph_damage in D; [|done|apply Hv|done|by eapply valid_u64].
  destruct D as (Hll & _ & _ & _ & _ & _ & D).
  destruct D as (<- & <- & D); [lia|].
  replace (26 + 8 * i - 26)%nat with (8 * i)%nat in D by lia.
  apply damaged_pair in D; [|done|by eapply valid_u64].
  assert (exists l1 l2 e e', l = l1 ++ e :: l2 /\ l' = l1 ++ e' :: l2 /\ e <> e' /\
    (e.1 = e'.1 \/ e.2 = e'.2)) as (l1 & l2 & e & e' & El & El' & Hne & Hone).
  { destruct D as (l1 & l2 & u & v & w & w' & Hw & [[-> ->]|[-> ->]]);
      [exists l1, l2, (w, v), (w', v)|exists l1, l2, (u, w), (u, w')];
      (split_and!; [done|done|congruence|simpl; auto]). }
  pose proof (vg_edges _ _ _ Hv) as Hcard. rewrite El' in Hcard.
  destruct (is_undirected g) eqn:Eu.
  - split_and!; [congruence|done|congruence|]. intros u v. apply eq_true_iff_eq.
    rewrite He, El'. rewrite (changed_pair_und l1 l2 e e'); [by rewrite <- El, Hl| | |done|done|done].
    + by rewrite <- El.
    + rewrite <- El. intros a b. rewrite !Hl, !exists_has. apply reach_inv in Hr; [|done].
      by apply (gi_sym g Hr).
  - split_and!; [done|done|congruence|]. rewrite El in Hnd.
    destruct (changed_pair_dir l1 l2 e e' Hnd Hne Hcard) as (H1 & H2 & H3).
    rewrite <- El in H1, H2. exists e, e'. split_and!; [| |done|].
    + apply Hl. by destruct e.
    + destruct (does_edge_exist g e'.1 e'.2) eqn:Ee; [|done]. apply Hl in Ee. by destruct e'.
    + intros u v. by rewrite He, El', H3, <- El, Hl.
Qed.
Print Assumptions C97_graph_record.

(** ** Compressed graphs *)

(** Any damage to the magic number, the version, the size, the number of entries or the edge count
    of a compressed graph's file is detected. *)
Theorem C97_cgraph_fixed p bytes bytes' cg a len : wf_platform p -> is_slice p bytes -> is_slice p bytes' ->
  cgraph_try_from p bytes = Ret (Ok cg) -> damaged a len bytes bytes' ->
  (a + len <= 8 \/ (8 <= a /\ a + len <= 16) \/ (16 <= a /\ a + len <= 24) \/
    (24 <= a /\ a + len <= 32))%nat ->
  exists msg, cgraph_try_from p bytes' = Ret (Err (InvalidFormat msg)).
Proof.
  intros Hp Hs Hs' Hok D Ha.
  destruct (C32_cgraph_decoding p bytes Hp Hs) as (res & E & H). rewrite Hok in E. injection E as <-.
  destruct H as (und & n & level & l & Ef & Hv & _).
  destruct (C32_cgraph_decoding p bytes' Hp Hs') as ([g'|e] & E' & H').
  2: { destruct H' as [[msg ->] _]. eauto. }
  exfalso. destruct H' as (und' & n' & level' & l' & Ef' & Hv' & _). subst.
  apply cgraph_damage in D; [|apply Hv|apply Hv'|by eapply cvalid_u64|by eapply cvalid_u64|apply Hv|apply Hv'].
  lia.
Qed.
Print Assumptions C97_cgraph_fixed.

(** Damage to one of the remaining fields of the header: if the file is still accepted, then only
    what the field is for has changed. *)
Theorem C97_cgraph_header p bytes bytes' cg cg' a len : wf_platform p ->
  is_slice p bytes -> is_slice p bytes' ->
  cgraph_try_from p bytes = Ret (Ok cg) -> cgraph_try_from p bytes' = Ret (Ok cg') ->
  damaged a len bytes bytes' -> (32 <= a /\ a + len <= 40 \/ (a = 40 \/ a = 41) /\ len = 1)%nat ->
  c_edge_count cg' = c_edge_count cg /\
  (forall c r, get_compressed_matrix_entry cg' c r = get_compressed_matrix_entry cg c r) /\
  (forall u v, c_does_edge_exist cg' u v = c_does_edge_exist cg u v) /\
  (c_vertex_count cg' = c_vertex_count cg <-> (40 <= a)%nat) /\
  blocks_of (c_vertex_count cg') = blocks_of (c_vertex_count cg) /\
  (c_is_undirected cg' = c_is_undirected cg <-> a <> 40%nat) /\
  (compression_level cg' = compression_level cg <-> a <> 41%nat).
Proof.
  intros Hp Hs Hs' Hok Hok' D Ha.
  destruct (C32_cgraph_decoding p bytes Hp Hs) as (res & E & H). rewrite Hok in E. injection E as <-.
  destruct H as (und & n & level & l & Ef & Hv & Hu & Hn & Hle & Hec & He & Hx).
  destruct (C32_cgraph_decoding p bytes' Hp Hs') as (res & E' & H'). rewrite Hok' in E'. injection E' as <-.
  destruct H' as (und' & n' & level' & l' & Ef' & Hv' & Hu' & Hn' & Hle' & Hec' & He' & Hx').
  rewrite Ef, Ef' in D.
  pose proof (damaged_pos _ _ _ _ D) as Hpos.
  apply cgraph_damage in D; [|apply Hv|apply Hv'|by eapply cvalid_u64|by eapply cvalid_u64|apply Hv|apply Hv'].
  destruct D as (_ & _ & _ & _ & _ & D1 & D2 & D3 & _).
  rewrite Hu, Hu', Hn, Hn', Hle, Hle', Hec, Hec'.
  destruct Ha as [[Ha1 Ha2]|[[-> | ->] ->]].
  - destruct (D1 Ha1 Ha2) as (Hne & Hbl & <- & <- & <-). split_and!; [done| | | |done| |].
    + intros c r. by rewrite He, He'.
    + intros u v. by rewrite Hx, Hx'.
    + split; [congruence|lia].
    + split; [lia|done].
    + split; [lia|done].
  - destruct (D2 eq_refl eq_refl) as (<- & Hne & <- & <-). split_and!; [done| | | |done| |].
    + intros c r. by rewrite He, He'.
    + intros u v. by rewrite Hx, Hx'.
    + split; [lia|done].
    + split; [congruence|done].
    + split; [lia|done].
  - destruct (D3 eq_refl eq_refl) as (<- & <- & Hne & <-). split_and!; [done| | | |done| |].
    + intros c r. by rewrite He, He'.
    + intros u v. by rewrite Hx, Hx'.
    + split; [lia|done].
    + split; [lia|done].
    + split; [congruence|done].
Qed.
Print Assumptions C97_cgraph_header.

(** Every other direction flag and every other level from 1 to 64 is accepted. *)
Theorem C97_cgraph_flag_level p bytes bytes' cg a b : wf_platform p -> is_slice p bytes -> is_slice p bytes' ->
  cgraph_try_from p bytes = Ret (Ok cg) -> damaged a 1 bytes bytes' -> bytes' !! a = Some b ->
  (a = 40 \/ a = 41)%nat ->
  if (if (a =? 40)%nat then b <=? 1 else (1 <=? b) && (b <=? 64))
  then exists cg', cgraph_try_from p bytes' = Ret (Ok cg')
  else exists msg, cgraph_try_from p bytes' = Ret (Err (InvalidFormat msg)).
Proof.
  intros Hp Hs Hs' Hok D Hb Ha.
  destruct (C32_cgraph_decoding p bytes Hp Hs) as (res & E & H). rewrite Hok in E. injection E as <-.
  destruct H as (und & n & level & l & Ef & Hv & _).
  pose proof D as (x & y & y' & z & E1 & E2 & Hx & Hy & Hy' & Hne).
  destruct y as [|c [|]]; try done. destruct y' as [|c' [|]]; try done.
  assert (c' = b) as ->.
  { rewrite E2, lookup_app_r in Hb by lia. rewrite Hx, Nat.sub_diag in Hb. by injection Hb. }
  destruct (C32_cgraph_decoding p bytes' Hp Hs') as (res & E' & H').
  set (hd := [0x71; 0xff; 0x7a; 0xed] ++ [0; 0; 0; 2] ++ be64 (blocks_of n) ++ be64 (N.of_nat (length l)) ++
    be64 (popcount_total l) ++ be64 n).
  assert (forall und level, cgraph_file und (blocks_of n) (N.of_nat (length l)) (popcount_total l) n level l =
    hd ++ [flag und] ++ [level] ++ enc_triples l) as Hfile by done.
  rewrite Ef, Hfile in E1.
  assert (length hd = 40%nat) as Hhd by done.
  assert (exists und' level', (if (a =? 40)%nat then level' = level /\ (b <= 1 -> b = flag und') else
     und' = und /\ level' = b) /\ (bytes' = hd ++ [if (a =? 40)%nat then b else flag und'] ++ [level'] ++ enc_triples l))
    as (und' & level' & Hul & Eb').
  { destruct Ha as [-> | ->].
    - apply app_inj_len in E1 as [<- E1]; [|by rewrite Hx]. injection E1 as <- <-.
      exists (b =? 1), level. simpl. split; [|done]. split; [done|]. intros Hb1.
      assert (b = 0 \/ b = 1) as [-> | ->] by lia; done.
    - assert (x = hd ++ [flag und]) as ->.
      { rewrite app_assoc in E1. apply app_inj_len in E1 as [<- _]; [done|]. by rewrite Hx, app_length, Hhd. }
      rewrite <- app_assoc in E1. apply app_inv_head in E1. injection E1 as <- <-.
      exists und, b. split; [done|]. rewrite E2, <- app_assoc. done. }
  destruct (if (a =? 40)%nat then b <=? 1 else (1 <=? b) && (b <=? 64)) eqn:Ec.
  - destruct res as [cg'|e]; [eauto|]. exfalso. destruct H' as [_ Hno].
    apply (Hno und' n level' l).
    + rewrite Hfile, Eb'. destruct Ha as [-> | ->]; simpl in Ec, Hul |- *.
      * destruct Hul as [-> Hbf]. apply N.leb_le in Ec. by rewrite <- Hbf.
      * done.
    + destruct Hv as [V1 V2 V3 V4 V5 V6]. constructor; try done.
      destruct Ha as [-> | ->]; simpl in Ec, Hul.
      * by destruct Hul as [-> _].
      * destruct Hul as [_ ->]. apply andb_true_iff in Ec as [Ea Eb]. apply N.leb_le in Ea, Eb. lia.
  - destruct res as [cg'|e]; [|destruct H' as [[msg ->] _]; eauto]. exfalso.
    destruct H' as (und2 & n2 & level2 & l2 & Ef2 & Hv2 & _).
    rewrite E2, <- E2, Eb' in Ef2.
    change (hd ++ [if (a =? 40)%nat then b else flag und'] ++ [level'] ++ enc_triples l =
      ([0x71; 0xff; 0x7a; 0xed] ++ [0; 0; 0; 2] ++ be64 (blocks_of n2) ++ be64 (N.of_nat (length l2)) ++
       be64 (popcount_total l2) ++ be64 n2) ++ [flag und2] ++ [level2] ++ enc_triples l2) in Ef2.
    apply app_inj_len in Ef2 as [_ Ef2]; [|done]. injection Ef2 as Eq1 Eq2 _.
    destruct Ha as [-> | ->]; simpl in Ec, Hul, Eq1.
    + subst b. by destruct und2.
    + destruct Hul as [_ ->]. subst level2. pose proof (vc_level _ _ _ Hv2).
      apply andb_false_iff in Ec as [Ec|Ec]; apply N.leb_gt in Ec; lia.
Qed.
Print Assumptions C97_cgraph_flag_level.

(** The 8-byte number at a position of the file. *)
Definition number_at (i : nat) (bytes : list N) : N := from_be_bytes (take 8 (drop i bytes)).

Lemma last_word_app l1 l2 c r :
  last_word (l1 ++ l2) c r =
  fold_left (fun acc '(w, c', r') => if (c =? c') && (r =? r') then w else acc) l2 (last_word l1 c r).
Proof. unfold last_word. by rewrite fold_left_app. Qed.

Lemma popcount_total_app l1 l2 : popcount_total (l1 ++ l2) = popcount_total l1 + popcount_total l2.
Proof.
  unfold popcount_total. induction l1 as [|[[w c] r] l1 IH]; [done|]. simpl. rewrite IH. lia.
Qed.

Lemma last_word_other l1 l2 t t' c r : (c, r) <> (t.1.2, t.2) -> (c, r) <> (t'.1.2, t'.2) ->
  last_word (l1 ++ t :: l2) c r = last_word (l1 ++ t' :: l2) c r.
Proof.
  intros H H'. rewrite !last_word_app. destruct t as [[w a] b], t' as [[w' a'] b']. simpl in *.
  assert ((c =? a) && (r =? b) = false) as ->.
  { apply andb_false_iff. destruct (N.eqb_spec c a), (N.eqb_spec r b); try by auto. congruence. }
  assert ((c =? a') && (r =? b') = false) as ->.
  { apply andb_false_iff. destruct (N.eqb_spec c a'), (N.eqb_spec r b'); try by auto. congruence. }
  done.
Qed.

(** One changed number in an entry. If the file is still accepted, then the header says the same and
    at most two blocks differ; when the word has changed it has as many set bits as before, and only
    its block can differ. *)
Theorem C97_cgraph_entry p bytes bytes' cg cg' i : wf_platform p -> is_slice p bytes -> is_slice p bytes' ->
  cgraph_try_from p bytes = Ret (Ok cg) -> cgraph_try_from p bytes' = Ret (Ok cg') ->
  damaged (42 + 8 * i) 8 bytes bytes' ->
  c_is_undirected cg' = c_is_undirected cg /\ c_vertex_count cg' = c_vertex_count cg /\
  compression_level cg' = compression_level cg /\ c_edge_count cg' = c_edge_count cg /\
  exists c r c' r',
    (forall a b, (a, b) <> (c, r) -> (a, b) <> (c', r') ->
       get_compressed_matrix_entry cg' a b = get_compressed_matrix_entry cg a b) /\
    match (i mod 3)%nat with
    | 0%nat => (c, r) = (c', r') /\
        popcount (number_at (42 + 8 * i) bytes') = popcount (number_at (42 + 8 * i) bytes)
    | 1%nat => c <> c' /\ r = r'
    | _ => c = c' /\ r <> r'
    end.
Proof.
  intros Hp Hs Hs' Hok Hok' D.
  destruct (C32_cgraph_decoding p bytes Hp Hs) as (res & E & H). rewrite Hok in E. injection E as <-.
  destruct H as (und & n & level & l & Ef & Hv & Hu & Hn & Hle & Hec & He & Hx).
  destruct (C32_cgraph_decoding p bytes' Hp Hs') as (res & E' & H'). rewrite Hok' in E'. injection E' as <-.
  destruct H' as (und' & n' & level' & l' & Ef' & Hv' & Hu' & Hn' & Hle' & Hec' & He' & Hx').
  pose proof (cvalid_u64 _ _ _ Hv) as Hl64. pose proof (cvalid_u64 _ _ _ Hv') as Hl64'.
  rewrite Ef, Ef' in D.
  apply cgraph_damage in D; [|apply Hv|apply Hv'|done|done|apply Hv|apply Hv'].
  destruct D as (Hll & _ & _ & _ & _ & _ & _ & _ & D).
  destruct D as (<- & <- & <- & Hpc & D); [lia|].
  replace (42 + 8 * i - 42)%nat with (8 * i)%nat in D by lia.
  split_and!; [congruence|congruence|congruence|congruence|].
  destruct D as (x & y & y' & z & E1 & E2 & Hlx & Hy & Hy' & Hne).
  rewrite enc_triple_words in E1, E2.
  assert (forall m, Forall (fun '(w, c, r) => w < two64 /\ c < two64 /\ r < two64) m ->
    Forall (fun w => w < two64) (triple_words m)) as Hw.
  { clear. intros m H. apply Forall_forall. intros w Hin. unfold triple_words in Hin.
    apply elem_of_list_bind in Hin as ([[a b] c] & Hin & Hm). rewrite Forall_forall in H.
    apply H in Hm as (? & ? & ?). apply elem_of_cons in Hin as [->|Hin]; [done|].
    apply elem_of_cons in Hin as [->|Hin]; [done|]. apply elem_of_list_singleton in Hin as ->. done. }
  destruct (one_word i _ _ x y y' z (Hw _ Hl64) (Hw _ Hl64') E1 E2 Hlx Hy Hy')
    as (a & w & w' & b & W1 & W2 & Ha & Ey & Ey').
  assert (w <> w') as Hww by congruence.
  destruct (one_triple _ _ _ _ _ _ W1 W2) as (l1 & l2 & t & t' & El & El' & Ht).
  rewrite Ha in Ht. exists t.1.2, t.2, t'.1.2, t'.2. split.
  { intros c r H1 H2. rewrite He, He', El, El'. symmetry. by apply last_word_other. }
  destruct (i mod 3)%nat as [|[|]].
  - destruct Ht as (Ht1 & Ht2 & Ht3 & Ht4). split; [congruence|].
    assert (forall bs und level m x y z, bs = cgraph_file und (blocks_of n) (N.of_nat (length m)) (popcount_total m) n level m ->
      enc_words (triple_words m) = x ++ y ++ z -> length x = (8 * i)%nat -> length y = 8%nat ->
      number_at (42 + 8 * i) bs = from_be_bytes y) as Hnum.
    { clear. intros bs und level m x y z -> E Hx Hy. unfold number_at. f_equal.
      rewrite <- enc_triple_words in E.
      change (cgraph_file und (blocks_of n) (N.of_nat (length m)) (popcount_total m) n level m) with
        (([0x71; 0xff; 0x7a; 0xed] ++ [0; 0; 0; 2] ++ be64 (blocks_of n) ++ be64 (N.of_nat (length m)) ++
         be64 (popcount_total m) ++ be64 n ++ [flag und] ++ [level]) ++ enc_triples m).
      rewrite E, <- drop_drop, drop_app_alt by done. rewrite drop_app_alt by done.
      by apply take_app_alt. }
    rewrite (Hnum _ _ _ _ _ _ _ Ef E1 Hlx Hy), (Hnum _ _ _ _ _ _ _ Ef' E2 Hlx Hy'), Ey, Ey'.
    pose proof (Hw _ Hl64) as F1. pose proof (Hw _ Hl64') as F2. rewrite W1 in F1. rewrite W2 in F2.
    apply Forall_app in F1 as [_ F1]. apply Forall_app in F2 as [_ F2].
    destruct (Forall_cons_1 _ _ _ F1) as [F1' _]. destruct (Forall_cons_1 _ _ _ F2) as [F2' _].
    rewrite !from_be64 by done. rewrite El, El', !popcount_total_app in Hpc.
    destruct t as [[w0 c0] r0], t' as [[w0' c0'] r0']. simpl in *. subst. lia.
  - destruct Ht as (Ht1 & Ht2 & Ht3 & Ht4). split; congruence.
  - destruct Ht as (Ht1 & Ht2 & Ht3 & Ht4). split; congruence.
Qed.
Print Assumptions C97_cgraph_entry.

(** Bits of the eight bytes of a number. *)
Lemma be64_bit w q j : q < 8 -> j < 8 ->
  exists b, be64 w !! N.to_nat (7 - q) = Some b /\ N.testbit b j = N.testbit w (8 * q + j).
Proof.
  intros Hq Hj.
  assert (forall e, N.testbit (w / 2 ^ e mod 256) j = N.testbit w (e + j)) as Hb.
  { intros e. change 256 with (2 ^ 8). rewrite N.mod_pow2_bits_low by done.
    rewrite N.div_pow2_bits. f_equal. lia. }
  assert (q = 0 \/ q = 1 \/ q = 2 \/ q = 3 \/ q = 4 \/ q = 5 \/ q = 6 \/ q = 7) as Hc by lia.
  destruct Hc as [->|[->|[->|[->|[->|[->|[->| ->]]]]]]];
    (eexists; split; [reflexivity|]); try by rewrite Hb.
  change 256 with (2 ^ 8). by rewrite N.mod_pow2_bits_low.
Qed.

Lemma popcount_flip w w' m : m < 64 ->
  (forall i, i < 64 -> N.testbit w' i = xorb (N.testbit w i) (i =? m)) -> popcount w <> popcount w'.
Proof.
  assert (forall w w' m, m < 64 -> N.testbit w m = false ->
    (forall i, i < 64 -> N.testbit w' i = xorb (N.testbit w i) (i =? m)) -> popcount w' = popcount w + 1) as Hf.
  { clear. intros w w' m Hm Hw H. unfold popcount.
    assert (filter (fun i => N.testbit w' i = true) (range 64) ≡ₚ
      m :: filter (fun i => N.testbit w i = true) (range 64)) as ->; [|simpl; lia].
    apply NoDup_Permutation.
    - apply NoDup_filter, NoDup_range.
    - constructor; [|apply NoDup_filter, NoDup_range].
      intros [Hx _]%elem_of_list_filter. congruence.
    - intros x. rewrite elem_of_cons, !elem_of_list_filter, !elem_of_range. split.
      + intros [Hx Hlt]. rewrite H in Hx by done. destruct (N.eqb_spec x m) as [Ex|]; [by left|].
        right. by rewrite xorb_false_r in Hx.
      + intros [->|[Hx Hlt]].
        * split; [|done]. by rewrite H, Hw, N.eqb_refl by done.
        * split; [|done]. rewrite H, Hx by done. destruct (N.eqb_spec x m) as [Ex|]; [congruence|done]. }
  intros Hm H. destruct (N.testbit w m) eqn:Ew.
  - pose proof (Hf w' w m Hm) as E. rewrite E; [lia| |].
    + by rewrite H, Ew, N.eqb_refl by done.
    + intros i Hi. rewrite H by done. by destruct (N.testbit w i), (i =? m).
  - rewrite (Hf w w' m Hm Ew H). lia.
Qed.

(** Any single flipped bit in the word of an entry is detected. *)
Theorem C97_cgraph_bit p bytes cg i b j : wf_platform p -> is_slice p bytes ->
  cgraph_try_from p bytes = Ret (Ok cg) -> (42 <= i)%nat -> ((i - 42) mod 24 < 8)%nat ->
  bytes !! i = Some b -> j < 8 ->
  exists msg, cgraph_try_from p (<[i := N.lxor b (2 ^ j)]> bytes) = Ret (Err (InvalidFormat msg)).
Proof.
  intros Hp Hs Hok Hi Him Hb Hj.
  set (bytes' := <[i := N.lxor b (2 ^ j)]> bytes).
  assert (is_byte b) as Hbb.
  { destruct Hs as [Hs _]. rewrite Forall_forall in Hs. apply Hs. by eapply elem_of_list_lookup_2. }
  assert (is_byte (N.lxor b (2 ^ j))) as Hbx.
  { unfold is_byte in *. change 256 with (2 ^ 8) in *.
    destruct (N.eq_dec (N.lxor b (2 ^ j)) 0) as [->|Hnz]; [done|].
    apply N.log2_lt_pow2; [lia|]. eapply N.le_lt_trans; [apply N.log2_lxor|].
    rewrite N.log2_pow2 by lia. apply N.max_lub_lt; [|done].
    destruct (N.eq_dec b 0) as [->|]; [done|]. apply N.log2_lt_pow2; lia. }
  assert (is_slice p bytes') as Hs'.
  { destruct Hs as [Hs1 Hs2]. unfold bytes'. split; [by apply Forall_insert|by rewrite insert_length]. }
  destruct (C32_cgraph_decoding p bytes' Hp Hs') as ([cg'|e] & E' & H').
  2: { destruct H' as [[msg ->] _]. eauto. }
  exfalso. clear H'.
  (* the field of the byte *)
  set (q := ((i - 42) / 24)%nat). set (t := ((i - 42) mod 24)%nat).
  assert (i = 42 + 24 * q + t)%nat as Ei.
  { pose proof (Nat.div_mod (i - 42) 24). unfold q, t. lia. }
  assert (length bytes = 42 + 24 * (((length bytes) - 42) / 24))%nat as Hlen.
  { destruct (C32_cgraph_decoding p bytes Hp Hs) as (res & E & H). rewrite Hok in E. injection E as <-.
    destruct H as (und & n & level & l & Ef & _). rewrite Ef, cgraph_fields, !app_length, !length_be64,
      length_enc_triples. simpl length.
    replace (8 + (8 + (8 + (8 + (8 + (1 + (1 + 24 * length l)))))) - 42)%nat with (length l * 24)%nat by lia.
    rewrite Nat.div_mul by done. lia. }
  assert (i < length bytes)%nat as Hil by (by eapply lookup_lt_Some).
  assert (42 + 8 * (3 * q) + 8 <= length bytes)%nat as Hfit.
  { set (k := ((length bytes - 42) / 24)%nat) in *. lia. }
  assert (N.lxor b (2 ^ j) <> b) as Hxne.
  { intros E. assert (N.testbit (N.lxor b (2 ^ j)) j = N.testbit b j) as Ht by (by rewrite E).
    rewrite N.lxor_spec, N.pow2_bits_true in Ht. by destruct (N.testbit b j). }
  assert (damaged (42 + 8 * (3 * q)) 8 bytes bytes') as D.
  { apply (C97_wider i 1); [|lia|lia|done].
    exists (take i bytes), [b], [N.lxor b (2 ^ j)], (drop (S i) bytes).
    split_and!; [|by apply insert_take_drop| |done|done|congruence].
    - symmetry. by apply take_drop_middle.
    - rewrite take_length. lia. }
  destruct (C97_cgraph_entry p bytes bytes' cg cg' (3 * q) Hp Hs Hs' Hok E' D)
    as (_ & _ & _ & _ & c & r & c' & r' & _ & H).
  assert ((3 * q) mod 3 = 0)%nat as Em by (rewrite Nat.mul_comm; apply Nat.mod_mul; done).
  rewrite Em in H. destruct H as [_ Hpc]. unfold number_at in Hpc.
  set (a := (42 + 8 * (3 * q))%nat) in *.
  assert (i = a + t)%nat as Eia by (unfold a; lia).
  assert (Forall is_byte bytes) as Hby by apply Hs.
  assert (Forall is_byte bytes') as Hby' by apply Hs'.
  assert (length (take 8 (drop a bytes)) = 8%nat) as L1 by (rewrite take_length, drop_length; lia).
  assert (length (take 8 (drop a bytes')) = 8%nat) as L2
    by (rewrite take_length, drop_length; unfold bytes'; rewrite insert_length; lia).
  pose proof (be64_from (take 8 (drop a bytes)) ltac:(by apply Forall_take, Forall_drop) L1) as B1.
  pose proof (be64_from (take 8 (drop a bytes')) ltac:(by apply Forall_take, Forall_drop) L2) as B2.
  symmetry in Hpc. revert Hpc.
  apply (popcount_flip _ _ (8 * (7 - N.of_nat t) + j)); [lia|].
  intros m Hm. set (q' := m / 8). set (j' := m mod 8).
  assert (m = 8 * q' + j') as Em' by apply N.div_mod'.
  assert (q' < 8) as Hq' by (apply N.div_lt_upper_bound; lia).
  assert (j' < 8) as Hj' by (apply N.mod_lt; lia).
  destruct (be64_bit (from_be_bytes (take 8 (drop a bytes))) q' j' Hq' Hj') as (b1 & Hb1 & T1).
  destruct (be64_bit (from_be_bytes (take 8 (drop a bytes'))) q' j' Hq' Hj') as (b2 & Hb2 & T2).
  rewrite <- Em' in T1, T2. rewrite <- T1, <- T2.
  rewrite B1, lookup_take, lookup_drop in Hb1 by lia.
  rewrite B2, lookup_take, lookup_drop in Hb2 by lia.
  unfold bytes' in Hb2. destruct (decide (N.to_nat (7 - q') = t)) as [Et|Et].
  - rewrite Et, <- Eia in Hb1, Hb2. rewrite list_lookup_insert in Hb2 by done.
    rewrite Hb in Hb1. injection Hb1 as <-. injection Hb2 as <-.
    rewrite N.lxor_spec, N.pow2_bits_eqb. f_equal.
    destruct (N.eqb_spec j j'), (N.eqb_spec m (8 * (7 - N.of_nat t) + j)); try done; lia.
  - rewrite list_lookup_insert_ne in Hb2 by lia. rewrite Hb1 in Hb2. injection Hb2 as <-.
    destruct (N.eqb_spec m (8 * (7 - N.of_nat t) + j)); [lia|]. by rewrite xorb_false_r.
Qed.
Print Assumptions C97_cgraph_bit.

(** What a graph of vertices 0, 1, 2 says. *)
Definition told (g : graph) : bool * N * N * list bool :=
  (is_undirected g, vertex_count g, edge_count g,
   (fun '(u, v) => does_edge_exist g u v) <$> [(0, 1); (1, 0); (0, 2); (2, 0); (1, 2); (2, 1); (1, 1)]).
Definition read_told (bytes : list N) : option (bool * N * N * list bool) :=
  match graph_try_from plat64 bytes with Ret (Ok g) => Some (told g) | _ => None end.

(** The premises hold: an accepted file of a written graph and one with another first id. *)
Example C97_premises :
  graph_to_bytes plat64 plain_order (run true [OpAddEdge 0 1; OpAddEdge 0 2]) =
    Ok (graph_file true 3 4 [(0, 1); (0, 2); (1, 0); (2, 0)]) /\
  damaged (26 + 8 * 1) 8 (graph_file true 3 4 [(0, 1); (0, 2); (1, 0); (2, 0)])
    (graph_file true 3 4 [(0, 2); (0, 2); (1, 0); (2, 0)]) /\
  is_slice plat64 (graph_file true 3 4 [(0, 2); (0, 2); (1, 0); (2, 0)]) /\
  reach plat64 (run true [OpAddEdge 0 1; OpAddEdge 0 2]).
Proof.
  split; [by vm_compute|]. split_and!.
  - exists (take 34 (graph_file true 3 4 [(0, 1); (0, 2); (1, 0); (2, 0)])), (be64 1), (be64 2),
      (drop 42 (graph_file true 3 4 [(0, 1); (0, 2); (1, 0); (2, 0)])).
    split_and!; [by vm_compute|by vm_compute|done|done|done|by vm_compute].
  - split; [|by vm_compute]. apply Forall_forall. intros x Hx.
    assert (forallb (fun x => x <? 256) (graph_file true 3 4 [(0, 2); (0, 2); (1, 0); (2, 0)]) = true) as H
      by by vm_compute.
    rewrite forallb_forall in H. apply elem_of_list_In, H in Hx. by apply N.ltb_lt in Hx.
  - apply reach_runb. done.
Qed.

(** A changed id of an undirected graph: the same graph, or refused. *)
Example C97_undirected :
  read_told (graph_file true 3 4 [(0, 1); (0, 2); (1, 0); (2, 0)]) =
    Some (true, 3, 4, [true; true; true; true; false; false; false]) /\
  read_told (<[41%nat := 2]> (graph_file true 3 4 [(0, 1); (0, 2); (1, 0); (2, 0)])) =
    Some (true, 3, 4, [true; true; true; true; false; false; false]) /\
  read_told (<[33%nat := 1]> (graph_file true 3 4 [(0, 1); (0, 2); (1, 0); (2, 0)])) = None /\
  read_told (<[33%nat := 2]> (graph_file true 3 4 [(0, 1); (0, 2); (1, 0); (2, 0)])) = None.
Proof. split_and!; by vm_compute. Qed.

(** Directed: one edge is another one, or refused because the graph has it already. *)
Example C97_directed :
  read_told (graph_file false 3 2 [(0, 1); (1, 2)]) =
    Some (false, 3, 2, [true; false; false; false; true; false; false]) /\
  read_told (<[33%nat := 2]> (graph_file false 3 2 [(0, 1); (1, 2)])) =
    Some (false, 3, 2, [false; false; false; false; true; true; false]) /\
  read_told (<[41%nat := 2]> (graph_file false 3 2 [(1, 1); (1, 2)])) = None.
Proof. split_and!; by vm_compute. Qed.

(** The header: the vertex count, the flag and the rest. *)
Example C97_header :
  read_told (<[15%nat := 5]> (graph_file false 3 2 [(0, 1); (1, 2)])) =
    Some (false, 5, 2, [true; false; false; false; true; false; false]) /\
  read_told (<[15%nat := 2]> (graph_file false 3 2 [(0, 1); (1, 2)])) = None /\
  read_told (<[24%nat := 1]> (graph_file false 3 2 [(0, 1); (1, 2)])) = None /\
  read_told (<[24%nat := 2]> (graph_file false 3 2 [(0, 1); (1, 0)])) = None /\
  read_told (<[24%nat := 1]> (graph_file false 3 2 [(0, 1); (1, 0)])) =
    Some (true, 3, 2, [true; true; false; false; false; false; false]) /\
  (fun i => read_told (<[i := 9]> (graph_file false 3 2 [(0, 1); (1, 2)]))) <$>
    [0; 1; 2; 3; 4; 5; 6; 7; 16; 17; 18; 19; 20; 21; 22; 23; 25]%nat = replicate 17 None.
Proof. split_and!; by vm_compute. Qed.

(** Compressed graphs. *)
Definition read_ctold (bytes : list N) : option (bool * N * N * N * list N) :=
  match cgraph_try_from plat64 bytes with
  | Ret (Ok cg) => Some (c_is_undirected cg, c_vertex_count cg, c_edge_count cg, compression_level cg,
      (fun '(c, r) => get_compressed_matrix_entry cg c r) <$> [(0, 0); (1, 0); (0, 1); (1, 1)])
  | _ => None
  end.
Definition cgraph_sample : list N := cgraph_file true 2 2 3 10 5 [(3, 0, 0); (1, 1, 1)].

Example C97_compressed :
  read_ctold cgraph_sample = Some (true, 10, 3, 5, [3; 0; 0; 1]) /\
  (* a flipped bit, two flipped bits, a moved block *)
  read_ctold (<[49%nat := 1]> cgraph_sample) = None /\
  read_ctold (<[49%nat := 5]> cgraph_sample) = Some (true, 10, 3, 5, [5; 0; 0; 1]) /\
  read_ctold (<[57%nat := 1]> cgraph_sample) = Some (true, 10, 3, 5, [0; 3; 0; 1]) /\
  (* two entries for one block: an edge is lost, the edge count is not *)
  read_ctold (<[81%nat := 0]> (<[89%nat := 0]> cgraph_sample)) = Some (true, 10, 3, 5, [1; 0; 0; 0]) /\
  (* the header *)
  read_ctold (<[39%nat := 11]> cgraph_sample) = Some (true, 11, 3, 5, [3; 0; 0; 1]) /\
  read_ctold (<[39%nat := 17]> cgraph_sample) = None /\
  read_ctold (<[40%nat := 0]> cgraph_sample) = Some (false, 10, 3, 5, [3; 0; 0; 1]) /\
  read_ctold (<[40%nat := 2]> cgraph_sample) = None /\
  read_ctold (<[41%nat := 64]> cgraph_sample) = Some (true, 10, 3, 64, [3; 0; 0; 1]) /\
  read_ctold (<[41%nat := 65]> cgraph_sample) = None /\
  (fun i => read_ctold (<[i := 9]> cgraph_sample)) <$> seq 0 32 = replicate 32 None.
Proof. split_and!; by vm_compute. Qed.
