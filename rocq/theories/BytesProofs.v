(** Big-endian words and reading them out of byte lists. *)
From Verif Require Import Base Spec AdjProofs.

Lemma length_to_be k x : length (to_be_bytes k x) = k.
Proof.
  revert x. induction k as [|k IH]; intros x; [done|]. cbn [to_be_bytes].
  rewrite app_length, IH. simpl. lia.
Qed.

Lemma to_be_be64 x : to_be_bytes 8 x = be64 x.
Proof.
  unfold be64. cbn [to_be_bytes app]. rewrite !N.div_div by done. done.
Qed.

Lemma length_be64 x : length (be64 x) = 8%nat.
Proof. done. Qed.

Lemma be64_bytes x : Forall is_byte (be64 x).
Proof.
  unfold be64, is_byte. repeat (constructor; [by apply N.mod_lt|]). constructor.
Qed.

Lemma from_be_app l1 l2 :
  from_be_bytes (l1 ++ l2) = from_be_bytes l1 * 256 ^ N.of_nat (length l2) + from_be_bytes l2.
Proof.
  unfold from_be_bytes. rewrite fold_left_app. generalize (fold_left (fun acc b => acc * 256 + b) l1 0).
  intros n. revert n. induction l2 as [|b l2 IH]; intros n; cbn [fold_left length].
  - rewrite N.mul_1_r. lia.
  - rewrite IH, (IH (0 * 256 + b)).
    replace (N.of_nat (S (length l2))) with (N.succ (N.of_nat (length l2))) by lia.
    rewrite N.pow_succ_r'. lia.
Qed.

Lemma from_to_be k x : from_be_bytes (to_be_bytes k x) = x mod 256 ^ N.of_nat k.
Proof.
  revert x. induction k as [|k IH]; intros x.
  - simpl. by rewrite N.mod_1_r.
  - cbn [to_be_bytes]. rewrite from_be_app, IH. simpl length.
    change (from_be_bytes [x mod 256]) with (x mod 256).
    replace (N.of_nat (S k)) with (N.succ (N.of_nat k)) by lia. rewrite N.pow_succ_r'.
    assert (256 ^ N.of_nat k <> 0) by (by apply N.pow_nonzero).
    rewrite N.mod_mul_r by done. change (256 ^ N.of_nat 1) with 256. lia.
Qed.

Lemma from_be64 x : x < two64 -> from_be_bytes (be64 x) = x.
Proof.
  intros Hx. rewrite <- to_be_be64, from_to_be. by apply N.mod_small.
Qed.

Lemma to_from_be bs : Forall is_byte bs -> to_be_bytes (length bs) (from_be_bytes bs) = bs.
Proof.
  induction bs as [|b bs IH] using rev_ind; intros H; [done|].
  apply Forall_app in H as [Hbs Hb]. inversion Hb as [|? ? Hb' _]; subst.
  rewrite app_length, Nat.add_comm. cbn [length Nat.add to_be_bytes].
  rewrite from_be_app. cbn [length]. change (from_be_bytes [b]) with b.
  change (256 ^ N.of_nat 1) with 256.
  assert ((from_be_bytes bs * 256 + b) / 256 = from_be_bytes bs) as ->
    by (symmetry; apply (N.div_unique _ _ _ b); [done|lia]).
  assert ((from_be_bytes bs * 256 + b) mod 256 = b) as ->
    by (symmetry; apply (N.mod_unique _ _ (from_be_bytes bs)); [done|lia]).
  by rewrite IH.
Qed.

Lemma from_be_lt bs : Forall is_byte bs -> from_be_bytes bs < 256 ^ N.of_nat (length bs).
Proof.
  intros H. rewrite <- (to_from_be bs H) at 1. rewrite from_to_be.
  apply N.mod_lt. by apply N.pow_nonzero.
Qed.

Lemma be64_from bs : Forall is_byte bs -> length bs = 8%nat -> be64 (from_be_bytes bs) = bs.
Proof. intros H Hl. rewrite <- to_be_be64, <- Hl. by apply to_from_be. Qed.

(** The first word of a byte list. *)
Lemma split_be64 bs : Forall is_byte bs -> (8 <= length bs)%nat ->
  exists x rest, bs = be64 x ++ rest /\ x < two64 /\ Forall is_byte rest.
Proof.
  intros H Hl. exists (from_be_bytes (take 8 bs)), (drop 8 bs).
  assert (Forall is_byte (take 8 bs)) as Ht by by apply Forall_take.
  assert (length (take 8 bs) = 8%nat) as Hlen by (rewrite take_length; lia).
  split_and!.
  - rewrite be64_from by done. by rewrite take_drop.
  - pose proof (from_be_lt _ Ht) as Hlt. by rewrite Hlen in Hlt.
  - by apply Forall_drop.
Qed.

Lemma split_be32 bs : Forall is_byte bs -> (4 <= length bs)%nat ->
  exists x rest, bs = to_be_bytes 4 x ++ rest /\ x < 2 ^ 32 /\ Forall is_byte rest.
Proof.
  intros H Hl. exists (from_be_bytes (take 4 bs)), (drop 4 bs).
  assert (Forall is_byte (take 4 bs)) as Ht by by apply Forall_take.
  assert (length (take 4 bs) = 4%nat) as Hlen by (rewrite take_length; lia).
  split_and!.
  - replace 4%nat with (length (take 4 bs)) at 1 by done. rewrite to_from_be by done.
    by rewrite take_drop.
  - pose proof (from_be_lt _ Ht) as Hlt. by rewrite Hlen in Hlt.
  - by apply Forall_drop.
Qed.

Lemma split_byte bs : Forall is_byte bs -> (1 <= length bs)%nat ->
  exists x rest, bs = [x] ++ rest /\ is_byte x /\ Forall is_byte rest.
Proof.
  intros H Hl. destruct bs as [|x rest]; [simpl in Hl; lia|].
  inversion H; subst. by exists x, rest.
Qed.

Lemma be64_inj x y : x < two64 -> y < two64 -> be64 x = be64 y -> x = y.
Proof. intros Hx Hy H. rewrite <- (from_be64 x Hx), <- (from_be64 y Hy). by rewrite H. Qed.

(** Reading a field at a known position. *)
Lemma slice_get_at pre w post off k :
  off = N.of_nat (length pre) -> k = length w ->
  slice_get (pre ++ w ++ post) off k = Some w.
Proof.
  intros -> ->. unfold slice_get. rewrite !app_length.
  destruct (N.leb_spec (N.of_nat (length pre) + N.of_nat (length w))
              (N.of_nat (length pre + (length w + length post)))); [|lia].
  rewrite Nat2N.id, drop_app, take_app. done.
Qed.

Lemma byte_at_at pre x post i : i = length pre -> byte_at (pre ++ [x] ++ post) i = Ret x.
Proof.
  intros ->. unfold byte_at. simpl app. by rewrite list_lookup_middle.
Qed.

(** ** Sequences of records of fixed size *)

Definition enc_pairs (l : list (N * N)) : list N := l ≫= fun '(u, v) => be64 u ++ be64 v.
Definition enc_triples (l : list (N * N * N)) : list N :=
  l ≫= fun '(w, c, r) => be64 w ++ be64 c ++ be64 r.

Lemma length_enc_pairs l : length (enc_pairs l) = (16 * length l)%nat.
Proof.
  induction l as [|[u v] l IH]; [done|]. unfold enc_pairs in *.
  rewrite bind_cons, app_length, IH. simpl length. lia.
Qed.

Lemma length_enc_triples l : length (enc_triples l) = (24 * length l)%nat.
Proof.
  induction l as [|[[w u] v] l IH]; [done|]. unfold enc_triples in *.
  rewrite bind_cons, app_length, IH. simpl length. lia.
Qed.

Lemma enc_pairs_bytes l : Forall is_byte (enc_pairs l).
Proof.
  induction l as [|[u v] l IH]; [constructor|]. unfold enc_pairs in *. rewrite bind_cons.
  rewrite !Forall_app. split; [split; apply be64_bytes|done].
Qed.

Lemma enc_triples_bytes l : Forall is_byte (enc_triples l).
Proof.
  induction l as [|[[w u] v] l IH]; [constructor|]. unfold enc_triples in *. rewrite bind_cons.
  rewrite !Forall_app. split; [split; [|split]; apply be64_bytes|done].
Qed.

Lemma split_pairs k bs : Forall is_byte bs -> length bs = (16 * k)%nat ->
  exists l, bs = enc_pairs l /\ length l = k /\
    Forall (fun '(u, v) => u < two64 /\ v < two64) l.
Proof.
  revert bs. induction k as [|k IH]; intros bs H Hl.
  - exists []. destruct bs; [done|]. simpl in Hl. lia.
  - destruct (split_be64 bs H) as (u & r1 & -> & Hu & H1); [lia|].
    rewrite app_length, length_be64 in Hl.
    destruct (split_be64 r1 H1) as (v & r2 & -> & Hv & H2); [lia|].
    rewrite app_length, length_be64 in Hl.
    destruct (IH r2 H2) as (l & -> & Hlen & Hall); [lia|].
    exists ((u, v) :: l). split_and!.
    + unfold enc_pairs. rewrite bind_cons. by rewrite <- app_assoc.
    + simpl. lia.
    + by constructor.
Qed.

Lemma split_triples k bs : Forall is_byte bs -> length bs = (24 * k)%nat ->
  exists l, bs = enc_triples l /\ length l = k /\
    Forall (fun '(w, u, v) => w < two64 /\ u < two64 /\ v < two64) l.
Proof.
  revert bs. induction k as [|k IH]; intros bs H Hl.
  - exists []. destruct bs; [done|]. simpl in Hl. lia.
  - destruct (split_be64 bs H) as (w & r0 & -> & Hw & H0); [lia|].
    rewrite app_length, length_be64 in Hl.
    destruct (split_be64 r0 H0) as (u & r1 & -> & Hu & H1); [lia|].
    rewrite app_length, length_be64 in Hl.
    destruct (split_be64 r1 H1) as (v & r2 & -> & Hv & H2); [lia|].
    rewrite app_length, length_be64 in Hl.
    destruct (IH r2 H2) as (l & -> & Hlen & Hall); [lia|].
    exists ((w, u, v) :: l). split_and!.
    + unfold enc_triples. rewrite bind_cons. by rewrite <- !app_assoc.
    + simpl. lia.
    + by constructor.
Qed.

Lemma app_inj_len {A} (a b c d : list A) :
  length a = length c -> a ++ b = c ++ d -> a = c /\ b = d.
Proof. intros. by apply app_inj_1. Qed.

Lemma enc_pairs_inj l l' :
  Forall (fun '(u, v) => u < two64 /\ v < two64) l ->
  Forall (fun '(u, v) => u < two64 /\ v < two64) l' ->
  enc_pairs l = enc_pairs l' -> l = l'.
Proof.
  revert l'. induction l as [|[u v] l IH]; intros [|[u' v'] l'] H H' Heq; try done.
  apply Forall_cons in H as [[Hu Hv] Hl]. apply Forall_cons in H' as [[Hu' Hv'] Hl'].
  unfold enc_pairs in *. rewrite !bind_cons, <- !app_assoc in Heq.
  apply app_inj_len in Heq as [E1 Heq]; [|done].
  apply app_inj_len in Heq as [E2 Heq]; [|done].
  apply be64_inj in E1; [|done..]. apply be64_inj in E2; [|done..]. subst.
  f_equal. by apply IH.
Qed.

Lemma enc_triples_inj l l' :
  Forall (fun '(w, u, v) => w < two64 /\ u < two64 /\ v < two64) l ->
  Forall (fun '(w, u, v) => w < two64 /\ u < two64 /\ v < two64) l' ->
  enc_triples l = enc_triples l' -> l = l'.
Proof.
  revert l'. induction l as [|[[w u] v] l IH]; intros [|[[w' u'] v'] l'] H H' Heq; try done.
  apply Forall_cons in H as [(Hw & Hu & Hv) Hl].
  apply Forall_cons in H' as [(Hw' & Hu' & Hv') Hl'].
  unfold enc_triples in *. rewrite !bind_cons, <- !app_assoc in Heq.
  apply app_inj_len in Heq as [E0 Heq]; [|done].
  apply app_inj_len in Heq as [E1 Heq]; [|done].
  apply app_inj_len in Heq as [E2 Heq]; [|done].
  apply be64_inj in E0; [|done..].
  apply be64_inj in E1; [|done..]. apply be64_inj in E2; [|done..]. subst.
  f_equal. by apply IH.
Qed.
