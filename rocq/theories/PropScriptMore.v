(** Properties C72 and C73, continued: any text files.  numpy counts negative
    indices from the end of the array, so that a negative id shares the place of another. *)
From Coq Require Import ZArith Ascii String.
From stdpp Require Import sorting.
From Verif Require Import Base HashIter F64 Numeric Adj Sq Standard Compressed Spec TextSpec Api CApi
  CSpec Py PySpec Script ScriptSpec AdjProofs GraphProofs ApproxProofs GraphMoreProofs ScriptProofs
  ScriptReadProofs PropCommon PropC PropPy PropScript.
Local Arguments N.mul : simpl never.
Local Arguments N.add : simpl never.
Local Arguments N.pow : simpl never.

(** ** Vocabulary *)

(** Two indices of an array of [n] elements that mean the same element. *)
Definition same_place (n a b : Z) : Prop := (a mod n = b mod n)%Z.
Global Instance same_place_dec n a b : Decision (same_place n a b) :=
  ltac:(unfold same_place; apply _).
Definition in_array (n a : Z) : Prop := (- n <= a < n)%Z.

(** The sources that come first, in increasing order, at their place. *)
Definition firsts (n : Z) (S : gset Z) : gset Z :=
  filter (fun a => set_Forall (fun b => ~ ((b < a)%Z /\ same_place n a b)) S) S.

(** The number [u] given to the place of the id [a]. *)
Definition numbered (n : Z) (S : gset Z) (a : Z) (u : N) : Prop :=
  exists a0, a0 ∈ firsts n S /\ same_place n a a0 /\ u = rank (firsts n S) a0.

(** ** The array *)

(** [D] holds one id for every place that the ids in [S] refer to, the smallest. *)
Record represents (n : Z) (S D : gset Z) : Prop := {
  rp_sub : forall d, d ∈ D -> d ∈ S;
  rp_one : forall d d', d ∈ D -> d' ∈ D -> same_place n d d' -> d = d';
  rp_min : forall s, s ∈ S -> exists d, d ∈ D /\ (d <= s)%Z /\ same_place n s d;
}.

Lemma represents_firsts n S D : represents n S D -> D = firsts n S.
Proof.
  intros [H1 H2 H3]. apply set_eq. intros a. unfold firsts. rewrite elem_of_filter. split.
  - intros Ha. split; [|by apply H1]. intros b Hb [Hlt Hs].
    destruct (H3 b Hb) as (d & Hd & Hle & Hs'). unfold same_place in *.
    assert (a = d) by (apply H2; [done|done|congruence]). lia.
  - intros [Hf Ha]. destruct (H3 a Ha) as (d & Hd & Hle & Hs).
    destruct (decide (d = a)) as [->|Hne]; [done|]. exfalso. apply (Hf d (H1 d Hd)).
    split; [lia|done].
Qed.

(** What the array holds at the place of [x]. *)
Definition place_id (n : Z) (D : gset Z) (x : Z) : Z :=
  match elements (filter (same_place n x) D) with
  | d :: _ => Z.of_N (rank D d)
  | [] => (-1)%Z
  end.

Lemma place_id_cases n D x :
  (exists d, d ∈ D /\ same_place n x d /\ place_id n D x = Z.of_N (rank D d)) \/
  ((forall d, d ∈ D -> ~ same_place n x d) /\ place_id n D x = (-1)%Z).
Proof.
  unfold place_id. destruct (elements (filter (same_place n x) D)) as [|d l] eqn:E.
  - right. split; [|done]. intros d Hd Hs.
    assert (d ∈ elements (filter (same_place n x) D)) as H by set_solver.
    rewrite E in H. by apply elem_of_nil in H.
  - left. assert (d ∈ elements (filter (same_place n x) D)) as H by (rewrite E; left).
    exists d. set_solver.
Qed.

Lemma place_id_eq n D x d : (forall d d', d ∈ D -> d' ∈ D -> same_place n d d' -> d = d') ->
  d ∈ D -> same_place n x d -> place_id n D x = Z.of_N (rank D d).
Proof.
  intros H1 Hd Hs. destruct (place_id_cases n D x) as [(d' & Hd' & Hs' & ->)|[Hn _]].
  - assert (d' = d) as ->; [|done]. apply H1; [done|done|]. unfold same_place in *. congruence.
  - exfalso. by apply (Hn d).
Qed.

Lemma place_id_none n D x : (forall d, d ∈ D -> ~ same_place n x d) -> place_id n D x = (-1)%Z.
Proof. intros H. destruct (place_id_cases n D x) as [(d & Hd & Hs & _)|[_ ?]]; [|done]. by apply H in Hs. Qed.

Lemma place_id_same n D x y : same_place n x y -> place_id n D x = place_id n D y.
Proof.
  intros H. unfold place_id. assert (filter (same_place n x) D = filter (same_place n y) D) as ->; [|done].
  apply set_eq. intros d. rewrite !elem_of_filter. unfold same_place in *. by rewrite H.
Qed.

Definition is_array (n : nat) (D : gset Z) (M : list Z) : Prop :=
  length M = n /\
  forall k, (k < n)%nat -> M !! k = Some (place_id (Z.of_nat n) D (Z.of_nat k)).

Lemma np_index_in n x : in_array (Z.of_nat n) x -> exists k,
  np_index n x = Some k /\ (k < n)%nat /\ same_place (Z.of_nat n) x (Z.of_nat k).
Proof.
  unfold in_array, np_index, same_place. intros Hx.
  destruct (Z.leb_spec 0 x), (Z.ltb_spec x (Z.of_nat n)); try lia; cbn [andb].
  - exists (Z.to_nat x). split_and!; [done|lia|]. by rewrite Z2Nat.id.
  - destruct (Z.leb_spec (- Z.of_nat n) x), (Z.ltb_spec x 0); try lia; cbn [andb].
    exists (Z.to_nat (Z.of_nat n + x)). split_and!; [done|lia|].
    rewrite Z2Nat.id by lia. rewrite Z.add_comm.
    by rewrite <- (Z_mod_plus_full x 1), Z.mul_1_l.
Qed.

Lemma np_index_out n x : ~ in_array (Z.of_nat n) x -> np_index n x = None.
Proof.
  unfold in_array, np_index. intros Hx.
  destruct (Z.leb_spec 0 x), (Z.ltb_spec x (Z.of_nat n)); cbn [andb]; try lia.
  all: destruct (Z.leb_spec (- Z.of_nat n) x), (Z.ltb_spec x 0); cbn [andb]; (done || lia).
Qed.

Lemma np_get_in n D M x h : is_array n D M -> in_array (Z.of_nat n) x ->
  np_get M x h = PyDone (place_id (Z.of_nat n) D x) h.
Proof.
  intros [Hl HM] Hx. destruct (np_index_in n x Hx) as (k & Ek & Hk & Hs).
  unfold np_get. rewrite Hl, Ek. cbn [mbind option_bind]. rewrite HM by done.
  by rewrite (place_id_same _ _ x _ Hs).
Qed.
Lemma np_get_out n D M x h : is_array n D M -> ~ in_array (Z.of_nat n) x ->
  np_get M x h = PyRaise IndexError h.
Proof. intros [Hl HM] Hx. unfold np_get. by rewrite Hl, np_index_out. Qed.

Lemma number_ids_array n l : forall S D M h, is_array n D M -> represents (Z.of_nat n) S D ->
  StronglySorted pair_le l ->
  (forall d i j, d ∈ S -> (i, j) ∈ l -> (d <= i)%Z) ->
  (forall i j, (i, j) ∈ l -> in_array (Z.of_nat n) i) ->
  exists D' M', number_ids l M (Z.of_nat (size D)) h = PyDone M' h /\ is_array n D' M' /\
    represents (Z.of_nat n) (sources l ∪ S) D'.
Proof.
  induction l as [|[i j] l IH]; intros S D M h HM HR Hs HD Hb.
  - exists D, M. split; [done|]. unfold sources. cbn [fmap list_fmap list_to_set].
    by rewrite (left_id_L ∅ (∪)).
  - apply StronglySorted_inv in Hs as [Hs Hall]. rewrite Forall_forall in Hall.
    pose proof (Hb i j ltac:(left)) as Hi.
    cbn [number_ids]. unfold pbind. rewrite (np_get_in n D M i h HM Hi).
    assert (forall d k m, d ∈ {[i]} ∪ S -> (k, m) ∈ l -> (d <= k)%Z) as HD'.
    { intros d k m [->%elem_of_singleton|Hd]%elem_of_union Hk.
      - destruct (Hall _ Hk) as [H|[H _]]; simpl in H; lia.
      - apply (HD d k m Hd). by right. }
    assert (forall k m, (k, m) ∈ l -> in_array (Z.of_nat n) k) as Hb'
      by (intros k m Hk; apply (Hb k m); by right).
    assert (sources ((i, j) :: l) ∪ S = sources l ∪ ({[i]} ∪ S)) as Hsrc.
    { unfold sources. simpl. set_solver. }
    rewrite Hsrc.
    destruct (place_id_cases (Z.of_nat n) D i) as [(d & Hd & Hsame & ->)|[Hnone ->]].
    + destruct (Z.eqb_spec (Z.of_N (rank D d)) (-1)); [lia|].
      apply (IH ({[i]} ∪ S) D M h HM); [|done..].
      destruct HR as [R1 R2 R3]. constructor; [set_solver|done|].
      intros s [->%elem_of_singleton|Hs']%elem_of_union; [|by apply R3].
      exists d. split_and!; [done| |done]. apply (HD d i j); [by apply R1|left].
    + change ((-1 =? -1)%Z) with true. cbn match.
      assert (i ∉ D) as Hni by (intros H; by apply (Hnone i H)).
      assert (size ({[i]} ∪ D) = Datatypes.S (size D)) as Hsz.
      { rewrite size_union by set_solver. by rewrite size_singleton. }
      assert (represents (Z.of_nat n) ({[i]} ∪ S) ({[i]} ∪ D)) as HR'.
      { destruct HR as [R1 R2 R3]. constructor.
        - intros d. set_solver.
        - intros d d' [->%elem_of_singleton|Hd]%elem_of_union [->%elem_of_singleton|Hd']%elem_of_union Hsame.
          + done.
          + by apply Hnone in Hsame.
          + symmetry in Hsame. by apply Hnone in Hsame.
          + by apply R2.
        - intros s [->%elem_of_singleton|Hs']%elem_of_union.
          + exists i. split_and!; [set_solver|lia|done].
          + destruct (R3 s Hs') as (d & Hd & Hle & Hsame). exists d. split_and!; [set_solver|done..]. }
      assert (forall d, d ∈ D -> (d < i)%Z) as Hlt.
      { intros d Hd. pose proof (HD d i j (rp_sub _ _ _ HR d Hd) ltac:(left)).
        destruct (decide (d = i)); [by subst|lia]. }
      destruct (np_index_in n i Hi) as (k & Ek & Hk & Hsame). pose proof HM as [Hl HMx].
      unfold np_set. rewrite Hl, Ek. unfold pret at 1.
      destruct (IH ({[i]} ∪ S) ({[i]} ∪ D) (<[k:=Z.of_nat (size D)]> M) h) as (D' & M' & E & H); [|done..|].
      * split; [by rewrite insert_length|]. intros y Hy.
        destruct (decide (y = k)) as [->|Hyk].
        -- rewrite list_lookup_insert by lia. f_equal.
           rewrite (place_id_eq (Z.of_nat n) ({[i]} ∪ D) (Z.of_nat k) i (rp_one _ _ _ HR')); [|set_solver|done].
           rewrite rank_add, rank_all; [lia|done|lia].
        -- rewrite list_lookup_insert_ne by lia. rewrite HMx by done. f_equal.
           destruct (place_id_cases (Z.of_nat n) D (Z.of_nat y)) as [(d & Hd & Hyd & ->)|[Hno ->]]; symmetry.
           ++ rewrite (place_id_eq (Z.of_nat n) ({[i]} ∪ D) _ d (rp_one _ _ _ HR')); [|set_solver|done].
              pose proof (Hlt d Hd). by rewrite rank_add by lia.
           ++ apply place_id_none. intros d [->%elem_of_singleton|Hd]%elem_of_union; [|by apply Hno].
              intros Hyi. apply Hyk. unfold same_place in *. rewrite Hsame in Hyi.
              rewrite !Z.mod_small in Hyi by lia. lia.
      * exists D', M'. split; [|done]. rewrite <-E. f_equal. rewrite Hsz. lia.
Qed.

(** An id outside the array stops the numbering. *)
Lemma number_ids_out n l : forall M z h, length M = n ->
  (exists i j, (i, j) ∈ l /\ ~ in_array (Z.of_nat n) i) ->
  number_ids l M z h = PyRaise IndexError h.
Proof.
  induction l as [|[i j] l IH]; intros M z h Hl (i0 & j0 & Hin & Hout).
  - by apply elem_of_nil in Hin.
  - cbn [number_ids]. unfold pbind at 1, np_get. rewrite Hl.
    destruct (decide (in_array (Z.of_nat n) i)) as [Hi|Hi].
    + assert (exists i j, (i, j) ∈ l /\ ~ in_array (Z.of_nat n) i) as Hex.
      { exists i0, j0. split; [|done]. apply elem_of_cons in Hin as [[= -> ->]|?]; done. }
      destruct (np_index_in n i Hi) as (k & Ek & Hk & _). rewrite Ek. cbn [mbind option_bind].
      destruct (M !! k) eqn:EM; [|apply lookup_ge_None in EM; lia]. unfold pret at 1.
      destruct (_ =? -1)%Z; [|by apply IH].
      unfold pbind, np_set. rewrite Hl, Ek. unfold pret at 1. apply IH; [|done].
      by rewrite insert_length.
    + by rewrite np_index_out.
Qed.

(** ** The map *)
Lemma make_map_start s spare pairs m h : largest_source pairs m ->
  make_map s spare (sort_pairs pairs) h =
  if (m + spare <? 0)%Z then PyRaise ValueError h
  else if sc_array s (Z.to_N (m + spare))
  then number_ids (sort_pairs pairs) (replicate (Z.to_nat (m + spare)) (-1)%Z) 0 h
  else PyRaise MemoryError h.
Proof.
  intros [Hm Hmax]. pose proof (sort_pairs_sorted pairs) as Hs. pose proof (sort_pairs_perm pairs) as Hp.
  unfold make_map. destruct (last (sort_pairs pairs)) as [[m' b]|] eqn:El.
  - assert (m' = m) as ->.
    { destruct (sorted_last _ _ _ Hs El) as [H1 H2]. rewrite (sources_perm _ _ Hp) in H1, H2.
      apply Hmax in H1. apply H2 in Hm. lia. }
    unfold pbind, np_full. destruct (_ <? 0)%Z; [done|]. by destruct (sc_array _ _).
  - apply last_None in El. rewrite El in Hp. apply Permutation_nil in Hp as ->.
    apply elem_of_sources in Hm as [b Hb]. by apply elem_of_nil in Hb.
Qed.

Lemma make_map_array s spare pairs m h : largest_source pairs m ->
  (0 <= m + spare)%Z -> sc_array s (Z.to_N (m + spare)) = true ->
  (forall a, a ∈ sources pairs -> in_array (m + spare) a) ->
  exists M, make_map s spare (sort_pairs pairs) h = PyDone M h /\
    is_array (Z.to_nat (m + spare)) (firsts (m + spare) (sources pairs)) M.
Proof.
  intros Hm Hsp Har Hin. rewrite (make_map_start s spare pairs m h Hm).
  destruct (Z.ltb_spec (m + spare) 0); [lia|]. rewrite Har.
  set (n := Z.to_nat (m + spare)). assert (Z.of_nat n = m + spare)%Z as En by lia.
  destruct (number_ids_array n (sort_pairs pairs) ∅ ∅ (replicate n (-1)%Z) h)
    as (D & M & E & HM & HR).
  - split; [apply replicate_length|]. intros k Hk. rewrite lookup_replicate_2 by done.
    by rewrite place_id_none by set_solver.
  - constructor; set_solver.
  - apply sort_pairs_sorted.
  - set_solver.
  - intros i j Hij. rewrite (sort_pairs_perm pairs) in Hij. rewrite En.
    apply Hin, elem_of_sources. by exists j.
  - exists M. rewrite size_empty in E. split; [exact E|].
    rewrite (right_id_L ∅ (∪)), (sources_perm _ _ (sort_pairs_perm pairs)), En in HR.
    by rewrite <- (represents_firsts _ _ _ HR).
Qed.

Lemma make_map_out s spare pairs m h : largest_source pairs m ->
  (0 <= m + spare)%Z -> sc_array s (Z.to_N (m + spare)) = true ->
  (exists a, a ∈ sources pairs /\ ~ in_array (m + spare) a) ->
  make_map s spare (sort_pairs pairs) h = PyRaise IndexError h.
Proof.
  intros Hm Hsp Har (a & [b Ha]%elem_of_sources & Hout). rewrite (make_map_start s spare pairs m h Hm).
  destruct (Z.ltb_spec (m + spare) 0); [lia|]. rewrite Har.
  apply (number_ids_out (Z.to_nat (m + spare))); [apply replicate_length|].
  exists a, b. rewrite (sort_pairs_perm pairs). split; [done|]. by rewrite Z2Nat.id by lia.
Qed.

(** ** The edges *)
Definition p_label (n : Z) (D : gset Z) (x : Z) : N := c_uint64 (place_id n D x).
Definition p_labels (n : Z) (D : gset Z) : Z * Z -> N * N :=
  fun '(x, y) => (p_label n D x, p_label n D y).

Lemma add_pairs_array e a n D M l : is_array n D M -> a <> null -> wf_alloc_fn (ce_alloc e) ->
  (forall x y, (x, y) ∈ l -> in_array (Z.of_nat n) x /\ in_array (Z.of_nat n) y) ->
  forall h g, h !! a = Some (OGraph g) ->
  add_pairs e a M l h =
    PyDone tt (<[a := OGraph (fold_left (fun g '(u, v) => add_edge g u v)
      (p_labels (Z.of_nat n) D <$> l) g)]> h).
Proof.
  intros HM Ha Hal. induction l as [|[x y] l IH]; intros Hb h g Hg.
  - simpl. by rewrite insert_id.
  - destruct (Hb x y ltac:(left)) as [Hx Hy]. cbn [add_pairs]. unfold pbind at 1.
    rewrite (np_get_in n D M x h HM Hx). unfold pbind at 1. rewrite (np_get_in n D M y h HM Hy).
    unfold pbind. destruct (C59_graph_changes e h a g Ha Hg Hal) as [H _]. rewrite H.
    rewrite (IH ltac:(intros x' y' ?; apply (Hb x' y'); by right) _
      (add_edge g (p_label (Z.of_nat n) D x) (p_label (Z.of_nat n) D y))) by apply lookup_insert.
    by rewrite insert_insert.
Qed.

Lemma add_pairs_out e a n D M l : is_array n D M -> a <> null -> wf_alloc_fn (ce_alloc e) ->
  (forall x y, (x, y) ∈ l -> in_array (Z.of_nat n) x) ->
  (exists x y, (x, y) ∈ l /\ ~ in_array (Z.of_nat n) y) ->
  forall h g, h !! a = Some (OGraph g) -> exists h', add_pairs e a M l h = PyRaise IndexError h'.
Proof.
  intros HM Ha Hal. induction l as [|[x y] l IH]; intros Hb (x0 & y0 & Hin & Hy0) h g Hg.
  - by apply elem_of_nil in Hin.
  - pose proof (Hb x y ltac:(left)) as Hx. cbn [add_pairs]. unfold pbind at 1.
    rewrite (np_get_in n D M x h HM Hx). unfold pbind at 1.
    destruct (decide (in_array (Z.of_nat n) y)) as [Hin'|Hover].
    + rewrite (np_get_in n D M y h HM) by done.
      unfold pbind. destruct (C59_graph_changes e h a g Ha Hg Hal) as [H _]. rewrite H.
      apply (IH ltac:(intros x' y' ?; apply (Hb x' y'); by right)) with
        (add_edge g (p_label (Z.of_nat n) D x) (p_label (Z.of_nat n) D y)); [|apply lookup_insert].
      exists x0, y0. split; [|done]. apply elem_of_cons in Hin as [[= -> ->]|?]; done.
    + rewrite (np_get_out n D M y h HM Hover). by eexists.
Qed.

Lemma firsts_size n pairs : (size (firsts n (sources pairs)) <= length pairs)%nat.
Proof.
  pose proof (sources_size pairs) as H. unfold firsts.
  set (D := filter _ _). assert (D ⊆ sources pairs) as Hs%subseteq_size by set_solver. lia.
Qed.

Lemma firsts_one n S d d' : d ∈ firsts n S -> d' ∈ firsts n S -> same_place n d d' -> d = d'.
Proof.
  unfold firsts. rewrite !elem_of_filter. intros [H Hd] [H' Hd'] Hs.
  destruct (decide (d < d')%Z); [|destruct (decide (d' < d)%Z); [|lia]].
  - exfalso. by apply (H' d Hd).
  - exfalso. by apply (H d' Hd').
Qed.

Lemma p_label_valid n pairs x u : N.of_nat (length pairs) < u64_max -> valid_id u = true ->
  p_label n (firsts n (sources pairs)) x = u <-> numbered n (sources pairs) x u.
Proof.
  intros Hl Hu. unfold valid_id in Hu. apply N.ltb_lt in Hu. unfold p_label, numbered.
  pose proof (firsts_size n pairs) as Hs. set (D := firsts n (sources pairs)) in *.
  unfold u64_max, two64 in *. split.
  - intros E. destruct (place_id_cases n D x) as [(d & Hd & Hsame & Ed)|[_ Ed]]; rewrite Ed in E.
    + pose proof (rank_le D d). rewrite c_uint64_small in E by (unfold two64; lia). by exists d.
    + change (c_uint64 (-1)) with 18446744073709551615 in E. lia.
  - intros (d & Hd & Hsame & ->). rewrite (place_id_eq n D x d); [|apply firsts_one|done..].
    pose proof (rank_le D d). apply c_uint64_small. unfold two64. lia.
Qed.

Lemma numbered_valid n pairs x u : N.of_nat (length pairs) < u64_max ->
  numbered n (sources pairs) x u -> valid_id u = true.
Proof.
  intros Hl (d & _ & _ & ->). pose proof (rank_le (firsts n (sources pairs)) d).
  pose proof (firsts_size n pairs). apply N.ltb_lt. lia.
Qed.

(** The scripts take from a file what it says, and every text file says something. *)
Theorem C72_reading limit file :
  exists items, file_says limit file items /\ (forall items', file_says limit file items' -> items' = items) /\
    id_pairs (read_ids limit file) = item_pairs items /\
    id0 (read_ids limit file) = last (item_firsts items) /\
    id1 (read_ids limit file) = snd <$> last (item_pairs items).
Proof.
  exists (read_item limit <$> file_lines file).
  assert (file_says limit file (read_item limit <$> file_lines file)) as H by (by apply file_says_iff).
  split_and!; [done| |by apply read_ids_spec..]. intros items' H'. by apply file_says_iff in H'.
Qed.
Print Assumptions C72_reading.

Lemma read_says limit file items : file_says limit file items ->
  id_pairs (read_ids limit file) = item_pairs items.
Proof. intros H. by apply read_ids_spec. Qed.

(** ** C72: what graph_from_text_file does with any text file that lists a pair.

    With [m] the largest source, the ids index an array of [m + 2] places.  Ids at the same
    place are treated as one, and the places that sources refer to are numbered in the
    increasing order of the smallest source at each. *)
Theorem C72_exact p s file items m h : wf_platform p -> ce_platform (sc_env s) = p ->
  wf_alloc_fn (ce_alloc (sc_env s)) -> file_says (sc_digits s) file items ->
  let pairs := item_pairs items in
  N.of_nat (length pairs) < 2 ^ 64 - 1 -> largest_source pairs m ->
  let n := (m + 2)%Z in
  ((n < 0)%Z -> graph_from_text_file s file h = PyRaise ValueError h) /\
  ((0 <= n)%Z -> sc_array s (Z.to_N n) = false ->
   graph_from_text_file s file h = PyRaise MemoryError h) /\
  ((0 <= n)%Z -> sc_array s (Z.to_N n) = true ->
   ((exists a b, (a, b) ∈ pairs /\ ~ in_array n a) ->
    graph_from_text_file s file h = PyRaise IndexError h) /\
   ((exists a b, (a, b) ∈ pairs /\ ~ in_array n b) ->
    exists h', graph_from_text_file s file h = PyRaise IndexError h') /\
   ((forall a b, (a, b) ∈ pairs -> in_array n a /\ in_array n b) ->
    exists g, reach p g /\ is_undirected g = true /\
     (forall u v, does_edge_exist g u v = true <->
        exists a b, ((a, b) ∈ pairs \/ (b, a) ∈ pairs) /\
          numbered n (sources pairs) a u /\ numbered n (sources pairs) b v) /\
     (forall k, vertex_count g <= k <->
        forall u v, does_edge_exist g u v = true -> u < k /\ v < k) /\
     graph_from_text_file s file h =
       PyDone (match graph_to_bytes p (ce_order1 (sc_env s)) g with Ok bytes => bytes | Err _ => [] end) h)).
Proof.
  intros Hp He Hal Hf pairs Hlen Hm n. change (2 ^ 64 - 1) with u64_max in Hlen.
  pose proof (read_says _ _ _ Hf : _ = pairs) as Hread. clearbody pairs.
  pose proof (sort_pairs_perm pairs) as Hperm.
  assert (forall exc, make_map s 2 (sort_pairs pairs) h = PyRaise exc h ->
    graph_from_text_file s file h = PyRaise exc h) as Hraise.
  { intros exc E. unfold graph_from_text_file. rewrite Hread. unfold pbind at 1. by rewrite E. }
  split_and!.
  { intros Hn. apply Hraise. rewrite (make_map_start s 2 pairs m h Hm). fold n.
    by destruct (Z.ltb_spec n 0); [|lia]. }
  { intros Hn Har. apply Hraise. rewrite (make_map_start s 2 pairs m h Hm). fold n.
    destruct (Z.ltb_spec n 0); [lia|]. by rewrite Har. }
  intros Hn Har.
  assert ((exists a b, (a, b) ∈ pairs /\ ~ in_array n a) ->
    graph_from_text_file s file h = PyRaise IndexError h) as Hout.
  { intros (a & b & Hab & Ha). apply Hraise, (make_map_out s 2 pairs m h Hm Hn Har).
    exists a. split; [|done]. apply elem_of_sources. by exists b. }
  split; [done|].
  assert (Z.of_nat (Z.to_nat n) = n) as En by lia.
  assert ((forall a, a ∈ sources pairs -> in_array n a) -> exists M a,
    is_array (Z.to_nat n) (firsts n (sources pairs)) M /\ a <> null /\ h !! a = None /\
    graph_from_text_file s file h =
    pbind (add_pairs (sc_env s) a M (sort_pairs pairs)) (fun _ =>
    pbind (pbind (pyexec (sc_env s) (PBytes a)) as_bytes) (fun bytes =>
    pbind (pyexec (sc_env s) (PDel a)) (fun _ => pret bytes))) (<[a:=OGraph new_undirected]> h)) as Hstart.
  { intros Hin. destruct (make_map_array s 2 pairs m h Hm Hn Har Hin) as (M & EM & HM).
    destruct (C59_makers (sc_env s) h Hal) as [Hnew _]. destruct (Hnew true) as (a & Ea & Ha & Hfr).
    exists M, a. split_and!; [done..|].
    unfold graph_from_text_file. rewrite Hread.
    unfold pbind at 1. rewrite EM. unfold pbind at 1. unfold pbind at 1. by rewrite Ea. }
  assert (forall a, h !! a = None ->
    <[a:=OGraph new_undirected]> h !! a = Some (OGraph new_undirected)) as Hg
    by (intros; apply lookup_insert).
  split.
  - intros (x & y & Hxy & Hy).
    destruct (decide (Forall (fun q => in_array n q.1) pairs)) as [Hall|Hnot].
    + rewrite Forall_forall in Hall. destruct Hstart as (M & a & HM & Ha & Hfr & ->).
      { intros z [w Hz]%elem_of_sources. by apply (Hall (z, w)). }
      unfold pbind at 1.
      destruct (add_pairs_out (sc_env s) a _ _ M (sort_pairs pairs) HM Ha Hal) with
        (h := <[a:=OGraph new_undirected]> h) (g := new_undirected) as (h' & ->);
        [| |by apply Hg|by eexists].
      * intros x' y' H. rewrite Hperm in H. rewrite En. by apply (Hall (x', y')).
      * exists x, y. rewrite Hperm, En. done.
    + exists h. apply Hout. apply not_Forall_Exists in Hnot; [|apply _].
      apply Exists_exists in Hnot as ([a b] & Hab & Ha). by exists a, b.
  - intros Hall. destruct Hstart as (M & a & HM & Ha & Hfr & ->).
    { intros z [w Hz]%elem_of_sources. by apply (Hall z w). }
    unfold pbind at 1.
    rewrite (add_pairs_array (sc_env s) a _ _ M (sort_pairs pairs) HM Ha Hal) with (g := new_undirected);
      [| |by apply Hg].
    2: { intros x y H. rewrite Hperm in H. rewrite En. by apply Hall. }
    rewrite insert_insert, En. set (g := fold_left _ _ _).
    assert (reach p g) as Hr.
    { apply reach_add_pairs; [constructor|]. intros u v ([x y] & [= -> ->] & _)%elem_of_list_fmap.
      split; apply (C59_integers p). }
    assert (forall u v, does_edge_exist g u v = true <->
       exists a b, ((a, b) ∈ pairs \/ (b, a) ∈ pairs) /\
         numbered n (sources pairs) a u /\ numbered n (sources pairs) b v) as Hedge.
    { intros u v. rewrite exists_has. unfold g. rewrite has_fold_add_edge.
      assert (forall u v, both_valid u v = true ->
        (u, v) ∈ p_labels n (firsts n (sources pairs)) <$> sort_pairs pairs <->
        exists a b, (a, b) ∈ pairs /\
         numbered n (sources pairs) a u /\ numbered n (sources pairs) b v) as Hin.
      { clear u v. intros u v [Hu Hv]%andb_true_iff. rewrite elem_of_list_fmap. split.
        - intros ([x y] & E & H). rewrite Hperm in H. unfold p_labels in E. injection E as E1 E2. symmetry in E1, E2.
          apply (p_label_valid n pairs x u Hlen Hu) in E1.
          apply (p_label_valid n pairs y v Hlen Hv) in E2. by exists x, y.
        - intros (x & y & H & E1 & E2). exists (x, y). rewrite Hperm. split; [|done].
          unfold p_labels. f_equal; symmetry; by apply (p_label_valid n pairs). }
      split.
      - intros [H|[Hv [H|[_ H]]]].
        + unfold has, adj_has, new_undirected, g_adj, adj_new, adj_tab in H. by destruct H as (? & [=] & _).
        + apply (Hin u v Hv) in H as (x & y & H). exists x, y. tauto.
        + rewrite both_valid_comm in Hv. apply (Hin v u Hv) in H as (x & y & H). exists y, x. tauto.
      - intros (x & y & H & Eu & Ev). right.
        assert (both_valid u v = true) as Hv.
        { apply andb_true_iff. split; by eapply numbered_valid. }
        split; [done|]. destruct H as [H|H].
        + left. apply (Hin u v Hv). by exists x, y.
        + right. split; [done|]. rewrite both_valid_comm in Hv. apply (Hin v u Hv). by exists y, x. }
    exists g. split_and!; [done| |done| |].
    + unfold g, is_undirected. by rewrite und_fold_add_edge.
    + intros k. unfold g. rewrite vc_exact; [|apply (reach_inv p _ Hp); constructor|done].
      split; intros H u v Huv; apply H; by apply exists_has.
    + pose proof (C59_bytes p (sc_env s) (<[a:=OGraph g]> h) a Hp He Hal Ha) as [Hb _].
      unfold pbind at 1. unfold pbind at 1. rewrite (Hb g Hr) by apply lookup_insert. cbn [as_bytes]. unfold pret at 1.
      unfold pbind. destruct (C59_graph_changes (sc_env s) (<[a:=OGraph g]> h) a g Ha ltac:(apply lookup_insert) Hal)
        as (_ & _ & _ & _ & ->). unfold pret. by rewrite delete_insert.
Qed.
Print Assumptions C72_exact.

(** Non-vacuity: -1 is at the place of 4, and -5 at that of 0, which it numbers first. *)
Example C72_exact_case : exists bytes h,
  graph_from_text_file sc64 (lines ["3 -1"; "-1 0"; "0 4"; "-5 3"]%string) ∅ = PyDone bytes h /\
  exists g, graph_try_from plat64 bytes = Ret (Ok g) /\ vertex_count g = 3 /\ edge_count g = 6 /\
    does_edge_exist g 0 2 = true /\ does_edge_exist g 0 1 = true /\ does_edge_exist g 2 1 = true.
Proof. refine (pydone_ok_ex _ _ _ _). by vm_compute. Qed.
Example C72_exact_numbers : let S := sources [(3, -1); (-1, 0); (0, 4); (-5, 3)]%Z in
  firsts 5 S = {[-5; -1; 3]}%Z /\ numbered 5 S 0 0 /\ numbered 5 S 4 1 /\ numbered 5 S 3 2.
Proof.
  assert (firsts 5 (sources [(3, -1); (-1, 0); (0, 4); (-5, 3)]) = {[-5; -1; 3]})%Z as E
    by (apply (bool_decide_eq_true_1 _); by vm_compute).
  cbv zeta. split; [done|]. unfold numbered. rewrite E. split_and!.
  - exists (-5)%Z. split_and!; [set_solver|done|by vm_compute].
  - exists (-1)%Z. split_and!; [set_solver|done|by vm_compute].
  - exists 3%Z. split_and!; [set_solver|done|by vm_compute].
Qed.
Example C72_exact_raises :
  (exists h, graph_from_text_file sc64 (lines ["-3 0"]%string) ∅ = PyRaise ValueError h) /\
  (exists h, graph_from_text_file sc64 (lines ["-2 0"]%string) ∅ = PyRaise IndexError h) /\
  (exists h, graph_from_text_file sc64 (lines ["1 -4"]%string) ∅ = PyRaise IndexError h) /\
  (exists h, graph_from_text_file sc64 (lines ["1 1"; "-4 1"]%string) ∅ = PyRaise IndexError h).
Proof. split_and!; apply pyraise_is; by vm_compute. Qed.

(** ** C73: what validate_graph does with any text file that lists a pair: it looks for an
    edge from the last first number to the last second number of the file. *)
Lemma check_edges_array e x n D M (g : graph) a b (l : list (Z * Z)) h : is_array n D M -> x <> null ->
  h !! x = Some (OGraph g) -> in_array (Z.of_nat n) a -> in_array (Z.of_nat n) b ->
  check_edges e x M a b l h =
    PyDone (if does_edge_exist g (p_label (Z.of_nat n) D a) (p_label (Z.of_nat n) D b) then []
            else replicate (length l) (missing a b)) h.
Proof.
  intros HM Hx Hg Ha Hb. induction l as [|y l IH]; [simpl; by destruct does_edge_exist|].
  cbn [check_edges]. unfold pbind at 1. rewrite (np_get_in n D M a h HM Ha).
  unfold pbind at 1. rewrite (np_get_in n D M b h HM Hb).
  assert (pbind (pyexec e (PDoesEdgeExist x (place_id (Z.of_nat n) D a) (place_id (Z.of_nat n) D b)))
    as_bool h = PyDone (does_edge_exist g (p_label (Z.of_nat n) D a) (p_label (Z.of_nat n) D b)) h) as E.
  { unfold pbind. destruct (C59_graph_queries e h x g Hx Hg) as (_ & _ & _ & H & _). by rewrite H. }
  unfold pbind at 1. rewrite E. unfold pbind. rewrite IH. unfold pret.
  by destruct does_edge_exist.
Qed.

Lemma check_edges_out e x n D M a b (l : list (Z * Z)) h : is_array n D M -> l <> [] ->
  ~ (in_array (Z.of_nat n) a /\ in_array (Z.of_nat n) b) ->
  check_edges e x M a b l h = PyRaise IndexError h.
Proof.
  intros HM Hl Hab. destruct l as [|y l]; [done|]. cbn [check_edges]. unfold pbind at 1.
  destruct (decide (in_array (Z.of_nat n) a)) as [Ha|Ha]; [|by rewrite (np_get_out n D M a h HM Ha)].
  assert (~ in_array (Z.of_nat n) b) as Hb by tauto.
  rewrite (np_get_in n D M a h HM Ha). unfold pbind at 1. by rewrite (np_get_out n D M b h HM Hb).
Qed.

Theorem C73_exact p s file items a b a' m gphrx h : wf_platform p -> ce_platform (sc_env s) = p ->
  wf_alloc_fn (ce_alloc (sc_env s)) -> file_says (sc_digits s) file items ->
  let pairs := item_pairs items in
  N.of_nat (length pairs) < 2 ^ 64 - 1 -> last (item_firsts items) = Some a ->
  last pairs = Some (a', b) -> largest_source pairs m -> is_slice p gphrx ->
  let n := (m + 1)%Z in
  ((n < 0)%Z -> validate_graph s file gphrx h = PyRaise ValueError h) /\
  ((0 <= n)%Z -> sc_array s (Z.to_N n) = false ->
   validate_graph s file gphrx h = PyRaise MemoryError h) /\
  ((0 <= n)%Z -> sc_array s (Z.to_N n) = true ->
   ((exists a b, (a, b) ∈ pairs /\ ~ in_array n a) ->
    validate_graph s file gphrx h = PyRaise IndexError h) /\
   ((forall a b, (a, b) ∈ pairs -> in_array n a) ->
    exists r, graph_try_from p gphrx = Ret r /\
    match r with
    | Err _ => validate_graph s file gphrx h = PyRaise TypeError h
    | Ok g =>
        (~ (in_array n a /\ in_array n b) ->
         exists h', validate_graph s file gphrx h = PyRaise IndexError h') /\
        (in_array n a -> in_array n b -> exists out, validate_graph s file gphrx h = PyDone out h /\
          let found := exists u v, numbered n (sources pairs) a u /\
            numbered n (sources pairs) b v /\ does_edge_exist g u v = true in
          (found -> out = []) /\ (~ found -> out = replicate (length pairs) (missing a b)))
    end)).
Proof.
  intros Hp He Hal Hf pairs Hlen Hfirst Hlast Hm Hsl n. change (2 ^ 64 - 1) with u64_max in Hlen.
  destruct (read_ids_spec _ _ _ Hf) as (Hread & E0 & E1). fold pairs in Hread, E1.
  rewrite Hfirst in E0. rewrite Hlast in E1. cbn in E1. clearbody pairs.
  assert (forall exc, make_map s 1 (sort_pairs pairs) h = PyRaise exc h ->
    validate_graph s file gphrx h = PyRaise exc h) as Hraise.
  { intros exc E. unfold validate_graph. rewrite Hread. unfold pbind at 1. by rewrite E. }
  split_and!.
  { intros Hn. apply Hraise. rewrite (make_map_start s 1 pairs m h Hm). fold n.
    by destruct (Z.ltb_spec n 0); [|lia]. }
  { intros Hn Har. apply Hraise. rewrite (make_map_start s 1 pairs m h Hm). fold n.
    destruct (Z.ltb_spec n 0); [lia|]. by rewrite Har. }
  intros Hn Har. split.
  { intros (x & y & Hxy & Hx). apply Hraise, (make_map_out s 1 pairs m h Hm Hn Har).
    exists x. split; [|done]. apply elem_of_sources. by exists y. }
  intros Hall. assert (Z.of_nat (Z.to_nat n) = n) as En by lia.
  destruct (C60_partial p (sc_env s) h gphrx Hp He Hal Hsl) as [(r & Er & Hr) _].
  exists r. split; [done|].
  destruct (make_map_array s 1 pairs m h Hm Hn Har) as (M & EM & HM).
  { intros x [y Hxy]%elem_of_sources. by apply (Hall x y). }
  fold n in HM.
  destruct r as [g|err].
  2: { unfold validate_graph. rewrite Hread. unfold pbind at 1. rewrite EM.
    unfold pbind at 1. unfold pbind at 1. by rewrite Hr. }
  destruct Hr as (x & Ex & Hx & Hfr).
  assert (validate_graph s file gphrx h =
    pbind (check_edges (sc_env s) x M a b (sort_pairs pairs)) (fun messages =>
    pbind (pyexec (sc_env s) (PDel x)) (fun _ => pret messages)) (<[x:=OGraph g]> h)) as ->.
  { unfold validate_graph. rewrite Hread, E0, E1. unfold pbind at 1. rewrite EM.
    unfold pbind at 1. unfold pbind at 1. by rewrite Ex. }
  assert (<[x:=OGraph g]> h !! x = Some (OGraph g)) as Hg by apply lookup_insert.
  pose proof (Permutation_length (sort_pairs_perm pairs)) as HL. split.
  - intros Hab. unfold pbind at 1.
    rewrite (check_edges_out (sc_env s) x _ _ M a b (sort_pairs pairs) _ HM);
      [by eexists| |by rewrite En].
    intros E. rewrite E in HL. by destruct pairs.
  - intros Ha Hb. unfold pbind at 1.
    rewrite (check_edges_array (sc_env s) x _ _ M g a b (sort_pairs pairs) _ HM Hx Hg) by by rewrite En.
    unfold pbind. destruct (C59_graph_changes (sc_env s) _ x g Hx Hg Hal) as (_ & _ & _ & _ & ->).
    unfold pret. rewrite delete_insert by done. rewrite HL, En. eexists. split; [done|].
    assert (reach p g) as Hr by by eapply r_try_from. apply reach_inv in Hr; [|done].
    cbv zeta. split.
    + intros (u & v & Hu & Hv & Hd).
      rewrite (proj2 (p_label_valid n pairs a u Hlen (numbered_valid n pairs a u Hlen Hu)) Hu).
      rewrite (proj2 (p_label_valid n pairs b v Hlen (numbered_valid n pairs b v Hlen Hv)) Hv).
      by rewrite Hd.
    + intros Hnf. destruct does_edge_exist eqn:E in |- *; [|done]. destruct Hnf.
      pose proof E as E'. apply exists_has, has_valid in E'; [|done].
      apply andb_true_iff in E' as [Va Vb].
      eexists _, _. split_and!; [..|exact E]; by apply (p_label_valid n pairs).
Qed.
Print Assumptions C73_exact.

(** A file without pairs. *)
Theorem C72_none s file items gphrx h : file_says (sc_digits s) file items -> item_pairs items = [] ->
  graph_from_text_file s file h = PyRaise IndexError h /\
  validate_graph s file gphrx h = PyRaise IndexError h.
Proof.
  intros Hf Hn. apply read_says in Hf. rewrite Hn in Hf.
  unfold graph_from_text_file, validate_graph. by rewrite Hf.
Qed.
Print Assumptions C72_none.

(** Non-vacuity: underscores, signs and spaces; words that are no numbers; the three ends of
    a line; the last first number need not be the first number of a pair. *)
Example C72_reading_case :
  let v := read_ids (Some 4) (txt "1_0 +2" ++ [ascii_of_N 13] ++ txt "  -1_2_3	0007 " ++
    [ascii_of_N 13; ascii_of_N 10; ascii_of_N 13; ascii_of_N 10] ++ txt "5 6_" ++ [ascii_of_N 10] ++
    txt "5 1__6" ++ [ascii_of_N 10] ++ txt "_5 6" ++ [ascii_of_N 10] ++ txt "12345 6" ++ [ascii_of_N 10] ++
    txt "#9 9" ++ [ascii_of_N 10] ++ txt "1 2 3" ++ [ascii_of_N 10] ++ txt "8 1_2345" ++ [ascii_of_N 10] ++
    txt "--9 9") in
  id_pairs v = [(10, 2); (-123, 7)]%Z /\ id0 v = Some 8%Z /\ id1 v = Some 7%Z.
Proof. by vm_compute. Qed.
(** The edge from 0 to 1 is looked up because of the line "0 x". *)
Example C73_half_case : exists h,
  validate_graph sc64 (lines ["0 1"; "1 1"; "0 x"]%string) (graph_file true 2 1 [(1, 1)]) ∅ =
    PyDone (replicate 2 (missing 0 1)) h.
Proof. apply pydone_is. by vm_compute. Qed.
Example C73_half_raises : exists h,
  validate_graph sc64 (lines ["0 1"; "1 1"; "2 x"]%string) (graph_file true 2 1 [(1, 1)]) ∅ =
    PyRaise IndexError h.
Proof. apply pyraise_is. by vm_compute. Qed.

Example C73_exact_case : exists h,
  validate_graph sc64 (lines ["3 -1"; "-1 0"; "2 -4"]%string) (graph_file true 3 2 [(0, 1); (1, 0)]) ∅ =
    PyDone (replicate 3 (missing 2 (-4))) h.
Proof. apply pydone_is. by vm_compute. Qed.
Example C73_exact_found : exists h,
  validate_graph sc64 (lines ["3 -1"; "2 -4"; "-1 2"]%string) (graph_file true 3 2 [(0, 1); (1, 0)]) ∅ =
    PyDone [] h.
Proof. apply pydone_is. by vm_compute. Qed.
