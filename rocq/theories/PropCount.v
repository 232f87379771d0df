(** Properties C85 to C87: links of undirected graphs are counted twice, approximations are
    smaller than what they approximate, and approximating in steps. *)
From Coq Require Import ZArith Ascii String.
From Verif Require Import Base HashIter F64 Numeric Adj Sq Standard Compressed Spec MatSpec FloatSpec Api
  AdjProofs SqProofs GraphProofs BitsProofs CompressProofs BytesProofs GraphCodecProofs
  CGraphCodecProofs PoolProofs ApproxProofs CodecMoreProofs PoolValueProofs PropCommon PropGraph PropMatrix PropCompress
  PropCodec PropPool PropPoolMore PropSize.
Local Arguments N.mul : simpl never.
Local Arguments N.add : simpl never.
Local Arguments N.pow : simpl never.

(** ** C85 *)

Lemma filter_card {A} (P Q : A -> Prop) `{!forall x, Decision (Q x)} k : has_card P k ->
  exists a, has_card (fun x => P x /\ Q x) a.
Proof.
  intros (l & Hnd & Hl & _). eexists. exists (filter Q l). split_and!; [by apply NoDup_filter| |done].
  intros x. rewrite elem_of_list_filter, Hl. tauto.
Qed.

Lemma diagonal_card (E : N -> N -> Prop) k : has_card (fun '(u, v) => E u v) k ->
  exists b, has_card (fun u => E u u) b.
Proof.
  intros Hk. destruct (filter_card _ (fun x : N * N => x.1 = x.2) k Hk) as (b & l & Hnd & Hl & _).
  eexists. exists (fst <$> l). split; [|split; [|reflexivity]].
  - apply NoDup_fmap_2_strong; [|done]. intros [u v] [u' v'] H1 H2 E'. simpl in E'. subst u'.
    apply Hl in H1 as [_ H1], H2 as [_ H2]. simpl in H1, H2. by subst.
  - intros u. rewrite elem_of_list_fmap. split.
    + intros ([u' v'] & -> & Hin). apply Hl in Hin as [? E']. simpl in E' |- *. by subst v'.
    + intros He. exists (u, u). split; [done|]. by apply Hl.
Qed.

(** A symmetric relation with [a] pairs above the diagonal and [b] on it. *)
Lemma symmetric_card (E : N -> N -> Prop) k a b : (forall u v, E u v -> E v u) ->
  has_card (fun '(u, v) => E u v) k -> has_card (fun '(u, v) => E u v /\ u < v) a ->
  has_card (fun u => E u u) b -> k = 2 * a + b.
Proof.
  intros Hsym Hk (la & Hna & Hla & <-) (lb & Hnb & Hlb & <-).
  set (swap := fun '(u, v) => (v, u) : N * N). set (diag := fun u => (u, u) : N * N).
  assert (has_card (fun '(u, v) => E u v)
    (N.of_nat (length (la ++ (swap <$> la) ++ (diag <$> lb))))) as Hk'.
  { eexists. split; [|split; [|reflexivity]].
    - apply NoDup_app. split; [done|]. split.
      { intros [u v] Hin. rewrite elem_of_app, !elem_of_list_fmap.
        apply Hla in Hin as [_ Hlt]. intros [([u' v'] & [= -> ->] & Hin)|(x & [= -> ->] & _)]; [|lia].
        apply Hla in Hin as [_ ?]. lia. }
      apply NoDup_app. split; [|split].
      + apply NoDup_fmap_2; [|done]. intros [u v] [u' v'] [= -> ->]. done.
      + intros [u v]. rewrite !elem_of_list_fmap. intros ([u' v'] & [= -> ->] & Hin) (x & [= -> ->] & _).
        apply Hla in Hin as [_ ?]. lia.
      + apply NoDup_fmap_2; [|done]. intros u u' [= ->]. done.
    - intros [u v]. rewrite !elem_of_app, !elem_of_list_fmap. split.
      + intros [Hin|[([u' v'] & [= -> ->] & Hin)|(x & [= -> ->] & Hin)]].
        * by apply Hla in Hin as [? _].
        * apply Hla in Hin as [? _]. by apply Hsym.
        * by apply Hlb.
      + intros HE. destruct (N.lt_trichotomy u v) as [H|[<-|H]].
        * left. by apply (Hla (u, v)).
        * right; right. exists u. split; [done|]. by apply Hlb.
        * right; left. exists (v, u). split; [done|]. apply (Hla (v, u)). split; [by apply Hsym|done]. }
  rewrite (has_card_unique _ _ _ Hk Hk'), !app_length, !fmap_length. lia.
Qed.

(** Edges between different vertices of an undirected graph come in pairs; an edge from a
    vertex to itself comes once. *)
Theorem C85_links p g : wf_platform p -> reach p g -> is_undirected g = true ->
  exists a b, has_card (fun '(u, v) => does_edge_exist g u v = true /\ u < v) a /\
    has_card (fun u => does_edge_exist g u u = true) b /\
    edge_count g = (2 * a + b) mod 2 ^ 64.
Proof.
  intros Hp Hr Hu.
  destruct (C05_edge_count p g Hp Hr) as (k & Hk & Ec).
  assert (exists a, has_card (fun '(u, v) => does_edge_exist g u v = true /\ u < v) a) as [a Ha].
  { destruct (filter_card _ (fun x : N * N => x.1 < x.2) k Hk) as [a Ha].
    exists a. eapply has_card_ext; [|exact Ha]. by intros [u v]. }
  destruct (diagonal_card (fun u v => does_edge_exist g u v = true) k Hk) as [b Hb].
  exists a, b. split_and!; [done|done|]. rewrite Ec. f_equal.
  eapply (symmetric_card (fun u v => does_edge_exist g u v = true)); [|exact Hk|exact Ha|exact Hb].
  intros u v. by rewrite (C03_undirected_symmetric p g Hp Hr Hu u v).
Qed.
Print Assumptions C85_links.

(** The same of what compress makes of an undirected graph; its count stops at 2^64 - 1. *)
Theorem C85_compressed_links p o1 o2 g l cg : wf_platform p -> reach p g ->
  compress p o1 o2 g l = Ret cg -> c_is_undirected cg = true ->
  exists a b, has_card (fun '(u, v) => c_does_edge_exist cg u v = true /\ u < v) a /\
    has_card (fun u => c_does_edge_exist cg u u = true) b /\
    c_edge_count cg = N.min (2 * a + b) (2 ^ 64 - 1).
Proof.
  intros Hp Hr Hc Hu.
  assert (exists k, has_card (fun '(u, v) => c_does_edge_exist cg u v = true) k) as [k Hk].
  { pose proof Hr as Hi. apply reach_inv in Hi; [|done].
    destruct (compress_spec p o1 o2 g l Hi) as (x & Hx & Hco). rewrite Hc in Hx. injection Hx as <-.
    eexists. apply (c_has_card plain_order cg), Hco. }
  destruct (C26_edge_count_partial p cg k Hp Hk) as [Ec _]. specialize (Ec o1 o2 g l Hr Hc).
  assert (exists a, has_card (fun '(u, v) => c_does_edge_exist cg u v = true /\ u < v) a) as [a Ha].
  { destruct (filter_card _ (fun x : N * N => x.1 < x.2) k Hk) as [a Ha].
    exists a. eapply has_card_ext; [|exact Ha]. by intros [u v]. }
  destruct (diagonal_card (fun u v => c_does_edge_exist cg u v = true) k Hk) as [b Hb].
  exists a, b. split_and!; [done|done|]. rewrite Ec. f_equal.
  eapply (symmetric_card (fun u v => c_does_edge_exist cg u v = true)); [|exact Hk|exact Ha|exact Hb].
  intros u v. by rewrite (C27_symmetric_partial p o1 o2 g l cg u v Hp Hr Hc Hu).
Qed.
Print Assumptions C85_compressed_links.

Example C85_case : reach plat64 sample_und /\ is_undirected sample_und = true /\
  edge_count sample_und = 7 /\ does_edge_exist sample_und 4 4 = true.
Proof. split; [apply sample_und_reach|]. by vm_compute. Qed.

(** ** C86 *)

Lemma image_card {A B} (P : A -> Prop) (Q : B -> Prop) (f : A -> B) k k' :
  has_card P k -> has_card Q k' -> (forall y, Q y -> exists x, P x /\ f x = y) -> k' <= k.
Proof.
  intros (l & _ & Hl & <-) (l' & Hnd' & Hl' & <-) HQ.
  assert (length l' <= length (f <$> l))%nat as H.
  { apply submseteq_length, NoDup_submseteq; [done|]. intros y Hy. apply Hl', HQ in Hy as (x & Hx & <-).
    apply elem_of_list_fmap_1. by apply Hl. }
  rewrite fmap_length in H. lia.
Qed.

(** Whatever the block dimension (from 2) and threshold: fewer vertices, at least one, and
    no more edges, each standing for an edge of its block. *)
Theorem C86_smaller p o1 o2 g b t g' k k' : wf_platform p -> reach p g ->
  2 <= b -> 2 <= vertex_count g -> approximate p o1 o2 g b t = Ret g' ->
  has_card (fun '(u, v) => does_edge_exist g u v = true) k ->
  has_card (fun '(u, v) => does_edge_exist g' u v = true) k' ->
  let b' := N.min b (vertex_count g) in
  1 <= vertex_count g' /\ 2 * vertex_count g' <= vertex_count g + 1 /\
  b' * (vertex_count g' - 1) < vertex_count g /\ vertex_count g <= b' * vertex_count g' /\
  (forall c r, does_edge_exist g' c r = true ->
     exists u v, does_edge_exist g u v = true /\ u / b' = c /\ v / b' = r) /\
  k' <= k /\ k' <= vertex_count g' * vertex_count g'.
Proof.
  intros Hp Hr Hb Hn Ha Hk Hk' b'. apply reach_inv in Hr; [|done].
  pose proof (approximate_eq p o1 o2 g b t Hr ltac:(lia) ltac:(lia)) as H. simpl in H. fold b' in H.
  destruct (u64_mul p b' b') as [square| |]; [|congruence|done].
  destruct H as (x & Hx & Hof). rewrite Ha in Hx. injection Hx as <-.
  assert (2 <= b' <= vertex_count g) as Hb' by (unfold b'; lia).
  destruct (blocks_per_row_spec (vertex_count g) b') as [H1 H2]; [lia|].
  specialize (H2 ltac:(lia)). rewrite <- (ao_n _ _ _ _ _ Hof) in H1, H2.
  assert (forall c r, does_edge_exist g' c r = true ->
     exists u v, does_edge_exist g u v = true /\ u / b' = c /\ v / b' = r) as Hall.
  { intros c r. rewrite exists_has, (ao_has _ _ _ _ _ Hof). unfold survives. intros Hs.
    setoid_rewrite exists_has. apply block_count_pos.
    destruct (block_count g b' c r); [discriminate Hs|lia]. }
  assert (1 <= vertex_count g') by (destruct (N.eq_dec (vertex_count g') 0); nia).
  split_and!; [done|nia|done|lia|done| |].
  - eapply (image_card _ _ (fun '(u, v) => (u / b', v / b'))); [exact Hk|exact Hk'|].
    intros [c r] He. destruct (Hall c r He) as (u & v & ? & <- & <-). by exists (u, v).
  - eapply cells_le; [exact Hk'|]. intros c r He. cbn beta in He.
    apply exists_has in He. by apply has_bound; [apply (ao_inv _ _ _ _ _ Hof)|].
Qed.
Print Assumptions C86_smaller.

(** So the file of an approximation is never longer. *)
Theorem C86_files p o1 o2 o3 o4 g b t g' k bytes bytes' : wf_platform p -> reach p g ->
  is_u64 b -> is_f64 t = true -> approximate p o1 o2 g b t = Ret g' ->
  has_card (fun '(u, v) => does_edge_exist g u v = true) k -> k < 2 ^ 64 ->
  graph_to_bytes p o3 g = Ok bytes -> graph_to_bytes p o4 g' = Ok bytes' ->
  (length bytes' <= length bytes)%nat.
Proof.
  intros Hp Hr Hb Ht Ha Hk Hk64 Hg Hg'.
  assert (reach p g') as Hr' by (by eapply (r_approximate p o1 o2 g b t)).
  destruct (C05_edge_count p g' Hp Hr') as (k' & Hk' & _).
  assert (k' <= k) as Hle.
  { destruct (decide (b <= 1 \/ vertex_count g <= 1)) as [Hc|Hc].
    - rewrite approximate_copy in Ha by done. injection Ha as <-.
      by rewrite (has_card_unique _ _ _ Hk Hk').
    - by apply (C86_smaller p o1 o2 g b t g' k k' Hp Hr ltac:(lia) ltac:(lia) Ha Hk Hk'). }
  pose proof (C17_graph_layout p o3 g k Hp Hr Hk Hk64) as HL.
  pose proof (C17_graph_layout p o4 g' k' Hp Hr' Hk' ltac:(unfold two64; lia)) as HL'.
  destruct (_ && _); [|destruct HL as (? & HL); rewrite Hg in HL; discriminate HL].
  destruct (_ && _); [|destruct HL' as (? & HL'); rewrite Hg' in HL'; discriminate HL'].
  destruct HL as (x & ? & Hx & _ & _ & _ & El). rewrite Hg in Hx. injection Hx as <-.
  destruct HL' as (x & ? & Hx & _ & _ & _ & El'). rewrite Hg' in Hx. injection Hx as <-. lia.
Qed.
Print Assumptions C86_files.

Example C86_case : exists g', approximate plat64 plain_order reversed_order sample_dir 3 f64_zero = Ret g' /\
  vertex_count sample_dir = 9 /\ vertex_count g' = 3 /\ edge_count g' <? edge_count sample_dir = true.
Proof. apply ret_ex. by vm_compute. Qed.

(** ** C87 *)

(** With a threshold of zero or less: the vertices of each block become one. *)
Lemma zoom p o1 o2 g b t g' : wf_platform p -> reach p g -> is_f64 t = true ->
  f64_le t f64_zero = true -> 1 <= b -> N.min b (vertex_count g) <= 10 ^ 9 ->
  approximate p o1 o2 g b t = Ret g' ->
  is_undirected g' = is_undirected g /\ vertex_count g' = (vertex_count g + b - 1) / b /\
  forall c r, does_edge_exist g' c r = true <->
    exists u v, does_edge_exist g u v = true /\ u / b = c /\ v / b = r.
Proof.
  intros Hp Hr Ht Hle Hb H9 Ha. pose proof Hr as Hi. apply reach_inv in Hi; [|done].
  assert (forall u v, does_edge_exist g u v = true -> u < vertex_count g /\ v < vertex_count g) as Hlt.
  { intros u v He. apply exists_has in He. by apply has_bound. }
  destruct (decide (b <= 1 \/ vertex_count g <= 1)) as [Hc|Hc].
  - rewrite approximate_copy in Ha by done. injection Ha as <-. split; [done|].
    destruct (N.eq_dec b 1) as [->|Hb1].
    { split; [rewrite N.div_1_r; lia|]. intros c r. setoid_rewrite N.div_1_r. split; [eauto|].
      by intros (u & v & ? & -> & ->). }
    assert (vertex_count g <= 1) as Hn by lia. split.
    { destruct (N.eq_dec (vertex_count g) 0) as [->|]; [symmetry; apply N.div_small; lia|].
      replace (vertex_count g) with 1 by lia. apply (N.div_unique _ b 1 0); lia. }
    intros c r. split.
    + intros He. exists c, r. destruct (Hlt c r He). split_and!; [done|..]; rewrite N.div_small; lia.
    + intros (u & v & He & <- & <-). destruct (Hlt u v He). rewrite !N.div_small by lia.
      by replace u with 0 in He by lia; replace v with 0 in He by lia.
  - destruct (C69_extreme_thresholds p o1 o2 g b t g' Hp Hr ltac:(lia) ltac:(lia) Ht Ha) as [Hz _].
    specialize (Hz Hle H9).
    pose proof (approximate_eq p o1 o2 g b t Hi ltac:(lia) ltac:(lia)) as H. simpl in H.
    set (b' := N.min b (vertex_count g)) in *.
    destruct (u64_mul p b' b') as [square| |]; [|congruence|done].
    destruct H as (x & Hx & Hof). rewrite Ha in Hx. injection Hx as <-.
    split; [apply Hof|]. destruct (N.le_gt_cases b (vertex_count g)) as [Hbn|Hbn].
    + replace b' with b in * by (unfold b'; lia). split; [|done].
      rewrite (ao_n _ _ _ _ _ Hof). apply blocks_ceil. lia.
    + replace b' with (vertex_count g) in * by (unfold b'; lia). split.
      { rewrite (ao_n _ _ _ _ _ Hof), blocks_ceil by lia.
        transitivity 1; [symmetry; apply (N.div_unique _ _ 1 (vertex_count g - 1)); lia|].
        apply (N.div_unique _ b 1 (vertex_count g - 1)); lia. }
      intros c r. rewrite Hz.
      split; intros (u & v & He & <- & <-); exists u, v; destruct (Hlt u v He);
        rewrite !(N.div_small u), !(N.div_small v) by lia; done.
Qed.

Lemma ceil_ceil n a b : 1 <= a -> 1 <= b -> ((n + a - 1) / a + b - 1) / b = (n + a * b - 1) / (a * b).
Proof.
  intros Ha Hb. rewrite <- N.div_div by lia. f_equal.
  replace (n + a * b - 1) with (n + a - 1 + (b - 1) * a) by nia.
  rewrite N.div_add by lia. generalize ((n + a - 1) / a). intros x. clear -Hb. lia.
Qed.

(** Two approximations with thresholds of zero or less are one with the product of the block
    dimensions.  The thresholds may differ, and so may the orders of the tables. *)
Theorem C87_two_steps p o1 o2 o3 o4 o5 o6 g b1 b2 t1 t2 t3 g1 g2 g' : wf_platform p -> reach p g ->
  is_f64 t1 = true -> is_f64 t2 = true -> is_f64 t3 = true ->
  f64_le t1 f64_zero = true -> f64_le t2 f64_zero = true -> f64_le t3 f64_zero = true ->
  1 <= b1 -> 1 <= b2 -> is_u64 b1 -> N.min (b1 * b2) (vertex_count g) <= 10 ^ 9 ->
  approximate p o1 o2 g b1 t1 = Ret g1 -> approximate p o3 o4 g1 b2 t2 = Ret g2 ->
  approximate p o5 o6 g (b1 * b2) t3 = Ret g' -> same_graph g2 g'.
Proof.
  intros Hp Hr Ht1 Ht2 Ht3 Hz1 Hz2 Hz3 Hb1 Hb2 Hu1 H9 H1 H2 H3.
  assert (b1 <= b1 * b2 /\ b2 <= b1 * b2) as [Hle1 Hle2] by nia.
  destruct (zoom p o1 o2 g b1 t1 g1 Hp Hr Ht1 Hz1 Hb1 ltac:(lia) H1) as (Eu1 & En1 & Ee1).
  assert (reach p g1) as Hr1 by (by eapply (r_approximate p o1 o2 g b1 t1)).
  assert (vertex_count g1 <= vertex_count g) as Hn1.
  { rewrite En1. apply N.lt_succ_r. apply N.div_lt_upper_bound; nia. }
  destruct (zoom p o3 o4 g1 b2 t2 g2 Hp Hr1 Ht2 Hz2 Hb2 ltac:(lia) H2) as (Eu2 & En2 & Ee2).
  destruct (zoom p o5 o6 g (b1 * b2) t3 g' Hp Hr Ht3 Hz3 ltac:(nia) H9 H3) as (Eu3 & En3 & Ee3).
  assert (forall u v, does_edge_exist g2 u v = does_edge_exist g' u v) as Hall.
  { intros u v. apply eq_true_iff_eq. rewrite Ee2, Ee3. split.
    - intros (c & r & Hcr & <- & <-). apply Ee1 in Hcr as (x & y & Hxy & <- & <-).
      exists x, y. rewrite <- !N.div_div by lia. done.
    - intros (x & y & Hxy & <- & <-). exists (x / b1), (y / b1).
      rewrite <- !N.div_div by lia. split; [|done]. apply Ee1. eauto. }
  split_and!; [by rewrite Eu2, Eu1, Eu3| | |done]; cycle 1.
  { assert (graph_inv g2) as Hi2 by (eapply (approximate_inv p o3 o4 g1 b2 t2); [by apply (reach_inv p)|done]).
    assert (graph_inv g') as Hi' by (eapply (approximate_inv p o5 o6 g _ t3); [by apply (reach_inv p)|done]).
    rewrite (edge_count_card g2 _ Hi2 (has_card_edges g2)). symmetry. apply edge_count_card; [done|].
    eapply has_card_ext; [|apply (has_card_edges g2)]. intros [u v]. by rewrite Hall. }
  rewrite En2, En1, En3. by apply ceil_ceil.
Qed.
Print Assumptions C87_two_steps.

Example C87_case :
  match approximate plat64 plain_order reversed_order sample_dir 2 f64_zero,
        approximate plat64 plain_order plain_order sample_dir (2 * 2) f64_zero with
  | Ret g1, Ret g' =>
      match approximate plat64 reversed_order plain_order g1 2 f64_zero with
      | Ret g2 => vertex_count g1 = 5 /\ vertex_count g2 = 3 /\ vertex_count g' = 3 /\
          edge_count g2 = edge_count g'
      | _ => False
      end
  | _, _ => False
  end.
Proof. vm_compute. split_and!; reflexivity. Qed.

(** ** C43: what the entry count of a matrix counts after any calls.  It is the number of
    entries that iteration visits; it is the number of non-zero cells exactly when no zero is
    among them. *)
Lemma filter_all {A} (Q : A -> Prop) `{!forall x, Decision (Q x)} (l : list A) :
  (length (filter Q l) <= length l)%nat /\ (length (filter Q l) = length l <-> forall x, x ∈ l -> Q x).
Proof.
  induction l as [|y l [IH1 IH2]]; [split; [done|]; split; [by intros _ x ?%elem_of_nil|done]|].
  rewrite filter_cons. case_decide as E; simpl.
  - split; [lia|]. split.
    + intros Hf x [->|Hx]%elem_of_cons; [done|]. apply IH2; [lia|done].
    + intros Hf. f_equal. apply IH2. intros x Hx. apply Hf. by right.
  - split; [lia|]. split; [lia|]. intros Hf. destruct E. apply Hf. by left.
Qed.

Theorem C43_exact T (num : numeric T) p o ops (m : sq T) :
  num_eq num (num_zero num) (num_zero num) = true -> mrun p num ops = Ret m ->
  exists k, has_card (fun '(c, r) => num_eq num (sq_get_entry num m c r) (num_zero num) = false) k /\
    sq_entry_count m = N.of_nat (length (sq_items o m)) mod 2 ^ 64 /\
    k <= N.of_nat (length (sq_items o m)) /\
    (k = N.of_nat (length (sq_items o m)) <->
       forall e c r, (e, c, r) ∈ sq_items o m -> num_eq num e (num_zero num) = false).
Proof.
  intros Hz Hm. destruct (C44_square_iteration T num p o ops m Hm) as (Hnd & Hval & Hin & Hcnt & _).
  set (Q := fun x : T * N * N => num_eq num x.1.1 (num_zero num) = false).
  assert (forall x : T * N * N, Decision (Q x)) as Hdec by (intros x; apply _).
  destruct (filter_all Q (sq_items o m)) as [Hle Heq].
  exists (N.of_nat (length (filter Q (sq_items o m)))). split_and!; [|done|lia|].
  - exists ((fun '(e, c, r) => (c, r)) <$> filter Q (sq_items o m)).
    split; [|split; [|by rewrite fmap_length]].
    + clear -Hnd Hdec. induction (sq_items o m) as [|[[e c] r] l IH]; [constructor|].
      rewrite fmap_cons, NoDup_cons in Hnd. destruct Hnd as [Hx Hnd]. rewrite filter_cons.
      case_decide; [|by apply IH]. rewrite fmap_cons. constructor; [|by apply IH].
      intros Hy. apply Hx. rewrite elem_of_list_fmap in Hy |- *. destruct Hy as (y & E & Hy).
      exists y. split; [done|]. by apply elem_of_list_filter in Hy as [_ Hy].
    + intros [c r]. rewrite elem_of_list_fmap. split.
      * intros ([[e c'] r'] & [= -> ->] & Hx). apply elem_of_list_filter in Hx as [HQ Hx].
        by rewrite (Hval _ _ _ Hx).
      * intros Hne. exists (sq_get_entry num m c r, c, r). split; [done|].
        apply elem_of_list_filter. split; [done|]. by apply Hin.
  - rewrite Nat2N.inj_iff, Heq. split; [intros H e c r; apply H|intros H [[e c] r]; apply H].
Qed.
Print Assumptions C43_exact.
