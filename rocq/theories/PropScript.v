(** Properties C72 to C76: the scripts, the choice of the library file, the sample files. *)
From Coq Require Import ZArith Ascii String.
From Verif Require Import Base HashIter F64 Numeric Adj Sq Standard Compressed Spec TextSpec Api CApi
  CSpec Py PySpec Script ScriptSpec AdjProofs GraphProofs PoolProofs CompressProofs GraphCodecProofs
  CGraphCodecProofs ApproxProofs BitsProofs BytesProofs CodecMoreProofs GraphMoreProofs ScriptProofs ErrSpec
  PropCommon
  PropGraph PropCompress PropCodec PropErrors PropC PropPy.
Local Arguments N.mul : simpl never.
Local Arguments N.add : simpl never.
Local Arguments N.pow : simpl never.

(** ** C72 *)

Definition c_label (D : gset Z) (x : Z) : N := c_uint64 (new_id D x).
Definition c_labels (D : gset Z) : Z * Z -> N * N := fun '(x, y) => (c_label D x, c_label D y).

Lemma add_pairs_done e a n D M l : is_map n D M -> a <> null -> wf_alloc_fn (ce_alloc e) ->
  (forall x y, (x, y) ∈ l -> (0 <= x < Z.of_nat n)%Z /\ (0 <= y < Z.of_nat n)%Z) ->
  forall h g, h !! a = Some (OGraph g) ->
  add_pairs e a M l h =
    PyDone tt (<[a := OGraph (fold_left (fun g '(u, v) => add_edge g u v) (c_labels D <$> l) g)]> h).
Proof.
  intros HM Ha Hal. induction l as [|[x y] l IH]; intros Hb h g Hg.
  - simpl. by rewrite insert_id.
  - destruct (Hb x y ltac:(left)) as [Hx Hy]. cbn [add_pairs]. unfold pbind at 1.
    rewrite (np_get_map n D M x h HM Hx). unfold pbind at 1. rewrite (np_get_map n D M y h HM Hy).
    unfold pbind. destruct (C59_graph_changes e h a g Ha Hg Hal) as [H _]. rewrite H.
    rewrite (IH ltac:(intros x' y' ?; apply (Hb x' y'); by right) _
      (add_edge g (c_label D x) (c_label D y))) by apply lookup_insert.
    by rewrite insert_insert.
Qed.

Lemma add_pairs_over e a n D M l : is_map n D M -> a <> null -> wf_alloc_fn (ce_alloc e) ->
  (forall x y, (x, y) ∈ l -> (0 <= x < Z.of_nat n)%Z /\ (0 <= y)%Z) ->
  (exists x y, (x, y) ∈ l /\ (Z.of_nat n <= y)%Z) ->
  forall h g, h !! a = Some (OGraph g) -> exists h', add_pairs e a M l h = PyRaise IndexError h'.
Proof.
  intros HM Ha Hal. induction l as [|[x y] l IH]; intros Hb (x0 & y0 & Hin & Hy0) h g Hg.
  - by apply elem_of_nil in Hin.
  - destruct (Hb x y ltac:(left)) as [Hx Hy]. cbn [add_pairs]. unfold pbind at 1.
    rewrite (np_get_map n D M x h HM Hx). unfold pbind at 1.
    destruct (decide (Z.of_nat n <= y)%Z) as [Hover|Hin'].
    + rewrite (np_get_over n D M y h HM Hover). by eexists.
    + rewrite (np_get_map n D M y h HM) by lia.
      unfold pbind. destruct (C59_graph_changes e h a g Ha Hg Hal) as [H _]. rewrite H.
      apply (IH ltac:(intros x' y' ?; apply (Hb x' y'); by right)) with
        (add_edge g (c_label D x) (c_label D y)); [|apply lookup_insert].
      exists x0, y0. split; [|done]. apply elem_of_cons in Hin as [[= -> ->]|?]; [lia|done].
Qed.

Lemma make_map_done s spare pairs m h : largest_source pairs m ->
  (forall a b, (a, b) ∈ pairs -> (0 <= a)%Z) -> (1 <= spare)%Z ->
  sc_array s (Z.to_N (m + spare)) = true ->
  exists M, make_map s spare (sort_pairs pairs) h = PyDone M h /\
    is_map (Z.to_nat (m + spare)) (sources pairs) M.
Proof.
  intros [Hm Hmax] Hpos Hsp Har.
  pose proof (sort_pairs_sorted pairs) as Hs. pose proof (sort_pairs_perm pairs) as Hp.
  assert (0 <= m)%Z as Hm0 by (apply elem_of_sources in Hm as [b Hb]; by eapply Hpos).
  unfold make_map. destruct (last (sort_pairs pairs)) as [[m' b]|] eqn:El.
  - assert (m' = m) as ->.
    { destruct (sorted_last _ _ _ Hs El) as [H1 H2]. rewrite (sources_perm _ _ Hp) in H1, H2.
      apply Hmax in H1. apply H2 in Hm. lia. }
    unfold pbind, np_full. destruct (Z.ltb_spec (m + spare) 0); [lia|]. rewrite Har. unfold pret.
    destruct (number_ids_spec (Z.to_nat (m + spare)) (sort_pairs pairs) ∅
      (replicate (Z.to_nat (m + spare)) (-1)%Z) h) as (M & E & HM).
    + split; [apply replicate_length|]. intros x Hx. rewrite lookup_replicate_2 by lia.
      unfold new_id. by rewrite decide_False by set_solver.
    + done.
    + set_solver.
    + intros i j Hij. rewrite Hp in Hij. pose proof (Hpos i j Hij).
      assert (i <= m)%Z by (apply Hmax, elem_of_sources; by exists j). lia.
    + exists M. rewrite size_empty in E. split; [exact E|].
      by rewrite (right_id_L ∅ (∪)), (sources_perm _ _ Hp) in HM.
  - apply last_None in El. rewrite El in Hp. apply Permutation_nil in Hp as ->.
    apply elem_of_sources in Hm as [b Hb]. by apply elem_of_nil in Hb.
Qed.

Lemma c_uint64_small n : n < two64 -> c_uint64 (Z.of_N n) = n.
Proof. intros H. unfold c_uint64. rewrite Z.mod_small by lia. lia. Qed.

Lemma sources_size pairs : (size (sources pairs) <= length pairs)%nat.
Proof.
  unfold sources. induction pairs as [|[a b] l IH]; [done|]. cbn [fmap list_fmap list_to_set].
  rewrite size_union_alt, size_singleton. cbn [length].
  assert (list_to_set l.*1 ∖ {[a]} ⊆ (list_to_set l.*1 : gset Z)) as H%subseteq_size by set_solver.
  simpl in *. lia.
Qed.

Lemma c_label_valid pairs x u : N.of_nat (length pairs) < u64_max -> valid_id u = true ->
  c_label (sources pairs) x = u <-> x ∈ sources pairs /\ rank (sources pairs) x = u.
Proof.
  intros Hl Hu. unfold valid_id in Hu. apply N.ltb_lt in Hu. unfold c_label, new_id.
  pose proof (rank_le (sources pairs) x) as Hr. pose proof (sources_size pairs) as Hs.
  unfold u64_max, two64 in *. destruct (decide _) as [Hx|Hx].
  - rewrite c_uint64_small by (unfold two64; lia). tauto.
  - split; [|tauto]. intros E. change (c_uint64 (-1)) with 18446744073709551615 in E. lia.
Qed.

Lemma reach_add_pairs p (l : list (N * N)) g : reach p g ->
  (forall u v, (u, v) ∈ l -> is_u64 u /\ is_u64 v) ->
  reach p (fold_left (fun g '(u, v) => add_edge g u v) l g).
Proof.
  revert g. induction l as [|[u v] l IH]; intros g Hg Hl; [done|]. simpl. apply IH.
  - destruct (Hl u v ltac:(left)). by apply r_add_edge.
  - intros u' v' H. apply Hl. by right.
Qed.

Lemma vc_exact l g k : graph_inv g -> vertex_count g = 0 ->
  let g' := fold_left (fun g '(u, v) => add_edge g u v) l g in
  vertex_count g' <= k <-> forall u v, has g' u v -> u < k /\ v < k.
Proof.
  intros Hi H0 g'. split.
  - intros Hk u v Huv. apply (has_bound g') in Huv; [lia|]. by apply graph_inv_fold_add_edge.
  - intros Hk. unfold g' in *. clear g'. revert g Hi H0 Hk.
    assert (forall g, graph_inv g -> vertex_count g <= k ->
      (forall u v, has (fold_left (fun g '(u, v) => add_edge g u v) l g) u v -> u < k /\ v < k) ->
      vertex_count (fold_left (fun g '(u, v) => add_edge g u v) l g) <= k) as H; [|intros; apply H; (done || lia)].
    induction l as [|[u v] l IH]; intros g Hi H0 Hk; [done|]. simpl in *. apply IH.
    + by apply graph_inv_add_edge.
    + rewrite vc_add_edge. destruct (both_valid u v) eqn:E; [|done].
      destruct (Hk u v) as [? ?]; [|lia]. apply has_fold_add_edge. left. apply has_add_edge. right.
      split; [done|]. by left.
    + done.
Qed.

Lemma read_pairs limit file pairs : shows_pairs limit file pairs ->
  id_pairs (read_ids limit file) = pairs.
Proof. intros H. by destruct (read_lines_spec limit file pairs (Ids [] None None) H) as [H' _]. Qed.

(** What graph_from_text_file writes for a file listing the pairs [pairs] of non-negative
    numbers, when there is memory.  The numbers that occur as sources are replaced by their
    ranks, and only edges between such numbers are kept. *)
Theorem C72_output p s file pairs h : wf_platform p -> ce_platform (sc_env s) = p ->
  wf_alloc_fn (ce_alloc (sc_env s)) -> shows_pairs (sc_digits s) file pairs ->
  (forall a b, (a, b) ∈ pairs -> (0 <= a /\ 0 <= b)%Z) -> N.of_nat (length pairs) < u64_max ->
  (pairs = [] -> graph_from_text_file s file h = PyRaise IndexError h) /\
  forall m, largest_source pairs m -> sc_array s (Z.to_N (m + 2)) = true ->
  ((exists a b, (a, b) ∈ pairs /\ (m + 1 < b)%Z) ->
   exists h', graph_from_text_file s file h = PyRaise IndexError h') /\
  ((forall a b, (a, b) ∈ pairs -> (b <= m + 1)%Z) ->
   exists g, reach p g /\ is_undirected g = true /\
    (forall u v, does_edge_exist g u v = true <->
       exists a b, ((a, b) ∈ pairs \/ (b, a) ∈ pairs) /\ a ∈ sources pairs /\ b ∈ sources pairs /\
         u = rank (sources pairs) a /\ v = rank (sources pairs) b) /\
    (forall k, vertex_count g <= k <->
       forall u v, does_edge_exist g u v = true -> u < k /\ v < k) /\
    graph_from_text_file s file h =
      PyDone (match graph_to_bytes p (ce_order1 (sc_env s)) g with Ok bytes => bytes | Err _ => [] end) h).
Proof.
  intros Hp He Hal Hf Hpos Hlen. split.
  { intros ->. unfold graph_from_text_file. by rewrite (read_pairs _ _ _ Hf). }
  intros m Hm Har. pose proof (sort_pairs_perm pairs) as Hperm.
  destruct (make_map_done s 2 pairs m h Hm) as (M & EM & HM);
    [intros a b Hab; by apply (Hpos a b)|lia|done|].
  assert (0 <= m)%Z as Hm0.
  { destruct Hm as [[b Hb]%elem_of_sources _]. by apply (Hpos m b). }
  assert (forall a b, (a, b) ∈ sort_pairs pairs -> (0 <= a <= m)%Z /\ (0 <= b)%Z) as Hs.
  { intros a b Hab. rewrite Hperm in Hab. destruct (Hpos a b Hab).
    assert (a <= m)%Z by (apply Hm, elem_of_sources; by exists b). lia. }
  destruct (C59_makers (sc_env s) h Hal) as [Hnew _]. destruct (Hnew true) as (a & Ea & Ha & Hfr).
  assert (graph_from_text_file s file h =
    pbind (add_pairs (sc_env s) a M (sort_pairs pairs)) (fun _ =>
    pbind (pbind (pyexec (sc_env s) (PBytes a)) as_bytes) (fun bytes =>
    pbind (pyexec (sc_env s) (PDel a)) (fun _ => pret bytes))) (<[a:=OGraph new_undirected]> h)) as ->.
  { unfold graph_from_text_file. rewrite (read_pairs _ _ _ Hf).
    unfold pbind at 1. rewrite EM. unfold pbind at 1. unfold pbind at 1. by rewrite Ea. }
  assert (<[a:=OGraph new_undirected]> h !! a = Some (OGraph new_undirected)) as Hg by apply lookup_insert.
  split.
  - intros (x & y & Hxy & Hy). unfold pbind at 1.
    destruct (add_pairs_over (sc_env s) a _ _ M (sort_pairs pairs) HM Ha Hal) with
      (h := <[a:=OGraph new_undirected]> h) (g := new_undirected) as (h' & ->); [|..|done|by eexists].
    + intros x' y' H. destruct (Hs x' y' H). lia.
    + exists x, y. rewrite Hperm. split; [done|lia].
  - intros Hle. unfold pbind at 1.
    rewrite (add_pairs_done (sc_env s) a _ _ M (sort_pairs pairs) HM Ha Hal) with (g := new_undirected); [|..|done].
    2: { intros x y H. destruct (Hs x y H). rewrite Hperm in H. pose proof (Hle x y H). lia. }
    rewrite insert_insert. set (g := fold_left _ _ _).
    assert (reach p g) as Hr.
    { apply reach_add_pairs; [constructor|]. intros u v ([x y] & [= -> ->] & _)%elem_of_list_fmap.
      split; apply (C59_integers p). }
    assert (forall u v, does_edge_exist g u v = true <->
       exists a b, ((a, b) ∈ pairs \/ (b, a) ∈ pairs) /\ a ∈ sources pairs /\ b ∈ sources pairs /\
         u = rank (sources pairs) a /\ v = rank (sources pairs) b) as Hedge.
    { intros u v. rewrite exists_has. unfold g. rewrite has_fold_add_edge.
      assert (forall u v, both_valid u v = true ->
        (u, v) ∈ c_labels (sources pairs) <$> sort_pairs pairs <->
        exists a b, (a, b) ∈ pairs /\ a ∈ sources pairs /\ b ∈ sources pairs /\
         u = rank (sources pairs) a /\ v = rank (sources pairs) b) as Hin.
      { clear u v. intros u v [Hu Hv]%andb_true_iff. rewrite elem_of_list_fmap. split.
        - intros ([x y] & E & H). rewrite Hperm in H. unfold c_labels in E. injection E as E1 E2. symmetry in E1, E2.
          apply (c_label_valid pairs x u Hlen Hu) in E1 as [? ?].
          apply (c_label_valid pairs y v Hlen Hv) in E2 as [? ?]. exists x, y. by split_and!.
        - intros (x & y & H & Hx & Hy & E1 & E2). exists (x, y). rewrite Hperm. split; [|done].
          unfold c_labels. f_equal; symmetry; by apply (c_label_valid pairs). }
      split.
      - intros [H|[Hv [H|[_ H]]]].
        + unfold has, adj_has, new_undirected, g_adj, adj_new, adj_tab in H. by destruct H as (? & [=] & _).
        + apply (Hin u v Hv) in H as (x & y & H). exists x, y. tauto.
        + rewrite both_valid_comm in Hv. apply (Hin v u Hv) in H as (x & y & H). exists y, x. tauto.
      - intros (x & y & H & Hx & Hy & Eu & Ev). right.
        assert (both_valid u v = true) as Hv.
        { pose proof (rank_le (sources pairs) x). pose proof (rank_le (sources pairs) y).
          pose proof (sources_size pairs). unfold both_valid, valid_id. apply andb_true_iff.
          rewrite !N.ltb_lt. lia. }
        split; [done|]. destruct H as [H|H].
        + left. apply (Hin u v Hv). by exists x, y.
        + right. split; [done|]. rewrite both_valid_comm in Hv. apply (Hin v u Hv). by exists y, x. }
    exists g. split_and!; [done| |done| |].
    + unfold g, is_undirected. by rewrite und_fold_add_edge.
    + intros k. unfold g. rewrite vc_exact; [|apply (reach_inv p _ Hp); constructor|done].
      split; intros H u v Huv; apply H; by apply exists_has.
    + pose proof (C59_bytes p (sc_env s) (<[a:=OGraph g]> h) a Hp He Hal Ha) as [Hb _].
      unfold pbind at 1. unfold pbind at 1. rewrite (Hb g Hr) by apply lookup_insert. cbn [as_bytes]. unfold pret at 1.
      unfold pbind. destruct (C59_graph_changes (sc_env s) (<[a:=OGraph g]> h) a g Ha ltac:(apply lookup_insert) Hal)
        as (_ & _ & _ & _ & ->). unfold pret. by rewrite delete_insert.
Qed.
Print Assumptions C72_output.

(** Where every target is also a source, the graph written is the graph of the file with its
    vertices renumbered in increasing order.

    Missing from C72: targets that are not sources (below). *)
Theorem C72_partial p s file pairs m h : wf_platform p -> ce_platform (sc_env s) = p ->
  wf_alloc_fn (ce_alloc (sc_env s)) -> shows_pairs (sc_digits s) file pairs ->
  (forall a b, (a, b) ∈ pairs -> (0 <= a)%Z /\ b ∈ sources pairs) ->
  N.of_nat (length pairs) < u64_max ->
  largest_source pairs m -> sc_array s (Z.to_N (m + 2)) = true ->
  exists g, reach p g /\ is_undirected g = true /\
    vertex_count g = N.of_nat (size (sources pairs)) /\
    (forall u, u < vertex_count g -> exists a, a ∈ sources pairs /\ rank (sources pairs) a = u) /\
    (forall a b, a ∈ sources pairs -> b ∈ sources pairs ->
       (rank (sources pairs) a < rank (sources pairs) b <-> (a < b)%Z) /\
       (does_edge_exist g (rank (sources pairs) a) (rank (sources pairs) b) = true <->
        (a, b) ∈ pairs \/ (b, a) ∈ pairs)) /\
    graph_from_text_file s file h =
      PyDone (match graph_to_bytes p (ce_order1 (sc_env s)) g with Ok bytes => bytes | Err _ => [] end) h.
Proof.
  intros Hp He Hal Hf Hall Hlen Hm Har. set (D := sources pairs) in *.
  assert (forall a, a ∈ D -> (0 <= a)%Z) as HD.
  { intros a [b Hb]%elem_of_sources. by apply (Hall a b). }
  destruct (C72_output p s file pairs h Hp He Hal Hf) as [_ H]; [|done|].
  { intros a b Hab. destruct (Hall a b Hab). split; [done|]. by apply HD. }
  destruct (H m Hm Har) as [_ H']. clear H. destruct H' as (g & Hr & Hu & Hedge & Hvc & Hout).
  { intros a b Hab. destruct (Hall a b Hab) as [_ Hb]. apply Hm in Hb. lia. }
  fold D in Hedge. exists g.
  assert (vertex_count g = N.of_nat (size D)) as Hn.
  { apply N.le_antisymm.
    - apply Hvc. intros u v (a & b & _ & Ha & Hb & -> & ->)%Hedge. split; by apply rank_bound.
    - destruct Hm as [Hm Hmax]. fold D in Hm, Hmax. pose proof Hm as Hm'.
      apply elem_of_sources in Hm' as [b Hb].
      assert (does_edge_exist g (rank D m) (rank D b) = true) as He'.
      { apply Hedge. exists m, b. split_and!; try done; [by left|]. by apply (Hall m b). }
      apply (proj1 (Hvc (vertex_count g)) ltac:(lia)) in He' as [Hlt _].
      assert (rank D m + 1 = N.of_nat (size D)) as <-; [|lia].
      pose proof (rank_bound D m Hm) as H1.
      destruct (rank_surj D (N.of_nat (size D) - 1)) as (x & Hx & Ex); [lia|].
      destruct (decide (x = m)) as [->|Hne]; [lia|].
      assert (x < m)%Z as Hxm by (pose proof (Hmax x Hx); lia).
      apply (rank_lt D) in Hxm; [lia|done]. }
  split_and!; try done.
  - intros u. rewrite Hn. apply rank_surj.
  - intros a b Ha Hb. split.
    + split; [|by apply rank_lt]. intros Hlt. destruct (Z.lt_total a b) as [H|[->|H]]; [done|lia|].
      apply (rank_lt D) in H; [lia|done].
    + rewrite Hedge. split.
      * intros (a' & b' & H & Ha' & Hb' & Ea & Eb).
        apply rank_inj in Ea as ->; [|done..]. by apply rank_inj in Eb as ->.
      * intros H. by exists a, b.
Qed.
Print Assumptions C72_partial.

Definition sc64 : scenv := ScEnv env64 (Some 4300) (fun _ => true).
Definition lines (l : list string) : text := l ≫= (fun s => txt s ++ [ascii_of_N 10]).

Lemma line_of limit s l rest l' : shows_line limit (txt s) l -> shows_pairs limit (lines rest) l' ->
  shows_pairs limit (lines (s :: rest)) (l ++ l').
Proof.
  intros H H'. unfold lines. cbn [mbind list_bind]. rewrite <-app_assoc. apply pairs_line; [done|by left|done].
Qed.
Lemma line_none limit : shows_pairs limit (lines []) [].
Proof. apply pairs_last, line_blank. constructor. Qed.
Lemma numeral_pos limit t : t <> [] -> forallb is_digit t = true ->
  (forall n, limit = Some n -> N.of_nat (length t) <= n) -> numeral limit t (Z.of_N (digits_value t)).
Proof. intros. exists [], t. split_and!; try done. by left. Qed.
Lemma simple_line limit s t0 t1 : txt s = t0 ++ [" "%char] ++ t1 -> t0 <> [] -> t1 <> [] ->
  forallb is_digit t0 = true -> forallb is_digit t1 = true ->
  (forall n, limit = Some n -> N.of_nat (length t0) <= n /\ N.of_nat (length t1) <= n) ->
  shows_line limit (txt s) [(Z.of_N (digits_value t0), Z.of_N (digits_value t1))].
Proof.
  intros -> H0 H1 D0 D1 Hl.
  replace (t0 ++ [" "%char] ++ t1) with ([] ++ t0 ++ [" "%char] ++ t1 ++ []) by (by rewrite app_nil_r).
  apply line_pair; try done; try (by constructor).
  - apply numeral_pos; [done..|]. intros n Hn. by destruct (Hl n Hn).
  - constructor; [by left|constructor].
  - apply numeral_pos; [done..|]. intros n Hn. by destruct (Hl n Hn).
Qed.

Lemma pydone_ok_ex {A B} (x : pyresult A) (f : A -> outcome (result B)) (P : B -> Prop) :
  match x with
  | PyDone v _ => match f v with Ret (Ok y) => P y | _ => False end
  | _ => False
  end -> exists v h, x = PyDone v h /\ exists y, f v = Ret (Ok y) /\ P y.
Proof. destruct x as [v h|? ?| |]; try done. destruct (f v) as [[y|]| |] eqn:E; try done. intros; eauto 7. Qed.

Lemma pydone_is {A} (x : pyresult A) (v : A) :
  match x with PyDone w _ => w = v | _ => False end -> exists h, x = PyDone v h.
Proof. destruct x; try done. intros ->. eauto. Qed.
Lemma pyraise_is {A} (x : pyresult A) (exc : pyexc) :
  match x with PyRaise y _ => y = exc | _ => False end -> exists h, x = PyRaise exc h.
Proof. destruct x; try done. intros ->. eauto. Qed.

(** The file "0 1" lists one edge; the graph written has no edges and no vertices. *)
Theorem C72_refuted : exists file bytes h g, shows_pairs (sc_digits sc64) file [(0, 1)]%Z /\
  graph_from_text_file sc64 file ∅ = PyDone bytes h /\
  graph_try_from plat64 bytes = Ret (Ok g) /\ vertex_count g = 0 /\ edge_count g = 0.
Proof.
  exists (lines ["0 1"%string]).
  assert (exists bytes h, graph_from_text_file sc64 (lines ["0 1"%string]) ∅ = PyDone bytes h /\
    exists g, graph_try_from plat64 bytes = Ret (Ok g) /\ vertex_count g = 0 /\ edge_count g = 0)
    as (bytes & h & E & g & Hg).
  { refine (pydone_ok_ex _ _ _ _). by vm_compute. }
  exists bytes, h, g. split; [|done].
  apply (line_of _ "0 1" [(0, 1)]%Z [] []); [|apply line_none].
  by apply (simple_line _ "0 1" ["0"%char] ["1"%char]); try (intros n [= <-]).
Qed.
Print Assumptions C72_refuted.

Example C72_case : exists bytes h,
  graph_from_text_file sc64 (lines ["# edges"; "30 12"; "7 30"; "12	+7"; "not a pair"; "1 2 3"; "x 2"]%string) ∅ =
    PyDone bytes h /\
  exists g, graph_try_from plat64 bytes = Ret (Ok g) /\ vertex_count g = 3 /\ edge_count g = 6 /\
    does_edge_exist g 2 1 = true /\ does_edge_exist g 0 2 = true /\ does_edge_exist g 0 0 = false.
Proof. refine (pydone_ok_ex _ _ _ _). by vm_compute. Qed.
(** A target two above the largest source, and a file without pairs. *)
Example C72_raises :
  (exists h, graph_from_text_file sc64 (lines ["0 2"%string]) ∅ = PyRaise IndexError h) /\
  (exists h, graph_from_text_file sc64 (lines ["# nothing"%string]) ∅ = PyRaise IndexError h).
Proof. split; apply pyraise_is; by vm_compute. Qed.

(** ** C73 *)

Definition missing (a b : Z) : text := txt "Missing edge " ++ Z_text a ++ txt "-" ++ Z_text b.

Lemma check_edges_done e x n D M (g : graph) a b (l : list (Z * Z)) h : is_map n D M -> x <> null ->
  h !! x = Some (OGraph g) -> (0 <= a < Z.of_nat n)%Z -> (0 <= b < Z.of_nat n)%Z ->
  check_edges e x M a b l h =
    PyDone (if does_edge_exist g (c_label D a) (c_label D b) then []
            else replicate (length l) (missing a b)) h.
Proof.
  intros HM Hx Hg Ha Hb. induction l as [|y l IH]; [simpl; by destruct does_edge_exist|].
  cbn [check_edges]. unfold pbind at 1. rewrite (np_get_map n D M a h HM Ha).
  unfold pbind at 1. rewrite (np_get_map n D M b h HM Hb).
  assert (pbind (pyexec e (PDoesEdgeExist x (new_id D a) (new_id D b))) as_bool h =
    PyDone (does_edge_exist g (c_label D a) (c_label D b)) h) as E.
  { unfold pbind. destruct (C59_graph_queries e h x g Hx Hg) as (_ & _ & _ & H & _). by rewrite H. }
  unfold pbind at 1. rewrite E. unfold pbind. rewrite IH. unfold pret.
  by destruct does_edge_exist.
Qed.

Lemma check_edges_over e x n D M a b (l : list (Z * Z)) h : is_map n D M -> l <> [] ->
  (0 <= a < Z.of_nat n)%Z -> (Z.of_nat n <= b)%Z ->
  check_edges e x M a b l h = PyRaise IndexError h.
Proof.
  intros HM Hl Ha Hb. destruct l as [|y l]; [done|]. cbn [check_edges]. unfold pbind at 1.
  rewrite (np_get_map n D M a h HM Ha). unfold pbind at 1. by rewrite (np_get_over n D M b h HM Hb).
Qed.

Lemma read_last limit file pairs a b : shows_pairs limit file pairs -> last pairs = Some (a, b) ->
  id0 (read_ids limit file) = Some a /\ id1 (read_ids limit file) = Some b.
Proof.
  intros H Hl. destruct (read_lines_spec limit file pairs (Ids [] None None) H) as (_ & _ & H').
  by apply H'.
Qed.

Lemma exists_label p pairs g a b : wf_platform p -> reach p g -> N.of_nat (length pairs) < u64_max ->
  does_edge_exist g (c_label (sources pairs) a) (c_label (sources pairs) b) = true <->
  a ∈ sources pairs /\ b ∈ sources pairs /\
  does_edge_exist g (rank (sources pairs) a) (rank (sources pairs) b) = true.
Proof.
  intros Hp Hr Hl. apply reach_inv in Hr; [|done]. split.
  - intros H. pose proof H as H'. apply exists_has, has_valid in H'; [|done].
    apply andb_true_iff in H' as [Ha Hb].
    destruct (proj1 (c_label_valid pairs a _ Hl Ha) eq_refl) as [Ha' Ea].
    destruct (proj1 (c_label_valid pairs b _ Hl Hb) eq_refl) as [Hb' Eb].
    rewrite Ea, Eb. by split_and!.
  - intros (Ha & Hb & H). pose proof H as H'. apply exists_has, has_valid in H'; [|done].
    apply andb_true_iff in H' as [Va Vb].
    by rewrite (proj2 (c_label_valid pairs a _ Hl Va)), (proj2 (c_label_valid pairs b _ Hl Vb)).
Qed.

(** What validate_graph does: it looks only at the last pair of the file, once for every
    pair. *)
Theorem C73_output p s file pairs a b m gphrx h : wf_platform p -> ce_platform (sc_env s) = p ->
  wf_alloc_fn (ce_alloc (sc_env s)) -> shows_pairs (sc_digits s) file pairs ->
  (forall a b, (a, b) ∈ pairs -> (0 <= a /\ 0 <= b)%Z) -> N.of_nat (length pairs) < u64_max ->
  last pairs = Some (a, b) -> largest_source pairs m -> sc_array s (Z.to_N (m + 1)) = true ->
  is_slice p gphrx ->
  exists r, graph_try_from p gphrx = Ret r /\
  match r with
  | Err _ => validate_graph s file gphrx h = PyRaise TypeError h
  | Ok g =>
      ((m < b)%Z -> exists h', validate_graph s file gphrx h = PyRaise IndexError h') /\
      ((b <= m)%Z -> exists out, validate_graph s file gphrx h = PyDone out h /\
        let found := b ∈ sources pairs /\
          does_edge_exist g (rank (sources pairs) a) (rank (sources pairs) b) = true in
        (found -> out = []) /\ (~ found -> out = replicate (length pairs) (missing a b)))
  end.
Proof.
  intros Hp He Hal Hf Hpos Hlen Hlast Hm Har Hsl.
  destruct (C60_partial p (sc_env s) h gphrx Hp He Hal Hsl) as [(r & Er & Hr) _].
  exists r. split; [done|].
  destruct (make_map_done s 1 pairs m h Hm) as (M & EM & HM);
    [intros x y Hxy; by apply (Hpos x y)|lia|done|].
  destruct (read_last _ _ _ _ _ Hf Hlast) as [E0 E1].
  assert ((a, b) ∈ pairs) as Hab by (apply last_Some in Hlast as [l' ->]; set_solver).
  assert (a ∈ sources pairs) as Ha by (apply elem_of_sources; by exists b).
  assert (0 <= a <= m)%Z as Ham by (split; [by apply (Hpos a b)|by apply Hm]).
  assert (0 <= b)%Z as Hb0 by by apply (Hpos a b).
  destruct r as [g|err].
  2: { unfold validate_graph. rewrite (read_pairs _ _ _ Hf). unfold pbind at 1. rewrite EM.
    unfold pbind at 1. unfold pbind at 1. by rewrite Hr. }
  destruct Hr as (x & Ex & Hx & Hfr).
  assert (validate_graph s file gphrx h =
    pbind (check_edges (sc_env s) x M a b (sort_pairs pairs)) (fun messages =>
    pbind (pyexec (sc_env s) (PDel x)) (fun _ => pret messages)) (<[x:=OGraph g]> h)) as ->.
  { unfold validate_graph. rewrite (read_pairs _ _ _ Hf), E0, E1. unfold pbind at 1. rewrite EM.
    unfold pbind at 1. unfold pbind at 1. by rewrite Ex. }
  assert (<[x:=OGraph g]> h !! x = Some (OGraph g)) as Hg by apply lookup_insert.
  pose proof (Permutation_length (sort_pairs_perm pairs)) as HL. split.
  - intros Hbm. unfold pbind at 1.
    rewrite (check_edges_over (sc_env s) x _ _ M a b (sort_pairs pairs) _ HM); [by eexists| |lia..].
    intros E. rewrite E in HL. by destruct pairs.
  - intros Hbm. unfold pbind at 1.
    rewrite (check_edges_done (sc_env s) x _ _ M g a b (sort_pairs pairs) _ HM Hx Hg) by lia.
    unfold pbind. destruct (C59_graph_changes (sc_env s) _ x g Hx Hg Hal) as (_ & _ & _ & _ & ->).
    unfold pret. rewrite delete_insert by done. rewrite HL. eexists. split; [done|].
    assert (reach p g) as Hr by by eapply r_try_from.
    pose proof (exists_label p pairs g a b Hp Hr Hlen) as Hex. cbv zeta. split.
    + intros [Hb Hd]. by rewrite (proj2 Hex).
    + intros Hn. destruct does_edge_exist eqn:E in |- *; [|done]. destruct Hn.
      by apply Hex in E as (_ & ? & ?).
Qed.
Print Assumptions C73_output.

(** A graph without the edges of the file passes, and a file for which graph_from_text_file
    succeeds cannot be checked. *)
Theorem C73_refuted :
  (exists file pairs, shows_pairs (sc_digits sc64) file pairs /\ (0, 1)%Z ∈ pairs /\ 1%Z ∈ sources pairs /\
   exists h, validate_graph sc64 file (graph_file true 1 1 [(0, 0)]) ∅ = PyDone [] h) /\
  (exists file pairs bytes h, shows_pairs (sc_digits sc64) file pairs /\
   graph_from_text_file sc64 file ∅ = PyDone bytes h /\
   exists h', validate_graph sc64 file bytes ∅ = PyRaise IndexError h').
Proof.
  split.
  - exists (lines ["0 1"; "1 0"; "0 0"]%string), [(0, 1); (1, 0); (0, 0)]%Z. split_and!.
    + apply (line_of _ "0 1" [(0, 1)]%Z _ [(1, 0); (0, 0)]%Z);
        [by apply (simple_line _ "0 1" ["0"%char] ["1"%char]); try (intros n [= <-])|].
      apply (line_of _ "1 0" [(1, 0)]%Z _ [(0, 0)]%Z);
        [by apply (simple_line _ "1 0" ["1"%char] ["0"%char]); try (intros n [= <-])|].
      apply (line_of _ "0 0" [(0, 0)]%Z _ []); [|apply line_none].
      by apply (simple_line _ "0 0" ["0"%char] ["0"%char]); try (intros n [= <-]).
    + left.
    + apply elem_of_sources. exists 0%Z. right. left.
    + apply pydone_is. by vm_compute.
  - assert (exists bytes h, graph_from_text_file sc64 (lines ["0 1"%string]) ∅ = PyDone bytes h /\
      exists h', validate_graph sc64 (lines ["0 1"%string]) bytes ∅ = PyRaise IndexError h')
      as (bytes & h & E & H).
    { apply pydone_ex. apply pyraise_is. by vm_compute. }
    exists (lines ["0 1"%string]), [(0, 1)]%Z, bytes, h. split; [|done].
    apply (line_of _ "0 1" [(0, 1)]%Z [] []); [|apply line_none].
    by apply (simple_line _ "0 1" ["0"%char] ["1"%char]); try (intros n [= <-]).
Qed.
Print Assumptions C73_refuted.

Example C73_case : exists out h,
  validate_graph sc64 (lines ["5 5"; "9 9"; "5 9"]%string) (graph_file false 2 1 [(1, 0)]) ∅ = PyDone out h /\
  out = replicate 3 (txt "Missing edge 5-9").
Proof. apply pydone_ex. by vm_compute. Qed.

(** ** C74 *)

Lemma slice_edges p bytes g : wf_platform p -> is_slice p bytes -> graph_try_from p bytes = Ret (Ok g) ->
  exists k, has_card (fun '(u, v) => does_edge_exist g u v = true) k /\ k < two64.
Proof.
  intros Hp Hs H.
  destruct (graph_try_from_spec p bytes Hp Hs) as [(e & He & _)|(und & n & l & Hf & Hg & Hok)].
  { rewrite H in He. done. }
  rewrite H in Hok. injection Hok as ->. exists (N.of_nat (length l)).
  destruct (decoded_facts und n l) as (Hi & Hu & Hn & Hh); [apply Hg..|]. split.
  - eapply has_card_ext; [|apply Hg]. intros [u v]. by rewrite exists_has, Hh.
  - rewrite Hf in Hs. by eapply good_file_len.
Qed.

Lemma kept_blocks g l c r : 1 <= l <= 64 ->
  kept g l c r = true <-> exists k, 0 < k /\ block_has g 8 c r k /\
    l * (N.min 8 (vertex_count g) * N.min 8 (vertex_count g)) <= 64 * k.
Proof.
  intros Hl. unfold kept. rewrite andb_true_iff, Nat.ltb_lt, N.leb_le, clamp_level_eq.
  replace (N.max 1 (N.min l 64)) with l by lia. split.
  - intros [H0 H]. exists (N.of_nat (block_count g 8 c r)). split_and!; [lia|apply block_has_count|done].
  - intros (k & Hk & Hb & H). apply block_has_eq in Hb. rewrite Hb, N2Nat.id. split; [lia|done].
Qed.

(** compress_gphrx_file: decoding what it writes gives the graph with the blocks the
    threshold keeps, of which there are [j]; when those take too much memory the file
    written is empty. *)
Theorem C74_compress_file p s z gphrx h : wf_platform p -> ce_platform (sc_env s) = p ->
  wf_alloc_fn (ce_alloc (sc_env s)) -> is_slice p gphrx ->
  let l := Z.to_N (Z.max 1 (Z.min 64 z)) in
  exists r, graph_try_from p gphrx = Ret r /\
  match r with
  | Err _ => compress_gphrx_file s z gphrx h = PyRaise TypeError h
  | Ok g => exists out, compress_gphrx_file s z gphrx h = PyDone out h /\
      let d := N.min 8 (vertex_count g) in
      (forall j, has_card (fun '(c, r) => exists k, 0 < k /\ block_has g 8 c r k /\ l * (d * d) <= 64 * k) j ->
         j < two64 ->
         out = [] <-> usize_max p < 42 + 24 * j \/ can_alloc p (42 + 24 * j) = false) /\
      (out <> [] -> is_slice p out /\
       exists cg, cgraph_try_from p out = Ret (Ok cg) /\
        c_vertex_count cg = vertex_count g /\ c_is_undirected cg = is_undirected g /\
        compression_level cg = l /\
        forall u v k, block_has g 8 (u / 8) (v / 8) k ->
        (c_does_edge_exist cg u v = true <->
         does_edge_exist g u v = true /\ l * (d * d) <= 64 * k))
  end.
Proof.
  intros Hp He Hal Hsl l.
  destruct (C60_partial p (sc_env s) h gphrx Hp He Hal Hsl) as [(r & Er & Hr) _].
  exists r. split; [done|]. unfold compress_gphrx_file. destruct r as [g|err].
  2: { unfold pbind at 1. unfold pbind at 1. by rewrite Hr. }
  destruct Hr as (x & Ex & Hx & Hfr). assert (reach p g) as Hg by by eapply r_try_from.
  assert (1 <= l <= 64) as Hl by (unfold l; lia).
  assert (N.max 1 (N.min l 64) = l) as Hll by lia.
  assert (<[x:=OGraph g]> h !! x = Some (OGraph g)) as Hxg by apply lookup_insert.
  destruct (C23_retention p (ce_order1 (sc_env s)) (ce_order2 (sc_env s)) g l Hp Hg) as (cg & Ec & Hret).
  destruct (C59_makers (sc_env s) (<[x:=OGraph g]> h) Hal) as (_ & Hmk & _).
  destruct (Hmk x g Hx Hxg) as (_ & _ & _ & Hcomp). specialize (Hcomp z).
  rewrite He in Hcomp. fold l in Hcomp. unfold py_makes in Hcomp. rewrite Ec in Hcomp.
  destruct Hcomp as (y & Ey & Hy & Hfry).
  assert (creach p cg) as Hcr by (eapply cr_compress; [done| |done]; unfold is_byte; lia).
  set (h2 := <[y:=OCompressed cg]> (<[x:=OGraph g]> h)) in *.
  assert (h2 !! y = Some (OCompressed cg)) as Hyg by apply lookup_insert.
  destruct (C59_bytes p (sc_env s) h2 y Hp He Hal Hy) as [_ Hb].
  destruct (C59_other_queries (sc_env s) h2 y Hy) as [Hq _].
  destruct (Hq cg Hyg) as (_ & _ & _ & _ & _ & _ & Hdel).
  assert (delete y h2 = <[x:=OGraph g]> h) as Hd1 by by apply delete_insert.
  destruct (C59_graph_changes (sc_env s) _ x g Hx Hxg Hal) as (_ & _ & _ & _ & Hdel').
  destruct (compress_spec p (ce_order1 (sc_env s)) (ce_order2 (sc_env s)) g l) as (cg0 & Ec0 & Hco);
    [by eapply reach_inv|].
  rewrite Ec in Ec0. injection Ec0 as <-.
  exists (match cgraph_to_bytes p (ce_order1 (sc_env s)) cg with Ok bytes => bytes | Err _ => [] end).
  split_and!.
  - unfold pbind at 1. unfold pbind at 1. rewrite Ex. cbn [as_graph]. unfold pret at 1.
    unfold pbind at 1. unfold pbind at 1. rewrite Ey. cbn [as_compressed]. unfold pret at 1.
    unfold pbind at 1. unfold pbind at 1. rewrite (Hb cg Hcr Hyg). cbn [as_bytes]. unfold pret at 1.
    unfold pbind at 1. rewrite Hdel, Hd1. unfold pbind. rewrite Hdel'. unfold pret. by rewrite delete_insert.
  - intros j Hj Hj64.
    assert (has_card (fun '(c, r) => get_compressed_matrix_entry cg c r <> 0) j) as Hj'.
    { eapply has_card_ext; [|exact Hj]. intros [c r].
      rewrite <-(kept_blocks g l c r Hl), c_get_entry_val, (co_val _ _ _ Hco).
      destruct (kept g l c r) eqn:Ek; [|simpl; split; [done|congruence]].
      split; [|done]. intros _. apply (ci_word _ (co_inv _ _ _ Hco) c r).
      by rewrite (co_val _ _ _ Hco), Ek. }
    pose proof (C31_cgraph_layout p (ce_order1 (sc_env s)) cg j Hp Hcr Hj' Hj64) as Hlay.
    destruct (42 + 24 * j <=? usize_max p) eqn:E1; [apply N.leb_le in E1|apply N.leb_gt in E1]; cbn [andb] in Hlay.
    + destruct (can_alloc p (42 + 24 * j)) eqn:E2.
      * destruct Hlay as (bytes & fl & -> & _ & _ & _ & Hlen). split; [|intros [?|?]; [lia|done]].
        intros ->. simpl in Hlen. lia.
      * destruct Hlay as [msg ->]. tauto.
    + destruct Hlay as [msg ->]. tauto.
  - destruct (cgraph_to_bytes p _ cg) as [bytes|] eqn:Eb; [|done]. intros _.
    destruct (slice_edges p gphrx g Hp Hsl Er) as (k & Hk & Hk64).
    destruct (C30_cgraph_round_trip p _ _ _ g l cg bytes k Hp Hg Hk Hk64 Ec Eb) as [Hs H].
    destruct (H p Hp Hs) as (cg' & E' & Hsame). split; [done|]. exists cg'. split; [done|].
    destruct Hsame as (S1 & S2 & _ & S4 & _ & S6). split_and!.
    + rewrite <-S2. apply Hco.
    + rewrite <-S1. apply Hco.
    + rewrite <-S4. unfold compression_level. rewrite (co_level _ _ _ Hco). by rewrite clamp_level_eq.
    + intros u v k' Hk'. rewrite <-S6. rewrite (Hret u v k' Hk'). by rewrite Hll.
Qed.
Print Assumptions C74_compress_file.

Example C74_case : exists out h,
  compress_gphrx_file sc64 (-3) (graph_file false 3 2 [(0, 1); (2, 2)]) ∅ = PyDone out h /\
  exists cg, cgraph_try_from plat64 out = Ret (Ok cg) /\ compression_level cg = 1 /\
    c_vertex_count cg = 3 /\ c_edge_count cg = 2 /\ c_does_edge_exist cg 0 1 = true.
Proof. refine (pydone_ok_ex _ _ _ _). by vm_compute. Qed.
Example C74_raises : exists h, compress_gphrx_file sc64 5 [1; 2; 3] ∅ = PyRaise TypeError h.
Proof. apply pyraise_is. by vm_compute. Qed.

(** ** C75 *)

(** The library chosen, for every operating system and machine: [m] is the machine's name in
    lower case.

    Missing from C75: ARM machines that are not 64-bit (below). *)
Theorem C75_partial os machine m f : lower_cased machine m ->
  dll_name os machine = Some f <->
  exists part, (os, part) ∈ os_table /\
    ((m = "x86_64" \/ m = "amd64")%string /\ f = ("graphrox-x86_64-" ++ part)%string \/
     (contains "arm" m \/ contains "aarch64" m) /\ f = ("graphrox-aarch64-" ++ part)%string).
Proof.
  intros ->%str_lower_cased. set (m := str_lower machine).
  assert (forall x y : string, String.eqb x y = true <-> y = x) as Heq.
  { intros x y. rewrite String.eqb_eq. split; congruence. }
  assert (~ (contains "arm" "x86_64" \/ contains "aarch64" "x86_64") /\
          ~ (contains "arm" "amd64" \/ contains "aarch64" "amd64")) as [N1 N2].
  { rewrite <-!str_in_iff. split; intros [[=]|[=]]. }
  assert (dll_name os machine = Some f <->
    exists part, (os, part) ∈ os_table /\
     (if (String.eqb "x86_64" m || String.eqb "amd64" m)%bool
      then Some (("graphrox-x86_64-" ++ part)%string)
      else if (str_in "arm" m || str_in "aarch64" m)%bool then Some ("graphrox-aarch64-" ++ part)%string
      else None) = Some f) as ->.
  { unfold dll_name, os_table. fold m. cbv zeta.
    destruct (String.eqb_spec os "Linux") as [->|H1];
      [|destruct (String.eqb_spec os "Windows") as [->|H2];
      [|destruct (String.eqb_spec os "Darwin") as [->|H3]]].
    4: { split; [done|]. intros (part & Hin & _). rewrite !elem_of_cons in Hin.
         destruct Hin as [[= ? _]|[[= ? _]|[[= ? _]|H%elem_of_nil]]]; done. }
    all: split; [intros H; eexists; split; [repeat first [left|right]|exact H]
                |intros (part & Hin & H); rewrite !elem_of_cons in Hin;
                 destruct Hin as [[=]|[[=]|[[=]|[]%elem_of_nil]]]; subst; exact H]. }
  split; intros (part & Hin & H); exists part; (split; [exact Hin|]).
  - destruct (_ || _)%bool eqn:E in H.
    + left. apply orb_true_iff in E as [E|E]; apply Heq in E; (split; [|congruence]); tauto.
    + destruct (_ || _)%bool eqn:E' in H; [|done]. right. split; [|congruence].
      by apply orb_true_iff in E' as [E'|E']; apply str_in_iff in E'; [left|right].
  - destruct H as [[H ->]|[H ->]].
    + replace (_ || _)%bool with true; [done|]. symmetry. apply orb_true_iff. rewrite !Heq. tauto.
    + destruct (_ || _)%bool eqn:E.
      * apply orb_true_iff in E as [E|E]; apply Heq in E; rewrite E in H; tauto.
      * replace (_ || _)%bool with true; [done|]. symmetry. apply orb_true_iff. by rewrite !str_in_iff.
Qed.
Print Assumptions C75_partial.

(** A 32-bit ARM machine is given the library for 64-bit ARM. *)
Theorem C75_refuted : dll_name "Linux" "armv7l" = Some "graphrox-aarch64-unknown-linux-gnu.so"%string.
Proof. done. Qed.
Print Assumptions C75_refuted.

Example C75_case : dll_name "Windows" "AMD64" = Some "graphrox-x86_64-w64.dll"%string /\
  dll_name "Darwin" "arm64" = Some "graphrox-aarch64-apple-darwin.dylib"%string /\
  dll_name "Linux" "riscv64" = None /\ dll_name "FreeBSD" "amd64" = None /\ dll_name "linux" "amd64" = None /\
  lower_cased "AMD64" "amd64".
Proof. split_and!; [done..|]. by apply str_lower_cased. Qed.

(** ** C76 *)

(** The first 42 bytes of sample-graphs/ca-HepPh.cgphrx and of ca-AstroPh.cgphrx. *)
Definition hepph_header : list N :=
  [113; 255; 122; 237; 0; 0; 0; 1; 0; 0; 0; 0; 0; 0; 5; 221; 0; 0; 0; 0; 0;
   0; 105; 158; 0; 56; 34; 4; 43; 115; 128; 2; 0; 0; 0; 0; 0; 0; 233; 203; 0; 0].
Definition astroph_header : list N :=
  [113; 255; 122; 237; 0; 0; 0; 1; 0; 0; 0; 0; 0; 0; 9; 43; 0; 0; 0; 0; 0;
   0; 114; 47; 0; 60; 101; 104; 241; 46; 128; 2; 0; 0; 0; 0; 0; 0; 241; 89; 0; 0].

(** The compressed sample graphs have an old format: both are rejected, whatever follows the
    header. *)
Theorem C76_refuted p e h rest header : wf_platform p -> ce_platform e = p ->
  wf_alloc_fn (ce_alloc e) -> header = hepph_header \/ header = astroph_header ->
  is_slice p (header ++ rest) ->
  cgraph_try_from p (header ++ rest) = Ret (Err (InvalidFormat "Outdated CompressedGraph version")) /\
  pyexec e (PCFromBytes (header ++ rest)) h = PyRaise TypeError h.
Proof.
  intros Hp He Hal Hh Hs.
  assert (cgraph_try_from p (header ++ rest) =
    Ret (Err (InvalidFormat "Outdated CompressedGraph version"))) as E.
  { destruct (C70_cgraph_decoding p _ Hp Hs) as (res & -> & Hr).
    assert (reports (cgraph_defects p (header ++ rest)) (Some "Outdated CompressedGraph version"%string)) as Hd.
    { assert (length header = 42%nat) as HL by by destruct Hh as [-> | ->].
      assert (field (header ++ rest) 0 4 = 0x71ff7aed) as F0 by by destruct Hh as [-> | ->].
      assert (field (header ++ rest) 4 4 = 1) as F4 by by destruct Hh as [-> | ->].
      unfold cgraph_defects. cbv zeta. rewrite F0, F4, app_length, HL.
      apply reports_next; [lia|]. apply reports_next; [intros H; by apply H|]. by apply reports_defect. }
    destruct res as [cg|err]; simpl in Hr.
    - by pose proof (C70_one_report _ _ _ Hr Hd).
    - destruct Hr as (msg & -> & Hr). by injection (C70_one_report _ _ _ Hr Hd) as ->. }
  split; [done|]. destruct (C60_partial p e h _ Hp He Hal Hs) as [_ (r & Er & H)].
  rewrite E in Er. by injection Er as <-.
Qed.
Print Assumptions C76_refuted.

Example C76_case : is_slice plat64 (hepph_header ++ [0]) /\ is_slice plat64 (astroph_header ++ [0]).
Proof. split; (split; [by repeat constructor|by vm_compute]). Qed.

(** The first 26 bytes of sample-graphs/ca-HepPh.gphrx. *)
Definition hepph_graph_header : list N :=
  [0x7a; 0xe7; 0x1f; 0xfd; 0; 0; 0; 1; 0; 0; 0; 0; 0; 0; 0x2e; 0xe8; 0; 0; 0; 0; 0; 3; 0x9d; 0xd2; 1; 0].

(** The sample graph that is not compressed.  Whatever follows its header, what is accepted is an
    undirected graph of 12008 vertices and 237010 edges, and the file has 3792186 bytes, as it
    does.  It is accepted if its records name vertices below 12008, each pair once and each with
    its reverse.  (The records of the file itself are not part of the model.) *)
Theorem C76_sample_graph p rest : wf_platform p -> is_slice p (hepph_graph_header ++ rest) ->
  (forall g, graph_try_from p (hepph_graph_header ++ rest) = Ret (Ok g) ->
     is_undirected g = true /\ vertex_count g = 12008 /\ edge_count g = 237010 /\
     N.of_nat (length (hepph_graph_header ++ rest)) = 3792186) /\
  (forall l, rest = (l ≫= fun '(u, v) => be64 u ++ be64 v) -> N.of_nat (length l) = 237010 -> NoDup l ->
     (forall u v, (u, v) ∈ l -> u < 12008 /\ v < 12008 /\ (v, u) ∈ l) ->
     exists g, graph_try_from p (hepph_graph_header ++ rest) = Ret (Ok g) /\
       forall u v, does_edge_exist g u v = true <-> (u, v) ∈ l).
Proof.
  intros Hp Hs.
  assert (forall l, graph_file true 12008 237010 l =
    hepph_graph_header ++ (l ≫= fun '(u, v) => be64 u ++ be64 v)) as Hfile by (intros; reflexivity).
  split.
  - intros g Hg. destruct (C18_graph_decoding p _ Hp Hs) as (res & Hres & Hm).
    rewrite Hg in Hres. injection Hres as <-.
    destruct Hm as (und & n & l & Heq & Hv & Hu & Hn & He & Hd).
    assert (is_slice p (graph_file und n (N.of_nat (length l)) l)) as Hs' by by rewrite <- Heq.
    assert (N.of_nat (length l) < two64) as Hlen by by eapply good_file_len.
    assert (N.of_nat (length (hepph_graph_header ++ rest)) = 26 + 16 * N.of_nat (length l)) as Hall
      by (rewrite Heq, length_graph_file; lia).
    rewrite graph_file_hdr in Heq. apply app_inj_len in Heq as [Hh _]; [|by rewrite length_graph_hdr].
    assert (graph_file true 12008 237010 [] = graph_file und n (N.of_nat (length l)) []) as E.
    { rewrite Hfile, Hh, graph_file_hdr. done. }
    apply graph_file_inj in E as (<- & <- & E3 & _); [|done|apply Hv|done|done|constructor..].
    split_and!; [done|done|by rewrite He|]. rewrite Hall, <- E3. done.
  - intros l -> Hlen Hnd Hl.
    destruct (C18_valid_files_accepted p true 12008 l Hp) as (g & Hg & _ & _ & _ & Hd).
    + rewrite Hlen, Hfile. exact Hs.
    + split; [done| |].
      * intros u v Hin. apply Hl in Hin. naive_solver.
      * exists l. split; [done|]. split; [|done]. intros [u v]. unfold described. simpl.
        split; [by left|]. intros [?|[_ H]]; [done|]. by apply Hl in H as (_ & _ & ?).
    + exists g. rewrite Hlen, Hfile in Hg. split; [exact Hg|]. intros u v. rewrite Hd.
      unfold described. simpl. split; [|by left]. intros [?|[_ H]]; [done|]. by apply Hl in H as (_ & _ & ?).
Qed.
Print Assumptions C76_sample_graph.

(** There are such records. *)
Example C76_sample_case : exists l : list (N * N), N.of_nat (length l) = 237010 /\ NoDup l /\
  forall u v, (u, v) ∈ l -> u < 12008 /\ v < 12008 /\ (v, u) ∈ l.
Proof.
  (* 486 vertices, all joined, and 814 more with themselves *)
  pose (l := list_prod (range 486) (range 486) ++ ((fun u => (1000 + u, 1000 + u)) <$> range 814)).
  exists l. unfold l. split_and!.
  - rewrite app_length, prod_length, fmap_length, !length_range. lia.
  - apply NoDup_app. split_and!.
    + assert (forall (k l : list N), NoDup k -> NoDup l -> NoDup (list_prod k l)) as Hprod.
      { intros k l' Hk Hl. induction Hk as [|x k Hx Hk IH]; [constructor|]. simpl. apply NoDup_app. split_and!.
        - change (NoDup ((fun y => (x, y)) <$> l')). by apply NoDup_fmap_2; [intros ?? [=]|].
        - intros [a b] Ha Hb. apply elem_of_list_In in Hb. apply in_prod_iff in Hb as [Hb _].
          apply elem_of_list_In in Hb.
          change (map (fun y => (x, y)) l') with ((fun y => (x, y)) <$> l') in Ha.
          apply elem_of_list_fmap in Ha as (y & [= -> ->] & _). done.
        - done. }
      apply Hprod; apply NoDup_range.
    + intros [a b] Ha Hb. apply elem_of_list_In, in_prod_iff in Ha as [Ha _].
      apply elem_of_list_In, elem_of_range in Ha.
      apply elem_of_list_fmap in Hb as (y & [= -> ->] & _). lia.
    + apply NoDup_fmap_2; [|apply NoDup_range]. intros x y [= H]. lia.
  - assert (forall u v, (u, v) ∈ l <-> (u < 486 /\ v < 486) \/ exists x, (u, v) = (1000 + x, 1000 + x) /\ x ∈ range 814) as Hin.
    { intros u v. unfold l. rewrite elem_of_app, elem_of_list_fmap.
      rewrite (elem_of_list_In (list_prod _ _)), in_prod_iff, <- !elem_of_list_In, !elem_of_range. done. }
    intros u v H. change ((v, u) ∈ _) with ((v, u) ∈ l). rewrite Hin. apply Hin in H as [[? ?]|(x & [= -> ->] & Hx)].
    + split_and!; [lia..|]. by left.
    + split_and!; [apply elem_of_range in Hx; lia..|]. right. eauto.
Qed.
