(** Property C78, continued: the whole demonstration script. *)
From Coq Require Import ZArith Reals Lra Lia Ascii String.
From Flocq Require Import Core.
From Verif Require Import Base HashIter F64 Numeric Adj Sq Standard Compressed Spec TextSpec FloatSpec Api
  CApi CSpec Py PySpec Script Demo GraphProofs FloatBridge FloatProofs PoolProofs ApproxProofs PoolValueProofs
  SqProofs TextProofs SqTextProofs NumTextProofs SqShowProofs FloatTextProofs PoolTextProofs PropCommon
  PropGraph PropCodec PropPool PropPoolMore PropText PropMore PropC PropPy PropScript PropDemo PropOrder.
Local Arguments N.mul : simpl never.
Local Arguments N.add : simpl never.
Local Arguments N.pow : simpl never.
Local Open Scope N_scope.

(** A decimal literal n/d is the double nearest to it. *)
Definition is_literal (t : spec_float) (n d : Z) : Prop :=
  is_f64 t = true /\ double_value t = nearest_double (IZR n / IZR d).

Lemma literal_fval n d : 0 < n <= d -> d <= 2 ^ 32 ->
  (/ IZR (2 ^ 32) <= IZR (Z.of_N n) / IZR (Z.of_N d) <= 1)%R /\
  fval (literal n d) (nearest_double (IZR (Z.of_N n) / IZR (Z.of_N d))).
Proof.
  intros Hn Hd.
  assert (0 < IZR (Z.of_N d))%R as Hd0 by (apply IZR_lt; lia).
  assert (/ IZR (2 ^ 32) <= IZR (Z.of_N n) / IZR (Z.of_N d) <= 1)%R as Hq.
  { assert (1 <= IZR (Z.of_N n))%R by (apply IZR_le; lia).
    assert (IZR (Z.of_N n) <= IZR (Z.of_N d))%R by (apply IZR_le; lia).
    assert (IZR (Z.of_N d) <= IZR (2 ^ 32))%R by (apply IZR_le; lia). split.
    - apply Rmult_le_reg_r with (IZR (Z.of_N d)); [done|]. unfold Rdiv.
      rewrite Rmult_assoc, Rinv_l, Rmult_1_r by lra.
      apply Rle_trans with 1%R; [|done].
      apply Rmult_le_reg_l with (IZR (2 ^ 32)); [by apply IZR_lt|].
      rewrite <-Rmult_assoc, Rinv_r, Rmult_1_l, Rmult_1_r; [done|]. by apply not_0_IZR.
    - apply Rmult_le_reg_r with (IZR (Z.of_N d)); [done|]. unfold Rdiv.
      rewrite Rmult_assoc, Rinv_l, Rmult_1_r, Rmult_1_l by lra. done. }
  assert (0 < / IZR (2 ^ 32))%R as Hpos by (by apply Rinv_0_lt_compat, IZR_lt).
  split; [done|]. apply fval_div; [apply fval_N_exact; lia..|lra|].
  apply rnd_ok. rewrite Rabs_pos_eq by lra. apply Rle_trans with 1%R; [lra|]. by apply IZR_le.
Qed.

Lemma literal_nearest n d t : 0 < n <= d -> d <= 2 ^ 32 -> is_literal t (Z.of_N n) (Z.of_N d) ->
  literal n d = t.
Proof.
  intros Hn Hd [Hv Ht]. destruct (literal_fval n d Hn Hd) as [Hq Hl].
  assert (0 < / IZR (2 ^ 32))%R as Hpos by (by apply Rinv_0_lt_compat, IZR_lt).
  assert (nearest_double (IZR (Z.of_N n) / IZR (Z.of_N d)) <> 0)%R as Hz.
  { rewrite <- (proj2 (proj2 (fval_facts _ _ Hl))).
    assert (/ IZR (2 ^ 32) <= nearest_double (IZR (Z.of_N n) / IZR (Z.of_N d)))%R as Hge.
    { unfold nearest_double. apply round_ge_generic; [apply FLT_exp_valid; done|apply valid_rnd_N| |lra].
      replace (/ IZR (2 ^ 32))%R with (bpow radix2 (-32)) by (simpl; lra).
      apply generic_format_bpow. unfold FLT_exp. lia. }
    rewrite (proj2 (proj2 (fval_facts _ _ Hl))). lra. }
  apply (fval_inj _ _ _ Hl); [|done]. apply fval_valid_intro; [done| |exact Ht].
  rewrite <-Ht in Hz. unfold double_value in Hz. by destruct t.
Qed.

Lemma literal_is n d : 0 < n <= d -> d <= 2 ^ 32 -> is_literal (literal n d) (Z.of_N n) (Z.of_N d).
Proof.
  intros Hn Hd. destruct (literal_fval n d Hn Hd) as [_ Hl].
  destruct (fval_facts _ _ Hl) as (? & ? & ?). done.
Qed.

(** ** The first part *)

Lemma print_matrix_done p e x g s out h : wf_platform p -> ce_platform e = p -> wf_alloc_fn (ce_alloc e) ->
  x <> null -> h !! x = Some (OGraph g) -> reach p g -> matrix_string p g = Ok s ->
  print_matrix e x out h = (out ++ [s], PyDone tt h).
Proof.
  intros Hp He Hal Hx Hg Hr Hs. unfold print_matrix.
  destruct (C59_texts p e h x Hp He Hal Hx) as [Htx _]. specialize (Htx g Hr Hg).
  rewrite Hs in Htx. by rewrite (dcall_done _ _ out h s h) by by (unfold pbind; rewrite Htx).
Qed.

Lemma print_pool_done p e x g b m s out h : wf_platform p -> ce_platform e = p -> wf_alloc_fn (ce_alloc e) ->
  x <> null -> h !! x = Some (OGraph g) -> reach p g -> (0 <= b < 2 ^ 32)%Z ->
  find_avg_pool_matrix p (ce_order1 e) g (Z.to_N b) = Ret m ->
  sq_to_string_with_precision p f64_numeric (ce_order1 e) m 2 = Ret (Ok s) ->
  print_pool e x b out h = (out ++ [s], PyDone tt h).
Proof.
  intros Hp He Hal Hx Hg Hr Hb Hm Hs. unfold print_pool.
  destruct (C59_makers e h Hal) as (_ & Hmk & _). destruct (Hmk x g Hx Hg) as (_ & Hpool & _).
  specialize (Hpool b). destruct (C59_integers p b) as (Hc & _ & _).
  rewrite Hc, He, Hm in Hpool by (unfold fits_u64; lia). destruct Hpool as (y & Ey & Hy & Hfr).
  rewrite (dcall_done _ _ out h y (<[y:=OMatrix m]> h)) by by (unfold pbind; rewrite Ey).
  set (h1 := <[y:=OMatrix m]> h) in *.
  assert (h1 !! y = Some (OMatrix m)) as Hym by apply lookup_insert.
  destruct (C59_texts p e h1 y Hp He Hal Hy) as (_ & _ & Htx).
  destruct (Htx g (ce_order1 e) (Z.to_N b) m 2%Z Hr) as [T1 T2]; [lia|done|done|lia|].
  rewrite (dcall_done _ _ out h1 s h1).
  2: { unfold pbind. rewrite T2, T1. change (Z.to_N 2) with 2. by rewrite Hs. }
  rewrite dprint_done. destruct (C59_other_queries e h1 y Hy) as [_ Hq].
  destruct (Hq m Hym) as (_ & _ & _ & Hdel).
  rewrite (dcall_done _ _ _ _ _ _ Hdel). unfold dret, h1. by rewrite delete_insert.
Qed.

Lemma print_approximation_done p e x g b t a s out h : wf_platform p -> ce_platform e = p ->
  wf_alloc_fn (ce_alloc e) -> x <> null -> h !! x = Some (OGraph g) -> reach p g ->
  (0 <= b < 2 ^ 32)%Z -> is_f64 t = true ->
  approximate p (ce_order1 e) (ce_order2 e) g (Z.to_N b) t = Ret a -> matrix_string p a = Ok s ->
  print_approximation e x b t out h = (out ++ [s], PyDone tt h).
Proof.
  intros Hp He Hal Hx Hg Hr Hb Ht Ha Hs. unfold print_approximation.
  destruct (C59_makers e h Hal) as (_ & Hmk & _). destruct (Hmk x g Hx Hg) as (_ & _ & Happ & _).
  specialize (Happ b t). destruct (C59_integers p b) as (Hc & _ & _).
  rewrite Hc, He, Ha in Happ by (unfold fits_u64; lia). destruct Happ as (y & Ey & Hy & Hfr).
  rewrite (dcall_done _ _ out h y (<[y:=OGraph a]> h)) by by (unfold pbind; rewrite Ey).
  set (h1 := <[y:=OGraph a]> h) in *.
  assert (h1 !! y = Some (OGraph a)) as Hya by apply lookup_insert.
  assert (reach p a) as Hra
    by (eapply (r_approximate p _ _ g (Z.to_N b)); [done| unfold is_u64, two64; lia |done|done]).
  destruct (C59_texts p e h1 y Hp He Hal Hy) as [Htx _]. specialize (Htx a Hra Hya).
  rewrite Hs in Htx. rewrite (dcall_done _ _ out h1 s h1) by by (unfold pbind; rewrite Htx).
  destruct (C59_graph_changes e h1 y a Hy Hya Hal) as (_ & _ & _ & _ & Hdel).
  rewrite (dcall_done _ _ _ _ _ _ Hdel). unfold dprint, h1. by rewrite delete_insert.
Qed.

(** The graph of the first part. *)
Definition example_graph : graph :=
  add_vertex (add_vertex (add_edge (add_edge (add_edge new_undirected 7 8) 5 5) 5 4)
    1 (Some [0; 2; 4; 7; 3])) 5 (Some [6; 8; 0; 1; 5; 4; 2]).

Lemma example_reach p : reach p example_graph.
Proof.
  unfold example_graph. repeat apply r_add_vertex || apply r_add_edge || apply r_new_undirected;
    try (unfold is_u64, two64; lia); repeat constructor; unfold is_u64, two64; lia.
Qed.

Definition memory (p : platform) (n : N) : Prop := forall k, k <= n -> can_alloc p k = true.

Lemma graph_text p g n cells : wf_platform p -> memory p 277 -> reach p g -> vertex_count g = n -> 0 < n <= 9 ->
  matrix_text n (fun i j => if does_edge_exist g i j then txt "1" else txt "0") = cells ->
  matrix_string p g = Ok cells.
Proof.
  intros Hp Hmem Hr Hn H9 Hc. destruct (C12_matrix_string_layout p g Hp Hr) as (H1 & _ & _ & H2).
  rewrite Hn in *. pose proof (usize_16 p Hp).
  assert (3 * (n * n) + 4 * n - 2 <= 277) by nia.
  destruct H2 as [_ [s Hs]]; [lia|split; [lia|by apply Hmem]|].
  rewrite Hs. destruct (H1 s Hs) as [-> _]. by rewrite Hc.
Qed.

(** A small concrete matrix of doubles, printed on any platform. *)
Definition cell_text (hi lo : spec_float) (d : N) (v : spec_float) : text :=
  match sq_cell_text f64_numeric hi lo (sq_width f64_numeric hi lo d) d v with Ret t => t | _ => [] end.

Definition cell_good (hi lo : spec_float) (d : N) (v : spec_float) : bool :=
  match sq_cell_text f64_numeric hi lo (sq_width f64_numeric hi lo d) d v with
  | Ret t => Nat.eqb (length t) (N.to_nat (sq_width f64_numeric hi lo d)) && utf8_ok t
  | _ => false
  end.

Definition below_n (n : N) : list N := map N.of_nat (seq 0 (N.to_nat n)).

Definition cells_good (m : sq spec_float) (hi lo : spec_float) (d : N) : bool :=
  forallb (fun c => forallb (fun r =>
    match sq_val m c r with Some v => cell_good hi lo d v | None => true end) (below_n (sq_dim m))) (below_n (sq_dim m)).

Lemma small_matrix_text p o m d hi lo s : wf_platform p -> memory p 277 -> sq_inv m -> sq_dim m <> 0 ->
  sq_extremes f64_numeric o m = (hi, lo) ->
  ((1 <=? sq_width0 f64_numeric hi lo) && (sq_width0 f64_numeric hi lo + d + 3 <=? 277) &&
   (text_size (sq_dim m) (sq_width f64_numeric hi lo d) <=? 277) &&
   utf8_ok (template f64_numeric hi lo d) && cells_good m hi lo d)%bool = true ->
  matrix_text (sq_dim m) (fun c r =>
      match sq_val m c r with Some v => cell_text hi lo d v | None => template f64_numeric hi lo d end) = s ->
  sq_to_string_with_precision p f64_numeric o m d = Ret (Ok s).
Proof.
  intros Hp Hmem Hinv Hn Hext Hall Hs. repeat (apply andb_true_iff in Hall as [Hall ?]).
  pose proof (usize_16 p Hp).
  pose proof (sq_string_layout p f64_numeric o m d hi lo (cell_text hi lo d) Hinv Hn Hext) as HL.
  assert (text_fits p (sq_dim m) (sq_width f64_numeric hi lo d) = true) as Hf.
  { unfold text_fits. rewrite andb_true_iff, N.leb_le. apply N.leb_le in H1. split; [|by apply Hmem].
    unfold text_size in H1. revert H1. generalize ((sq_width f64_numeric hi lo d + 2) * (sq_dim m * sq_dim m)).
    assert (sq_dim m <= 4 * sq_dim m) by lia. revert H3. generalize (4 * sq_dim m). intros; lia. }
  rewrite Hf in HL. apply N.leb_le in Hall, H2. rewrite HL; [by rewrite Hs|done|lia|done|].
  intros c r v Hv. destruct (si_bound m Hinv c r ltac:(by eexists)) as [Hc Hr].
  assert (cell_good hi lo d v = true) as Hg.
  { unfold cells_good in H. rewrite forallb_forall in H.
    assert (forall k, k < sq_dim m -> In k (below_n (sq_dim m))) as Hin.
    { intros k Hk. unfold below_n. apply in_map_iff. exists (N.to_nat k). rewrite in_seq. split; [apply N2Nat.id|lia]. }
    specialize (H c (Hin c Hc)). rewrite forallb_forall in H. specialize (H r (Hin r Hr)). by rewrite Hv in H. }
  unfold cell_good in Hg. unfold cell_text. destruct (sq_cell_text _ _ _ _ _ _) as [t| |]; try done.
  apply andb_true_iff in Hg as [Hl Hu]. apply Nat.eqb_eq in Hl. done.
Qed.

Definition pool_val (b : N) : sq spec_float :=
  match find_avg_pool_matrix plat64 plain_order example_graph b with Ret m => m | _ => sq_new end.

(** The average pool matrices, made and printed in any order. *)
Lemma example_pool p o o' g b m hi lo s : wf_platform p -> memory p 277 -> reach p g -> vertex_count g <= 9 ->
  find_avg_pool_matrix p plain_order g b = Ret m ->
  sq_dim m <> 0 -> sq_extremes f64_numeric plain_order m = (hi, lo) ->
  ((1 <=? sq_width0 f64_numeric hi lo) && (sq_width0 f64_numeric hi lo + 2 + 3 <=? 277) &&
   (text_size (sq_dim m) (sq_width f64_numeric hi lo 2) <=? 277) &&
   utf8_ok (template f64_numeric hi lo 2) && cells_good m hi lo 2)%bool = true ->
  matrix_text (sq_dim m) (fun c r =>
      match sq_val m c r with Some v => cell_text hi lo 2 v | None => template f64_numeric hi lo 2 end) = s ->
  exists m', find_avg_pool_matrix p o g b = Ret m' /\
    sq_to_string_with_precision p f64_numeric o' m' 2 = Ret (Ok s).
Proof.
  intros Hp Hmem Hr H9 Hm Hn Hext Hall Hs.
  pose proof Hr as Hi. apply reach_inv in Hi; [|done].
  destruct (find_avg_pool_total p o g b Hi) as [m' Hm'].
  { unfold clamp_block. destruct (N.ltb_spec b 1), (N.ltb_spec (vertex_count g) b); lia. }
  exists m'. split; [done|]. pose proof (usize_16 p Hp).
  pose proof (C91_pool p plain_order o g b m m' 2 Hp Hr ltac:(lia) Hm Hm' plain_order o') as HC.
  rewrite (small_matrix_text p plain_order m 2 hi lo s Hp Hmem (pool_inv _ _ _ _ _ Hi Hm) Hn Hext Hall Hs) in HC.
  destruct (sq_to_string_with_precision _ _ o' m' 2) as [[t|?]| |]; try done. simpl in HC. by subst.
Qed.

Lemma pool_platform p o g b : graph_inv g -> vertex_count g <= 9 ->
  find_avg_pool_matrix p o g b = find_avg_pool_matrix plat64 o g b.
Proof.
  intros Hi H9. unfold find_avg_pool_matrix. destruct (N.eqb_spec (vertex_count g) 0); [done|].
  rewrite !u64_mul_small by (unfold clamp_block; destruct (N.ltb_spec b 1), (N.ltb_spec (vertex_count g) b); lia).
  done.
Qed.

Lemma example_pool_val p b : wf_platform p ->
  find_avg_pool_matrix p plain_order example_graph b = Ret (pool_val b).
Proof.
  intros Hp. pose proof (example_reach p) as Hr. apply reach_inv in Hr; [|done].
  assert (vertex_count example_graph = 9) as H9 by by vm_compute.
  unfold pool_val. revert Hr H9. generalize example_graph as g. intros g Hr H9.
  rewrite (pool_platform p) by (done || lia).
  destruct (find_avg_pool_total plat64 plain_order g b Hr) as [m' Hm'].
  { unfold clamp_block. destruct (N.ltb_spec b 1), (N.ltb_spec (vertex_count g) b); lia. }
  by rewrite Hm'.
Qed.

Definition approx_of (b : N) (t : spec_float) : graph :=
  match approximate plat64 plain_order plain_order example_graph b t with Ret g => g | _ => new_directed end.

Lemma example_approx_val p b t : wf_platform p ->
  approximate p plain_order plain_order example_graph b t = Ret (approx_of b t).
Proof.
  intros Hp. pose proof (example_reach p) as Hr. apply reach_inv in Hr; [|done].
  assert (vertex_count example_graph = 9) as H9 by by vm_compute.
  unfold approx_of. revert Hr H9. generalize example_graph as g. intros g Hr H9.
  unfold approximate. destruct (_ || _)%bool; [done|].
  rewrite (pool_platform p) by (done || lia).
  match goal with |- context [find_avg_pool_matrix plat64 plain_order g ?k] =>
    destruct (find_avg_pool_total plat64 plain_order g k Hr) as [m' Hm'] end.
  { unfold clamp_block. destruct (N.ltb_spec (vertex_count g) b);
      match goal with |- context [(?x <? 1)] => destruct (N.ltb_spec x 1) end; try lia;
      rewrite ?N.ltb_irrefl; try lia; case_match; lia. }
  by rewrite Hm'.
Qed.

Lemma example_approx p o o' g b t a s : wf_platform p -> reach p g -> is_u64 b -> is_f64 t = true ->
  approximate p plain_order plain_order g b t = Ret a -> matrix_string p a = Ok s ->
  exists a', approximate p o o' g b t = Ret a' /\ matrix_string p a' = Ok s.
Proof.
  intros Hp Hr Hb Ht Ha Hs.
  destruct (C64_graph_congruence p _ _ Hp Hr Hr ltac:(split; [|split]; done)) as (_ & _ & _ & _ & _ & _ & _ & H).
  specialize (H plain_order plain_order o o' b t). rewrite Ha in H.
  destruct (approximate p o o' g b t) as [a'| |] eqn:Ha'; try done. exists a'. split; [done|].
  simpl in H.
  assert (reach p a) as Hra by by eapply r_approximate.
  assert (reach p a') as Hra' by exact (r_approximate p o o' g b t a' Hr Hb Ht Ha').
  assert (same_edges a a') as Hse.
  { destruct H as (H1 & H2 & _ & H3). split; [exact H1|split; [exact H2|exact H3]]. }
  destruct (C64_graph_congruence p _ _ Hp Hra Hra' Hse) as (_ & _ & _ & _ & Hm & _).
  rewrite Hs in Hm. destruct (matrix_string p a'); simpl in Hm; by subst.
Qed.

(** The texts of the first part. *)
Definition rows (l : list string) : text := join ["013"%char; "010"%char] (txt <$> l).

Definition example_lines : list text :=
  (txt <$> ["GraphRox Demo"; "";
    "GraphRox is a C library (with a Python wrapper) for generating approximations";
    "of graphs for the purpose of fast graph calculations."; "";
    "Adjacency matrix of an example graph with dimension of 9"]%string) ++
  [rows ["[ 0, 1, 0, 0, 0, 1, 0, 0, 0 ]";
     "[ 1, 0, 1, 1, 1, 1, 0, 1, 0 ]";
     "[ 0, 1, 0, 0, 0, 1, 0, 0, 0 ]";
     "[ 0, 1, 0, 0, 0, 0, 0, 0, 0 ]";
     "[ 0, 1, 0, 0, 0, 1, 0, 0, 0 ]";
     "[ 1, 1, 1, 0, 1, 1, 1, 0, 1 ]";
     "[ 0, 0, 0, 0, 0, 1, 0, 0, 0 ]";
     "[ 0, 1, 0, 0, 0, 0, 0, 0, 1 ]";
     "[ 0, 0, 0, 0, 0, 1, 0, 1, 0 ]"]%string; [];
   txt "2x2-block Average Pool Matrix";
   rows ["[ 0.50, 0.50, 0.75, 0.25, 0.00 ]";
     "[ 0.50, 0.00, 0.25, 0.00, 0.00 ]";
     "[ 0.75, 0.25, 0.75, 0.25, 0.25 ]";
     "[ 0.25, 0.00, 0.25, 0.00, 0.25 ]";
     "[ 0.00, 0.00, 0.25, 0.25, 0.00 ]"]%string; [];
   txt "Approximation using 2x2 blocks and a threshold of 0.3";
   rows ["[ 1, 1, 1, 0, 0 ]";
     "[ 1, 0, 0, 0, 0 ]";
     "[ 1, 0, 1, 0, 0 ]";
     "[ 0, 0, 0, 0, 0 ]";
     "[ 0, 0, 0, 0, 0 ]"]%string; [];
   txt "3x3-block Average Pool Matrix";
   rows ["[ 0.44, 0.56, 0.11 ]";
     "[ 0.56, 0.33, 0.22 ]";
     "[ 0.11, 0.22, 0.22 ]"]%string; [];
   txt "Approximation using 3x3 blocks and a threshold of 0.2";
   rows ["[ 1, 1, 0 ]";
     "[ 1, 1, 1 ]";
     "[ 0, 1, 1 ]"]%string; [];
   txt "--------------------------------------------------------------------------------"; []].


(** The first part of the script prints the same texts on every platform that has 277 bytes to
    give, in every order of iteration, and leaves one new object, the graph. *)
Theorem C78_example p e h : wf_platform p -> ce_platform e = p -> wf_alloc_fn (ce_alloc e) ->
  (forall k, k <= 277 -> can_alloc p k = true) ->
  exists x, demo_example e [] h = (example_lines, PyDone x (<[x := OGraph example_graph]> h)) /\
    x <> null /\ h !! x = None.
Proof.
  intros Hp He Hal Hmem. pose proof (usize_16 p Hp) as Hu.
  pose proof (example_reach p) as Hr.
  (* the texts *)
  destruct (example_pool p (ce_order1 e) (ce_order1 e) example_graph 2 (pool_val 2)
    (fst (sq_extremes f64_numeric plain_order (pool_val 2))) (snd (sq_extremes f64_numeric plain_order (pool_val 2)))
    (rows ["[ 0.50, 0.50, 0.75, 0.25, 0.00 ]"; "[ 0.50, 0.00, 0.25, 0.00, 0.00 ]";
     "[ 0.75, 0.25, 0.75, 0.25, 0.25 ]"; "[ 0.25, 0.00, 0.25, 0.00, 0.25 ]";
     "[ 0.00, 0.00, 0.25, 0.25, 0.00 ]"]%string) Hp Hmem Hr) as (m2 & Hm2 & Hs2);
    [by vm_compute|by apply example_pool_val|by vm_compute|by destruct (sq_extremes _ _ _)|by vm_compute|by vm_compute|].
  destruct (example_pool p (ce_order1 e) (ce_order1 e) example_graph 3 (pool_val 3)
    (fst (sq_extremes f64_numeric plain_order (pool_val 3))) (snd (sq_extremes f64_numeric plain_order (pool_val 3)))
    (rows ["[ 0.44, 0.56, 0.11 ]"; "[ 0.56, 0.33, 0.22 ]"; "[ 0.11, 0.22, 0.22 ]"]%string) Hp Hmem Hr) as (m3 & Hm3 & Hs3);
    [by vm_compute|by apply example_pool_val|by vm_compute|by destruct (sq_extremes _ _ _)|by vm_compute|by vm_compute|].
  assert (forall b t n cells, is_u64 b -> is_f64 t = true -> vertex_count (approx_of b t) = n -> 0 < n <= 9 ->
    matrix_text n (fun i j => if does_edge_exist (approx_of b t) i j then txt "1" else txt "0") = cells ->
    exists a, approximate p (ce_order1 e) (ce_order2 e) example_graph b t = Ret a /\ matrix_string p a = Ok cells) as Happ.
  { intros b t n cells Hb Ht Hn H9 Hc.
    eapply (example_approx p _ _ _ b t (approx_of b t)); [done|done|done|done|by apply example_approx_val|].
    eapply graph_text; [done|done| |done|done|done].
    eapply (r_approximate p plain_order plain_order); [done|done|done|by apply example_approx_val]. }
  destruct (Happ 2 (literal 3 10) 5 (rows ["[ 1, 1, 1, 0, 0 ]"; "[ 1, 0, 0, 0, 0 ]"; "[ 1, 0, 1, 0, 0 ]";
     "[ 0, 0, 0, 0, 0 ]"; "[ 0, 0, 0, 0, 0 ]"]%string)) as (a2 & Ha2 & Ht2);
    [by vm_compute|by vm_compute|by vm_compute|lia|by vm_compute|].
  destruct (Happ 3 (literal 2 10) 3 (rows ["[ 1, 1, 0 ]"; "[ 1, 1, 1 ]"; "[ 0, 1, 1 ]"]%string)) as (a3 & Ha3 & Ht3);
    [by vm_compute|by vm_compute|by vm_compute|lia|by vm_compute|]. clear Happ.
  assert (matrix_string p example_graph = Ok (rows ["[ 0, 1, 0, 0, 0, 1, 0, 0, 0 ]";
     "[ 1, 0, 1, 1, 1, 1, 0, 1, 0 ]"; "[ 0, 1, 0, 0, 0, 1, 0, 0, 0 ]"; "[ 0, 1, 0, 0, 0, 0, 0, 0, 0 ]";
     "[ 0, 1, 0, 0, 0, 1, 0, 0, 0 ]"; "[ 1, 1, 1, 0, 1, 1, 1, 0, 1 ]"; "[ 0, 0, 0, 0, 0, 1, 0, 0, 0 ]";
     "[ 0, 1, 0, 0, 0, 0, 0, 0, 1 ]"; "[ 0, 0, 0, 0, 0, 1, 0, 1, 0 ]"]%string)) as Hs0.
  { eapply (graph_text p example_graph 9); [done|done|done|by vm_compute|lia|by vm_compute]. }
  (* the graph *)
  unfold demo_example. rewrite dprints_done.
  destruct (C59_makers e h Hal) as (Hnew & _). destruct (Hnew true) as (x & Ex & Hx & Hfr).
  rewrite (dcall_done _ _ _ h x (<[x:=OGraph new_undirected]> h)) by by (unfold pbind; rewrite Ex).
  assert (forall g u v (f : pyval -> dm addr) out,
    dbind (dcall (pyexec e (PAddEdge x u v))) f out (<[x:=OGraph g]> h) =
    f PyNone out (<[x:=OGraph (add_edge g (c_uint64 u) (c_uint64 v))]> h)) as Hedge.
  { intros g u v f out. apply dcall_done.
    destruct (C59_graph_changes e (<[x:=OGraph g]> h) x g Hx (lookup_insert _ _ _) Hal) as (Hc & _).
    rewrite (Hc u v). by rewrite insert_insert. }
  assert (forall g v ids (f : pyval -> dm addr) out, ids <> [] -> (length ids < 10)%nat ->
    dbind (dcall (pyexec e (PAddVertex x v (Some ids)))) f out (<[x:=OGraph g]> h) =
    f PyNone out (<[x:=OGraph (add_vertex g (c_uint64 v) (Some (c_uint64 <$> ids)))]> h)) as Hvert.
  { intros g v ids f out Hne Hlen. apply dcall_done.
    destruct (C59_graph_changes e (<[x:=OGraph g]> h) x g Hx (lookup_insert _ _ _) Hal) as (_ & _ & _ & Hc & _).
    rewrite (Hc v ids Hne) by (rewrite He; lia). by rewrite insert_insert. }
  rewrite 3 Hedge.
  rewrite (Hvert _ 1%Z [0; 2; 4; 7; 3]%Z _ _ ltac:(discriminate) ltac:(apply Nat.ltb_lt; reflexivity)).
  rewrite (Hvert _ 5%Z [6; 8; 0; 1; 5; 4; 2]%Z _ _ ltac:(discriminate) ltac:(apply Nat.ltb_lt; reflexivity)).
  clear Hedge Hvert.

  change (add_vertex _ (c_uint64 5) _) with example_graph.
  set (h1 := <[x:=OGraph example_graph]> h).
  assert (h1 !! x = Some (OGraph example_graph)) as Hxg by apply lookup_insert.
  assert (vertex_count example_graph = 9) as H9 by by vm_compute.
  revert Hr Hm2 Hm3 Ha2 Ha3 Hs0 Hxg H9. unfold h1. clear h1. generalize example_graph. intros G Hr Hm2 Hm3 Ha2 Ha3 Hs0 Hxg H9.
  set (h1 := <[x:=OGraph G]> h) in *.
  destruct (C59_graph_queries e h1 x G Hx Hxg) as (_ & Hvc & _).
  rewrite (dcall_done _ _ _ h1 (Z.of_N (vertex_count G)) h1) by by (unfold pbind; rewrite Hvc).
  rewrite H9. rewrite dprint_done.
  unfold dbind at 1. rewrite (print_matrix_done p e x G _ _ h1 Hp He Hal Hx Hxg Hr Hs0).
  rewrite dprints_done.
  unfold dbind at 1. rewrite (print_pool_done p e x G 2 m2 _ _ h1 Hp He Hal Hx Hxg Hr ltac:(lia) Hm2 Hs2).
  rewrite dprints_done.
  unfold dbind at 1. rewrite (print_approximation_done p e x G 2 (literal 3 10) a2 _ _ h1 Hp He Hal Hx Hxg Hr ltac:(lia) eq_refl Ha2 Ht2).
  rewrite dprints_done.
  unfold dbind at 1. rewrite (print_pool_done p e x G 3 m3 _ _ h1 Hp He Hal Hx Hxg Hr ltac:(lia) Hm3 Hs3).
  rewrite dprints_done.
  unfold dbind at 1. rewrite (print_approximation_done p e x G 3 (literal 2 10) a3 _ _ h1 Hp He Hal Hx Hxg Hr ltac:(lia) eq_refl Ha3 Ht3).
  rewrite dprints_done. unfold dret. exists x. split; [|done]. f_equal.
Qed.
Print Assumptions C78_example.

(** All the script prints after its first part, and what it leaves, when the two graphs it
    loads are there. *)
Lemma demo_rest p e files h out0 x0 h0 g0 b1 g1 t1 a1 s1 b2 g2 t2 a2 s2 :
  wf_platform p -> ce_platform e = p -> wf_alloc_fn (ce_alloc e) ->
  demo_example e [] h = (out0, PyDone x0 h0) -> x0 <> null -> h0 !! x0 = Some (OGraph g0) ->
  files "./sample-graphs/ca-HepPh.gphrx"%string = Some b1 -> is_slice p b1 ->
  graph_try_from p b1 = Ret (Ok g1) -> is_literal t1 17 10000 ->
  approximate p (ce_order1 e) (ce_order2 e) g1 1500 t1 = Ret a1 -> matrix_string p a1 = Ok s1 ->
  files "./sample-graphs/ca-AstroPh.gphrx"%string = Some b2 -> is_slice p b2 ->
  graph_try_from p b2 = Ret (Ok g2) -> is_literal t2 115 100000 ->
  approximate p (ce_order1 e) (ce_order2 e) g2 2000 t2 = Ret a2 -> matrix_string p a2 = Ok s2 ->
  let counts g := txt "This graph has " ++ N_text (vertex_count g) ++ txt " nodes and " ++
    N_text (edge_count g) ++ txt " edges" in
  exists x h', demo e files [] h = (out0 ++
    (txt <$> ["Loading graph from ca-HepPh.gphrx..."; "";
      "This graph represents the co-author network from Arxiv in the HEP-PH (High";
      "Energy Physics - Phenomenology) category for papers published between January";
      "1993 and April 2003"; ""]%string) ++
    [counts g1; []; txt "Approximation using 1500x1500 blocks and a threshold of 0.0017"; s1] ++
    (txt <$> [""; "--------------------------------------------------------------------------------"; "";
      "Loading graph from ca-AstroPh.gphrx..."; "";
      "This graph represents the co-author network from Arxiv in the ASTRO-PH (Astro";
      "Physics) category for papers published between January 1993 and April 2003"; ""]%string) ++
    [counts g2; []; txt "Approximation using 2000x2000 blocks and a threshold of 0.00115"; s2] ++
    (txt <$> [""; ""; "";
      "Co-author network graphs are provied courtesy of Stanford University and can";
      "be found at the following web address: http://snap.stanford.edu/data/"; "";
      "Citation for co-author network graphs:";
      "J. Leskovec, J. Kleinberg and C. Faloutsos. Graph Evolution: Densification and";
      "Shrinking Diameters. ACM Transactions on Knowledge Discovery from Data (ACM";
      "TKDD), 1(1), 2007."]%string), PyDone x h') /\
    x <> null /\ h' = <[x := OGraph g2]> (delete x0 h0).
Proof.
  intros Hp He Hal H0 Hx0 Hg0 Hf1 Hsl1 Hd1 Ht1 Ha1 Hs1 Hf2 Hsl2 Hd2 Ht2 Ha2 Hs2 counts.
  rewrite <- (literal_nearest 17 10000 t1 ltac:(lia) ltac:(lia) Ht1) in *.
  rewrite <- (literal_nearest 115 100000 t2 ltac:(lia) ltac:(lia) Ht2) in *.
  unfold demo. unfold dbind at 1. rewrite H0. rewrite dprints_done.
  set (q1 := txt <$> ["Loading graph from ca-HepPh.gphrx..."%string; _; _; _; _; _]).
  destruct (C78_file p e files x0 g0 "./sample-graphs/ca-HepPh.gphrx"
    "Approximation using 1500x1500 blocks and a threshold of 0.0017" 1500 (literal 17 10000) b1
    (out0 ++ q1) h0 Hp He Hal Hx0 Hg0 Hf1 Hsl1 ltac:(lia) eq_refl) as (r1 & Er1 & Hr1).
  rewrite Hd1 in Er1. injection Er1 as <-. destruct Hr1 as (a1' & Ea1 & Hr1).
  change (Z.to_N 1500) with 1500 in Ea1. rewrite Ha1 in Ea1. injection Ea1 as <-.
  cbn zeta in Hr1. rewrite Hs1 in Hr1. destruct Hr1 as (x1 & Hx1 & Hfr1 & Hrun1).
  unfold dbind at 1. rewrite Hrun1. clear Hrun1. rewrite dprints_done.
  set (q2 := txt <$> [""%string; _; _; "Loading graph from ca-AstroPh.gphrx..."%string; _; _; _; _]).
  set (h1 := <[x1 := OGraph g1]> (delete x0 h0)).
  assert (h1 !! x1 = Some (OGraph g1)) as Hg1 by apply lookup_insert.
  match goal with |- context [demo_file _ _ _ _ _ _ _] => idtac end.
  unfold dbind at 1.
  match goal with |- context [demo_file e files x1 _ _ _ _ ?o h1] => set (o1 := o) end.
  destruct (C78_file p e files x1 g1 "./sample-graphs/ca-AstroPh.gphrx"
    "Approximation using 2000x2000 blocks and a threshold of 0.00115" 2000 (literal 115 100000) b2
    o1 h1 Hp He Hal Hx1 Hg1 Hf2 Hsl2 ltac:(lia) eq_refl) as (r2 & Er2 & Hr2).
  rewrite Hd2 in Er2. injection Er2 as <-. destruct Hr2 as (a2' & Ea2 & Hr2).
  change (Z.to_N 2000) with 2000 in Ea2. rewrite Ha2 in Ea2. injection Ea2 as <-.
  cbn zeta in Hr2. rewrite Hs2 in Hr2. destruct Hr2 as (x2 & Hx2 & Hfr2 & Hrun2).
  rewrite Hrun2. clear Hrun2. rewrite dprints_done. unfold dret.
  eexists x2, _. split; [|split; [done|reflexivity]].
  unfold o1, h1, counts. f_equal; [by rewrite <- !app_assoc|].
  f_equal. f_equal. apply delete_insert. rewrite lookup_delete_ne by congruence.
  done.
Qed.

(** All the script prints, and what it leaves, when the two graphs it loads are there. *)
Theorem C78_whole p e files h b1 g1 t1 a1 s1 b2 g2 t2 a2 s2 :
  wf_platform p -> ce_platform e = p -> wf_alloc_fn (ce_alloc e) ->
  (forall k, k <= 277 -> can_alloc p k = true) ->
  files "./sample-graphs/ca-HepPh.gphrx"%string = Some b1 -> is_slice p b1 ->
  graph_try_from p b1 = Ret (Ok g1) -> is_literal t1 17 10000 ->
  approximate p (ce_order1 e) (ce_order2 e) g1 1500 t1 = Ret a1 -> matrix_string p a1 = Ok s1 ->
  files "./sample-graphs/ca-AstroPh.gphrx"%string = Some b2 -> is_slice p b2 ->
  graph_try_from p b2 = Ret (Ok g2) -> is_literal t2 115 100000 ->
  approximate p (ce_order1 e) (ce_order2 e) g2 2000 t2 = Ret a2 -> matrix_string p a2 = Ok s2 ->
  let counts g := txt "This graph has " ++ N_text (vertex_count g) ++ txt " nodes and " ++
    N_text (edge_count g) ++ txt " edges" in
  exists x h', demo e files [] h = (example_lines ++
    (txt <$> ["Loading graph from ca-HepPh.gphrx..."; "";
      "This graph represents the co-author network from Arxiv in the HEP-PH (High";
      "Energy Physics - Phenomenology) category for papers published between January";
      "1993 and April 2003"; ""]%string) ++
    [counts g1; []; txt "Approximation using 1500x1500 blocks and a threshold of 0.0017"; s1] ++
    (txt <$> [""; "--------------------------------------------------------------------------------"; "";
      "Loading graph from ca-AstroPh.gphrx..."; "";
      "This graph represents the co-author network from Arxiv in the ASTRO-PH (Astro";
      "Physics) category for papers published between January 1993 and April 2003"; ""]%string) ++
    [counts g2; []; txt "Approximation using 2000x2000 blocks and a threshold of 0.00115"; s2] ++
    (txt <$> [""; ""; "";
      "Co-author network graphs are provied courtesy of Stanford University and can";
      "be found at the following web address: http://snap.stanford.edu/data/"; "";
      "Citation for co-author network graphs:";
      "J. Leskovec, J. Kleinberg and C. Faloutsos. Graph Evolution: Densification and";
      "Shrinking Diameters. ACM Transactions on Knowledge Discovery from Data (ACM";
      "TKDD), 1(1), 2007."]%string), PyDone x h') /\
    x <> null /\ h' = <[x := OGraph g2]> h.
Proof.
  intros Hp He Hal Hmem Hf1 Hsl1 Hd1 Ht1 Ha1 Hs1 Hf2 Hsl2 Hd2 Ht2 Ha2 Hs2.
  destruct (C78_example p e h Hp He Hal Hmem) as (x0 & E0 & Hx0 & Hfr).
  revert E0. generalize example_graph example_lines. intros G L E0.
  destruct (demo_rest p e files h L x0 (<[x0:=OGraph G]> h) G b1 g1 t1 a1 s1 b2 g2 t2 a2 s2
    Hp He Hal E0 Hx0 (lookup_insert _ _ _) Hf1 Hsl1 Hd1 Ht1 Ha1 Hs1 Hf2 Hsl2 Hd2 Ht2 Ha2 Hs2) as (x & h' & Hd & Hx & Hh).
  exists x, h'. split; [exact Hd|]. split; [done|]. by rewrite delete_insert in Hh.
Qed.
Print Assumptions C78_whole.

(** Two small graphs in place of the two files: the script runs to its end. *)
Definition small_bytes : list N :=
  match graph_to_bytes plat64 plain_order (add_edge new_directed 0 1) with Ok l => l | _ => [] end.

Definition small_run (b : list N) (l1 l2 : spec_float) : Prop :=
  match graph_try_from plat64 b with
  | Ret (Ok g) => vertex_count g = 2 /\ edge_count g = 1 /\
    match approximate plat64 plain_order reversed_order g 1500 l1 with
    | Ret a => matrix_string plat64 a = Ok (txt "[ 1 ]") | _ => False end /\
    match approximate plat64 plain_order reversed_order g 2000 l2 with
    | Ret a => matrix_string plat64 a = Ok (txt "[ 1 ]") | _ => False end
  | _ => False end.

Definition small_demo (r : list text * pyresult addr) : Prop :=
  match r with
  | (out, PyDone _ _) => length out = 54%nat /\
    take 6 (drop 28 out) = (txt <$> ["This graph has 2 nodes and 1 edges"; "";
      "Approximation using 1500x1500 blocks and a threshold of 0.0017"; "[ 1 ]"; "";
      "--------------------------------------------------------------------------------"]%string)
  | _ => False
  end.

Lemma small_demo_runs b l1 l2 : is_slice plat64 b -> is_literal l1 17 10000 -> is_literal l2 115 100000 ->
  small_run b l1 l2 -> small_demo (demo env64 (fun _ => Some b) [] ∅).
Proof.
  intros Hb Hl1 Hl2 Hrun. unfold small_run in Hrun.
  destruct (graph_try_from plat64 b) as [[g1|]| |] eqn:Hg; try contradiction.
  destruct Hrun as (Hv & He & H1 & H2).
  destruct (approximate _ _ _ g1 1500 l1) as [a1| |] eqn:Ha1; try contradiction.
  destruct (approximate _ _ _ g1 2000 l2) as [a2| |] eqn:Ha2; try contradiction.
  assert (forall k, k <= 277 -> can_alloc plat64 k = true) as Hmem.
  { intros k Hk. unfold plat64. cbn [can_alloc]. apply N.leb_le. lia. }
  destruct (C78_whole plat64 env64 (fun _ => Some b) ∅ b g1 l1 a1 (txt "[ 1 ]")
    b g1 l2 a2 (txt "[ 1 ]") plat64_wf eq_refl bump_alloc_wf Hmem eq_refl Hb Hg Hl1 Ha1 H1
    eq_refl Hb Hg Hl2 Ha2 H2) as (x & h & Hd & _).
  rewrite Hv, He in Hd. rewrite Hd. unfold small_demo. clear.
  split; vm_compute; reflexivity.
Qed.

Example C78_whole_case : small_demo (demo env64 (fun _ => Some small_bytes) [] ∅).
Proof.
  apply (small_demo_runs _ (literal 17 10000) (literal 115 100000)).
  - split; [by repeat constructor|by vm_compute].
  - by apply (literal_is 17 10000).
  - by apply (literal_is 115 100000).
  - by vm_compute.
Qed.
