(** Lemmas about the C interface. *)
From Coq Require Import Ascii String.
From Verif Require Import Base F64 Numeric Adj Sq Standard Compressed Spec Api CApi CSpec.

(** ** Inversion of the heap operations *)

Lemma cbind_done {A B} (x : cm A) (f : A -> cm B) h b h2 : cbind x f h = Done b h2 ->
  exists a h1, x h = Done a h1 /\ f a h1 = Done b h2.
Proof. unfold cbind. destruct (x h); [eauto|done..]. Qed.

Lemma cret_done {A} (a : A) h b h2 : cret a h = Done b h2 -> b = a /\ h2 = h.
Proof. by intros [= -> ->]. Qed.

Lemma cmap_done {A B} (f : A -> B) (x : cm A) h b h2 : cmap f x h = Done b h2 ->
  exists a, x h = Done a h2 /\ b = f a.
Proof.
  intros H. unfold cmap in H. apply cbind_done in H as (a & h1 & H1 & H2).
  apply cret_done in H2 as [-> ->]. eauto.
Qed.

Lemma v_unit_done (x : cm unit) h b h2 : v_unit x h = Done b h2 -> x h = Done tt h2 /\ b = VUnit.
Proof. intros H. apply cmap_done in H as ([] & H1 & H2). done. Qed.

Lemma crust_done {A} (x : outcome A) h b h2 : crust x h = Done b h2 -> x = Ret b /\ h2 = h.
Proof. unfold crust. destruct x; [|done..]. by intros [= -> ->]. Qed.

Lemma graph_ref_done ptr h x h2 : graph_ref ptr h = Done x h2 -> h2 = h /\
  ((ptr = null /\ x = None) \/ (ptr <> null /\ exists g, x = Some g /\ h !! ptr = Some (OGraph g))).
Proof.
  unfold graph_ref. destruct (N.eqb_spec ptr null); [intros [= <- ->]; eauto|].
  destruct (h !! ptr) as [[]|]; try done. intros [= <- ->]. split; [done|]. right. eauto.
Qed.

Lemma compressed_ref_done ptr h x h2 : compressed_graph_ref ptr h = Done x h2 -> h2 = h /\
  ((ptr = null /\ x = None) \/
   (ptr <> null /\ exists g, x = Some g /\ h !! ptr = Some (OCompressed g))).
Proof.
  unfold compressed_graph_ref. destruct (N.eqb_spec ptr null); [intros [= <- ->]; eauto|].
  destruct (h !! ptr) as [[]|]; try done. intros [= <- ->]. split; [done|]. right. eauto.
Qed.

Lemma matrix_ref_done ptr h x h2 : matrix_ref ptr h = Done x h2 -> h2 = h /\
  ((ptr = null /\ x = None) \/ (ptr <> null /\ exists m, x = Some m /\ h !! ptr = Some (OMatrix m))).
Proof.
  unfold matrix_ref. destruct (N.eqb_spec ptr null); [intros [= <- ->]; eauto|].
  destruct (h !! ptr) as [[]|]; try done. intros [= <- ->]. split; [done|]. right. eauto.
Qed.

Lemma on_graph_done {A} ptr (z : A) f h v h2 : on_graph ptr z f h = Done v h2 ->
  (ptr = null /\ v = z /\ h2 = h) \/
  (ptr <> null /\ exists g, h !! ptr = Some (OGraph g) /\ f g h = Done v h2).
Proof.
  intros H. apply cbind_done in H as (x & h1 & H1 & H2).
  apply graph_ref_done in H1 as [-> [[-> ->]|(Hn & g & -> & Hg)]].
  - apply cret_done in H2 as [-> ->]. by left.
  - right. eauto.
Qed.

Lemma on_compressed_done {A} ptr (z : A) f h v h2 : on_compressed ptr z f h = Done v h2 ->
  (ptr = null /\ v = z /\ h2 = h) \/
  (ptr <> null /\ exists g, h !! ptr = Some (OCompressed g) /\ f g h = Done v h2).
Proof.
  intros H. apply cbind_done in H as (x & h1 & H1 & H2).
  apply compressed_ref_done in H1 as [-> [[-> ->]|(Hn & g & -> & Hg)]].
  - apply cret_done in H2 as [-> ->]. by left.
  - right. eauto.
Qed.

Lemma on_matrix_done {A} ptr (z : A) f h v h2 : on_matrix ptr z f h = Done v h2 ->
  (ptr = null /\ v = z /\ h2 = h) \/
  (ptr <> null /\ exists m, h !! ptr = Some (OMatrix m) /\ f m h = Done v h2).
Proof.
  intros H. apply cbind_done in H as (x & h1 & H1 & H2).
  apply matrix_ref_done in H1 as [-> [[-> ->]|(Hn & g & -> & Hg)]].
  - apply cret_done in H2 as [-> ->]. by left.
  - right. eauto.
Qed.

Lemma put_size_done cell n h u h2 : put_size cell n h = Done u h2 ->
  (cell = null /\ h2 = h) \/
  (cell <> null /\ (exists k, h !! cell = Some (OSizeCell k)) /\ h2 = <[cell := OSizeCell n]> h).
Proof.
  unfold put_size. destruct (N.eqb_spec cell null); [intros [= _ ->]; eauto|].
  destruct (h !! cell) as [[]|]; try done. intros [= _ <-]. right. eauto.
Qed.

Lemma put_error_done cell n h u h2 : put_error cell n h = Done u h2 ->
  (cell = null /\ h2 = h) \/
  (cell <> null /\ (exists k, h !! cell = Some (OErrorCell k)) /\ h2 = <[cell := OErrorCell n]> h).
Proof.
  unfold put_error. destruct (N.eqb_spec cell null); [intros [= _ ->]; eauto|].
  destruct (h !! cell) as [[]|]; try done. intros [= _ <-]. right. eauto.
Qed.

Lemma store_graph_done ptr g h u h2 : store_graph ptr g h = Done u h2 ->
  u = tt /\ h2 = <[ptr := OGraph g]> h.
Proof. by intros [= <- <-]. Qed.

Lemma box_new_done e x h a h2 : box_new e x h = Done a h2 ->
  a = ce_alloc e h /\ h2 = <[a := x]> h.
Proof. by intros [= <- <-]. Qed.

Lemma box_slice_done {A} e al (obj : list A -> cobj) l h a h2 : box_slice e al obj l h = Done a h2 ->
  (l = [] /\ a = al /\ h2 = h) \/ (l <> [] /\ a = ce_alloc e h /\ h2 = <[a := obj l]> h).
Proof.
  unfold box_slice. destruct l; intros H.
  - apply cret_done in H as [-> ->]. by left.
  - apply box_new_done in H as [-> ->]. by right.
Qed.

Lemma into_c_string_done e s h a h2 : into_c_string e s h = Done a h2 ->
  (a = null /\ h2 = h) \/ (a = ce_alloc e h /\ h2 = <[a := OString s]> h).
Proof.
  unfold into_c_string. destruct (existsb _ _); intros H.
  - apply cret_done in H as [-> ->]. by left.
  - apply box_new_done in H as [-> ->]. by right.
Qed.

Lemma drop_box_done f ptr h u h2 : drop_box f ptr h = Done u h2 ->
  (exists x, h !! ptr = Some x /\ f x = true) /\ h2 = delete ptr h.
Proof.
  unfold drop_box. destruct (h !! ptr) as [x|]; [|done].
  destruct (f x) eqn:E; [|done]. intros [= _ <-]. eauto.
Qed.

Lemma drop_slice_done f ptr len h u h2 : drop_slice f ptr len h = Done u h2 ->
  h2 = h \/ (exists x n, h !! ptr = Some x /\ f x = Some n /\ N.of_nat n = len) /\ h2 = delete ptr h.
Proof.
  unfold drop_slice. destruct (N.eqb_spec len 0); [intros [= _ ->]; by left|].
  destruct (h !! ptr) as [x|]; [|done]. destruct (f x) as [n'|] eqn:E; [|done].
  destruct (N.eqb_spec (N.of_nat n') len); [|done]. intros [= _ <-]. right. eauto 10.
Qed.

Lemma read_bytes_done ptr len h l h2 : read_bytes ptr len h = Done l h2 -> h2 = h /\
  exists l', (h !! ptr = Some (OInputBytes l') \/ h !! ptr = Some (OBytes l')) /\
    l = take (N.to_nat len) l' /\ len <= N.of_nat (length l').
Proof.
  unfold read_bytes. destruct (h !! ptr) as [[]|]; try done;
    destruct (N.leb_spec len (N.of_nat (length bytes))); try done; intros [= <- ->]; eauto 10.
Qed.

Lemma read_ids_done ptr len h l h2 : read_ids ptr len h = Done l h2 -> h2 = h /\
  exists l', (h !! ptr = Some (OInputIds l') \/ h !! ptr = Some (OVertices l')) /\
    l = take (N.to_nat len) l' /\ len <= N.of_nat (length l').
Proof.
  unfold read_ids. destruct (h !! ptr) as [[]|]; try done.
  - destruct (N.leb_spec len (N.of_nat (length l0))); try done. intros [= <- ->]; eauto 10.
  - destruct (N.leb_spec len (N.of_nat (length ids))); try done. intros [= <- ->]; eauto 10.
Qed.

Ltac cinv_step :=
  match goal with
  | H : cmap _ _ _ = Done _ _ |- _ => apply cmap_done in H; destruct H as (? & H & ?)
  | H : v_unit _ _ = Done _ _ |- _ => apply v_unit_done in H; destruct H as [H ?]
  | H : cbind _ _ _ = Done _ _ |- _ => apply cbind_done in H; destruct H as (? & ? & ? & H)
  | H : cret _ _ = Done _ _ |- _ => apply cret_done in H; destruct H as [? ?]
  | H : crust _ _ = Done _ _ |- _ => apply crust_done in H; destruct H as [? ?]
  | H : on_graph _ _ _ _ = Done _ _ |- _ =>
      apply on_graph_done in H; destruct H as [(? & ? & ?)|(? & ? & ? & H)]
  | H : on_compressed _ _ _ _ = Done _ _ |- _ =>
      apply on_compressed_done in H; destruct H as [(? & ? & ?)|(? & ? & ? & H)]
  | H : on_matrix _ _ _ _ = Done _ _ |- _ =>
      apply on_matrix_done in H; destruct H as [(? & ? & ?)|(? & ? & ? & H)]
  | H : put_size _ _ _ = Done _ _ |- _ =>
      apply put_size_done in H; destruct H as [(? & ?)|(? & ? & ?)]
  | H : put_error _ _ _ = Done _ _ |- _ =>
      apply put_error_done in H; destruct H as [(? & ?)|(? & ? & ?)]
  | H : box_new _ _ _ = Done _ _ |- _ => apply box_new_done in H; destruct H as [? ?]
  | H : box_slice _ _ _ _ _ = Done _ _ |- _ =>
      apply box_slice_done in H; destruct H as [(? & ? & ?)|(? & ? & ?)]
  | H : into_c_string _ _ _ = Done _ _ |- _ =>
      apply into_c_string_done in H; destruct H as [[? ?]|[? ?]]
  | H : drop_box _ _ _ = Done _ _ |- _ => apply drop_box_done in H; destruct H as [? ?]
  | H : drop_slice _ _ _ _ = Done _ _ |- _ => apply drop_slice_done in H; destruct H as [?|[? ?]]
  | H : read_bytes _ _ _ = Done _ _ |- _ => apply read_bytes_done in H; destruct H as [? ?]
  | H : read_ids _ _ _ = Done _ _ |- _ => apply read_ids_done in H; destruct H as [? ?]
  | H : store_graph _ _ _ = Done _ _ |- _ => apply store_graph_done in H; destruct H as [? ?]
  | H : (if ?b then _ else _) _ = Done _ _ |- _ => destruct b eqn:?
  | H : (match ?r with Ok _ => _ | Err _ => _ end) _ = Done _ _ |- _ => destruct r eqn:?
  | H : (match ?r with Some _ => _ | None => _ end) _ = Done _ _ |- _ => destruct r eqn:?
  | H : exists _, _ |- _ => destruct H
  | H : _ /\ _ |- _ => destruct H
  end.

Ltac cinv c :=
  destruct c as [?|? ?|?|? ?|? ?|[]|? ? ?|?|?|? ?|?|?|?|? ? ?|? ?|? ? ?|? ?|? ?|? ? ? ?|? ? ?|? ? ?
    |? ? ?|? ? ?|? ?|? ?|?|?|?|?|?|?|? ? ?|? ? ?|?|? ?|? ? ?|?|?|?|? ?|?|?|? ? ?|?|? ?|? ?];
  cbn [cexec handle_of neutral size_cell error_cell frees mutates] in *;
  unfold free_gphrx_string_buffer, free_gphrx_bytes_buffer, free_gphrx_graph,
    free_gphrx_edge_list, free_gphrx_vertex_list, gphrx_new_undirected, gphrx_new_directed,
    gphrx_from_bytes, gphrx_duplicate, gphrx_matrix_string, gphrx_to_bytes,
    gphrx_is_undirected, gphrx_vertex_count, gphrx_edge_count, gphrx_does_edge_exist,
    gphrx_find_avg_pool_matrix, gphrx_approximate, gphrx_compress, gphrx_get_edge_list,
    gphrx_add_vertex, gphrx_add_edge, gphrx_delete_edge, gphrx_get_vertex_in_edges_list,
    gphrx_get_vertex_out_edges_list, gphrx_get_vertex_in_degree, gphrx_get_vertex_out_degree,
    free_gphrx_compressed_graph, gphrx_compressed_graph_duplicate,
    gphrx_compressed_graph_compression_level, gphrx_compressed_graph_is_undirected,
    gphrx_compressed_graph_vertex_count, gphrx_compressed_graph_edge_count,
    gphrx_compressed_graph_does_edge_exist, gphrx_get_compressed_matrix_entry,
    gphrx_compressed_graph_matrix_string, gphrx_compressed_graph_to_bytes,
    gphrx_compressed_graph_from_bytes, gphrx_decompress, free_gphrx_matrix,
    gphrx_matrix_duplicate, free_gphrx_matrix_entry_list, gphrx_matrix_dimension,
    gphrx_matrix_entry_count, gphrx_matrix_get_entry, gphrx_matrix_to_string,
    gphrx_matrix_to_string_with_precision, gphrx_matrix_get_entry_list, boxed_bytes_to_raw in *.

(** ** Null handles *)

Lemma put_size_cell cell n h : (cell = null \/ exists k, h !! cell = Some (OSizeCell k)) ->
  put_size cell n h = Done tt (if cell =? null then h else <[cell := OSizeCell n]> h).
Proof.
  unfold put_size. destruct (N.eqb_spec cell null); [done|]. intros [?|[k ->]]; done.
Qed.

Lemma put_error_cell cell n h : (cell = null \/ exists k, h !! cell = Some (OErrorCell k)) ->
  put_error cell n h = Done tt (if cell =? null then h else <[cell := OErrorCell n]> h).
Proof.
  unfold put_error. destruct (N.eqb_spec cell null); [done|]. intros [?|[k ->]]; done.
Qed.

Lemma null_calls e c h : handle_of c = Some null ->
  (size_cell c = null \/ exists k, h !! size_cell c = Some (OSizeCell k)) ->
  cexec e c h = Done (neutral c)
    (if size_cell c =? null then h else <[size_cell c := OSizeCell 0]> h).
Proof.
  intros Hh Hc. cinv c; try discriminate Hh; injection Hh as ->; try reflexivity;
    unfold cmap, cbind; rewrite (put_size_cell _ _ _ Hc); reflexivity.
Qed.

(** ** Framing *)

(** Changes to objects that stay. *)
Definition upd (S : addr -> Prop) (h h' : cheap) : Prop :=
  (forall a, h' !! a = None <-> h !! a = None) /\ (forall a, ~ S a -> h' !! a = h !! a).

Lemma upd_refl S h : upd S h h.
Proof. done. Qed.

Lemma upd_insert (S : addr -> Prop) h h1 a x y : upd S h h1 -> h1 !! a = Some x -> S a ->
  upd S h (<[a := y]> h1).
Proof.
  intros [H1 H2] Ha HS. split.
  - intros b. rewrite <- H1. destruct (decide (a = b)) as [->|Hn].
    + rewrite lookup_insert, Ha. by split.
    + by rewrite lookup_insert_ne.
  - intros b Hb. rewrite lookup_insert_ne; [by apply H2|]. by intros ->.
Qed.

(** The addresses whose contents a call may replace. *)
Definition cells (c : ccall) (a : addr) : Prop :=
  a = size_cell c \/ a = error_cell c \/ a = mutates c.

(** The effect of every call. *)
Record call_effect (c : ccall) (h : cheap) (v : cval) (h' : cheap) : Prop := CallEffect {
  ef_frame : forall a x, h !! a = Some x -> ~ cells c a -> a <> frees c -> h' !! a = Some x;
  ef_fresh : forall a, h !! a = None -> h' !! a <> None -> v = VPtr a /\ a <> null;
  ef_gone : forall a, h !! a <> None -> h' !! a = None -> a = frees c;
}.

Lemma effect_same c h v h' : upd (cells c) h h' -> call_effect c h v h'.
Proof.
  intros [H1 H2]. constructor.
  - intros a x Ha Hc _. by rewrite H2.
  - intros a Ha. by rewrite <- H1 in Ha.
  - intros a Ha Ha'. by rewrite H1 in Ha'.
Qed.

Lemma effect_alloc c h h1 e x : wf_alloc_fn (ce_alloc e) -> upd (cells c) h h1 ->
  call_effect c h (VPtr (ce_alloc e h1)) (<[ce_alloc e h1 := x]> h1).
Proof.
  intros Hal [H1 H2]. destruct (Hal h1) as [Hn Hf]. constructor.
  - intros a y Ha Hc _. rewrite lookup_insert_ne; [by rewrite H2|]. intros <-.
    apply H1 in Hf. congruence.
  - intros a Ha Ha'. destruct (decide (ce_alloc e h1 = a)) as [<-|Hne]; [done|].
    rewrite lookup_insert_ne, H1 in Ha' by done. done.
  - intros a Ha Ha'. destruct (decide (ce_alloc e h1 = a)) as [<-|Hne].
    + by rewrite lookup_insert in Ha'.
    + rewrite lookup_insert_ne, H1 in Ha' by done. done.
Qed.

Lemma effect_free c h v : call_effect c h v (delete (frees c) h).
Proof.
  constructor.
  - intros a x Ha _ Hn. by rewrite lookup_delete_ne.
  - intros a Ha. rewrite lookup_delete_None. intros H. destruct H. by right.
  - intros a Ha. rewrite lookup_delete_None. by intros [?|?].
Qed.

Ltac solve_upd :=
  repeat first
    [ apply upd_refl
    | eapply upd_insert; [|eassumption|by (left + (right; left) + (right; right))] ].

Lemma call_effects e c h v h' : wf_alloc_fn (ce_alloc e) -> cexec e c h = Done v h' ->
  call_effect c h v h'.
Proof.
  intros Hal H. cinv c; repeat cinv_step; subst; try done;
    first [apply effect_same; solve [solve_upd]
          |apply effect_alloc; [done|]; solve [solve_upd]
          |apply (effect_free (CFreeString _))|apply (effect_free (CFreeBytes _ _))
          |apply (effect_free (CFreeGraph _))|apply (effect_free (CFreeEdges _ _))
          |apply (effect_free (CFreeVertices _ _))|apply (effect_free (CFreeCompressed _))
          |apply (effect_free (CFreeMatrix _))|apply (effect_free (CFreeEntries _ _))].
Qed.

Lemma client_effect ev h v h' : (forall e c, ev <> ECall e c) -> cstep ev h = Done v h' ->
  forall a, a ∉ touches ev -> h' !! a = h !! a.
Proof.
  intros Hc H a Ha. destruct ev as [e c|b x|b x|b]; [by destruct (Hc e c)|..];
    cbn [cstep touches] in *; apply not_elem_of_cons in Ha as [Hn _].
  - destruct (_ && _); [|done]. injection H as <- <-. by rewrite lookup_insert_ne.
  - destruct (h !! b) as [y|]; [|done]. destruct (_ && _); [|done]. injection H as <- <-.
    by rewrite lookup_insert_ne.
  - destruct (h !! b) as [y|]; [|done]. destruct (is_client y); [|done]. injection H as <- <-.
    by rewrite lookup_delete_ne.
Qed.

Definition wf_event (ev : cevent) : Prop :=
  match ev with ECall e _ => wf_alloc_fn (ce_alloc e) | _ => True end.

Lemma step_frame ev h v h' a x : wf_event ev -> cstep ev h = Done v h' -> h !! a = Some x ->
  a ∉ touches ev -> h' !! a = Some x.
Proof.
  intros Hwf H Ha Ht. destruct ev as [e c| | |];
    [|(rewrite <- Ha; eapply client_effect; [|exact H|exact Ht]; intros; discriminate)..].
  cbn [touches] in Ht. rewrite !not_elem_of_cons in Ht. destruct Ht as (T1 & T2 & T3 & T4 & _).
  apply (ef_frame _ _ _ _ (call_effects e c h v h' Hwf H)); [done| |done].
  by intros [-> | [-> | ->]].
Qed.

Lemma run_frame evs h vs h' a x : Forall wf_event evs -> crun evs h = Done vs h' ->
  h !! a = Some x -> (forall ev, ev ∈ evs -> a ∉ touches ev) -> h' !! a = Some x.
Proof.
  revert h vs. induction evs as [|ev evs IH]; intros h vs Hwf H Ha Ht; simpl in H.
  { by injection H as <- <-. }
  apply Forall_cons in Hwf as [Hw1 Hw2].
  destruct (cstep ev h) as [v h1| |] eqn:E1; try done.
  destruct (crun evs h1) as [vs' h2| |] eqn:E2; try done. injection H as <- <-.
  apply (IH h1 vs' Hw2 E2).
  - eapply step_frame; [done..|]. apply Ht. left.
  - intros ev' Hev. apply Ht. by right.
Qed.

(** ** Calls depend only on the object behind their handle *)

Definition similar (a : addr) (h1 h2 : cheap) (x y : cresult cval) : Prop :=
  match x, y with
  | Done v h1', Done v' h2' =>
      new_object h1 h1' v = new_object h2 h2' v' /\
      match v, v' with VPtr b, VPtr b' => b = null <-> b' = null | _, _ => v = v' end /\
      h1' !! a = h2' !! a
  | Abort, Abort | UB, UB => True
  | _, _ => False
  end.

Lemma new_object_slice h h' al : h' = h -> new_object h h' (VPtr al) = None.
Proof. intros ->. unfold new_object. by destruct (h !! al) eqn:E. Qed.

Lemma similar_box e a o h1 h2 x : wf_alloc_fn (ce_alloc e) -> h1 !! a = Some o ->
  h2 !! a = Some o ->
  similar a h1 h2 (Done (VPtr (ce_alloc e h1)) (<[ce_alloc e h1 := x]> h1))
    (Done (VPtr (ce_alloc e h2)) (<[ce_alloc e h2 := x]> h2)).
Proof.
  intros Hal H1 H2. destruct (Hal h1) as [N1 F1], (Hal h2) as [N2 F2]. split_and!.
  - unfold new_object. by rewrite F1, F2, !lookup_insert.
  - done.
  - rewrite !lookup_insert_ne by (intros E; rewrite <- E in *; congruence). congruence.
Qed.

Lemma similar_val a h1 h2 v : (forall b, v <> VPtr b) -> h1 !! a = h2 !! a ->
  similar a h1 h2 (Done v h1) (Done v h2).
Proof.
  intros Hv H. unfold similar, new_object. destruct v; try done. by destruct (Hv a0).
Qed.

Lemma similar_ptr a h1 h2 al : h1 !! a = h2 !! a ->
  similar a h1 h2 (Done (VPtr al) h1) (Done (VPtr al) h2).
Proof. intros H. split_and!; [by rewrite !new_object_slice|done|done]. Qed.

Lemma similar_write a h1 h2 v x : (forall b, v <> VPtr b) ->
  similar a h1 h2 (Done v (<[a := x]> h1)) (Done v (<[a := x]> h2)).
Proof.
  intros Hv. split_and!; [destruct v; try done; by destruct (Hv a0)|
    destruct v; try done; by destruct (Hv a0)|by rewrite !lookup_insert].
Qed.

Lemma similar_delete a h1 h2 v : (forall b, v <> VPtr b) ->
  similar a h1 h2 (Done v (delete a h1)) (Done v (delete a h2)).
Proof.
  intros Hv. split_and!; [destruct v; try done; by destruct (Hv a0)|
    destruct v; try done; by destruct (Hv a0)|by rewrite !lookup_delete].
Qed.

Lemma calls_local e c a h1 h2 : wf_alloc_fn (ce_alloc e) -> handle_of c = Some a ->
  size_cell c = null -> match c with CAddVertex _ _ ids _ => ids = null | _ => True end ->
  h1 !! a = h2 !! a -> similar a h1 h2 (cexec e c h1) (cexec e c h2).
Proof.
  intros Hal Hh Hs Hids Hsame.
  cinv c; try discriminate Hh; injection Hh as ->; subst;
    unfold cmap, v_unit, on_graph, on_compressed, on_matrix, graph_ref, compressed_graph_ref,
      matrix_ref, cmap, cbind, crust, cret, put_size, drop_box, drop_slice, into_c_string,
      box_slice, store_graph, cret;
    try (destruct (a =? null); [first [by apply similar_val|by apply similar_ptr]|]);
    try (match goal with |- context [?len =? 0] => destruct (len =? 0) end);
    cbn [negb andb N.eqb null];
    try (first [by apply similar_val|by apply similar_ptr]);
    rewrite ?Hsame; destruct (h2 !! a) as [[]|] eqn:E; try done;
    repeat match goal with
    | |- context [match ?r with Ok _ => _ | Err _ => _ end] => destruct r
    | |- context [match ?r with Ret _ => _ | Panic => _ | OutOfFuel => _ end] => destruct r
    | |- context [match ?r with Some _ => _ | None => _ end] => destruct r
    | |- context [if ?b then _ else _] => destruct b
    | |- context [match ?l with [] => _ | _ :: _ => _ end] => destruct l
    end; try done;
    first [apply similar_val; [done|congruence]|apply similar_ptr; congruence|by eapply similar_box
          |by apply similar_write|by apply similar_delete].
Qed.
