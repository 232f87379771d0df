(** Property C81: C programs that keep to the contract have no undefined behaviour, and what
    they have to free is what they were handed. *)
From Coq Require Import ZArith Ascii String.
From Verif Require Import Base HashIter F64 Numeric Adj Sq Standard Compressed Spec TextSpec Api CApi
  CSpec CProg GraphProofs ApproxProofs CompressProofs GraphCodecProofs CGraphCodecProofs PoolTextProofs
  CApiProofs CHeapProofs PropCommon PropCompress PropPoolMore PropC PropExact.
Local Arguments N.mul : simpl never.
Local Arguments N.add : simpl never.
Local Arguments N.pow : simpl never.

(** ** Undefined behaviour *)

(** [x] is undefined exactly if [P] is false. *)
Definition needs {A} (P : Prop) (x : cresult A) : Prop :=
  match x with UB => ~ P | _ => P end.

Lemma needs_cmap {A B} (f : A -> B) P (x : cm A) h : needs P (x h) -> needs P (cmap f x h).
Proof. unfold cmap, cbind. by destruct (x h). Qed.
Lemma needs_iff {A} P Q (x : cresult A) : needs P x -> (P <-> Q) -> needs Q x.
Proof. destruct x; simpl; tauto. Qed.
Lemma needs_bind {A B} P Q (x : cm A) (f : A -> cm B) h : needs P (x h) ->
  (forall a h', x h = Done a h' -> P -> needs Q (f a h')) -> (x h = Abort -> Q) ->
  needs (P /\ Q) (cbind x f h).
Proof.
  unfold cbind. intros Hx Hf Ha. destruct (x h) as [a h'| |]; simpl in *; [|tauto..].
  specialize (Hf a h' eq_refl Hx). destruct (f a h'); simpl in *; tauto.
Qed.
Lemma needs_ret {A} (a : A) h : needs True (cret a h).
Proof. done. Qed.
Lemma needs_box e x h : needs True (box_new e x h).
Proof. done. Qed.
Lemma needs_slice {A} e al (obj : list A -> cobj) l h : needs True (box_slice e al obj l h).
Proof. by destruct l. Qed.
Lemma needs_string e s h : needs True (into_c_string e s h).
Proof. unfold into_c_string. by destruct (existsb _ _). Qed.
Lemma needs_crust {A} (x : outcome A) h : needs True (crust x h).
Proof. by destruct x. Qed.
Lemma needs_size cell n h : needs (size_param h cell) (put_size cell n h).
Proof.
  unfold put_size, size_param. destruct (N.eqb_spec cell null); [by left|].
  destruct (h !! cell) as [[]|]; simpl; naive_solver.
Qed.
Lemma needs_error cell n h : needs (error_param h cell) (put_error cell n h).
Proof.
  unfold put_error, error_param. destruct (N.eqb_spec cell null); [by left|].
  destruct (h !! cell) as [[]|]; simpl; naive_solver.
Qed.

Definition alive (h : cheap) (k : ckind) (a : addr) : Prop :=
  a = null \/ exists x, h !! a = Some x /\ of_kind k x.

Lemma needs_graph {A} a (z : A) f h P : (forall g, a <> null -> h !! a = Some (OGraph g) -> needs P (f g h)) ->
  (a = null -> P) -> needs (alive h KGraph a /\ P) (on_graph a z f h).
Proof.
  intros Hf Hn. unfold on_graph, cbind, graph_ref, alive. destruct (N.eqb_spec a null) as [->|Ha].
  - simpl. split; [by left|auto].
  - destruct (h !! a) as [[]|] eqn:E; try (simpl; naive_solver).
    eapply needs_iff; [by apply Hf|]. split; [|tauto]. intros HP. split; [|done]. right. by eexists.
Qed.
Lemma needs_compressed {A} a (z : A) f h P :
  (forall g, a <> null -> h !! a = Some (OCompressed g) -> needs P (f g h)) ->
  (a = null -> P) -> needs (alive h KCompressed a /\ P) (on_compressed a z f h).
Proof.
  intros Hf Hn. unfold on_compressed, cbind, compressed_graph_ref, alive. destruct (N.eqb_spec a null) as [->|Ha].
  - simpl. split; [by left|auto].
  - destruct (h !! a) as [[]|] eqn:E; try (simpl; naive_solver).
    eapply needs_iff; [by apply Hf|]. split; [|tauto]. intros HP. split; [|done]. right. by eexists.
Qed.
Lemma needs_matrix {A} a (z : A) f h P :
  (forall g, a <> null -> h !! a = Some (OMatrix g) -> needs P (f g h)) ->
  (a = null -> P) -> needs (alive h KMatrix a /\ P) (on_matrix a z f h).
Proof.
  intros Hf Hn. unfold on_matrix, cbind, matrix_ref, alive. destruct (N.eqb_spec a null) as [->|Ha].
  - simpl. split; [by left|auto].
  - destruct (h !! a) as [[]|] eqn:E; try (simpl; naive_solver).
    eapply needs_iff; [by apply Hf|]. split; [|tauto]. intros HP. split; [|done]. right. by eexists.
Qed.

(** Writing an output parameter leaves the other objects alone. *)
Lemma alive_size h h' cell n k a : size_param h cell -> put_size cell n h = Done tt h' ->
  (alive h' k a <-> alive h k a).
Proof.
  intros Hc. rewrite put_size_ok by done. intros [= <-]. unfold alive, wrote_size.
  destruct (N.eqb_spec cell null) as [|Hn]; [done|]. destruct Hc as [?|[m Hm]]; [done|].
  destruct (decide (cell = a)) as [->|Hne].
  - rewrite lookup_insert, Hm. split; (intros [->|(x & [= <-] & Hx)]; [by left|by destruct k]).
  - by rewrite lookup_insert_ne.
Qed.
Lemma readable_error {A} (arr : cobj -> option (list A)) h h' cell n a len :
  (forall x, arr (OErrorCell x) = None) -> error_param h cell -> put_error cell n h = Done tt h' ->
  (readable arr h' a len <-> readable arr h a len).
Proof.
  intros Harr Hc. rewrite put_error_ok by done. intros [= <-]. unfold readable, wrote_error.
  destruct (N.eqb_spec cell null) as [|Hn]; [done|]. destruct Hc as [?|[m Hm]]; [done|].
  destruct (decide (cell = a)) as [->|Hne].
  - rewrite lookup_insert, Hm. split; (intros [->|[->|(x & l & [= <-] & Hx & _)]]; [by left|by right; left|]);
      by rewrite Harr in Hx.
  - by rewrite lookup_insert_ne.
Qed.

Lemma needs_slice_free len_of a n h :
  needs (whole_list h a n len_of) (if a =? null then cret tt h else drop_slice len_of a n h).
Proof.
  unfold whole_list, drop_slice. destruct (N.eqb_spec a null); [by left|].
  destruct (N.eqb_spec n 0); [by right; left|].
  destruct (h !! a) as [x|] eqn:E; [|simpl; naive_solver].
  destruct (len_of x) as [k|] eqn:El; [|simpl; naive_solver].
  destruct (N.eqb_spec (N.of_nat k) n); simpl.
  - right; right. exists x. split; [done|]. rewrite El. f_equal. lia.
  - intros [?|[?|(y & [= <-] & Hy)]]; [done..|]. rewrite El in Hy. injection Hy as ->. lia.
Qed.

Lemma needs_read e h a n cell (k : list N -> cm addr) :
  (forall l, needs True (k l h)) ->
  error_param h cell ->
  needs (readable byte_array h a n)
    ((if (a =? null) && negb (n =? 0) then cbind (put_error cell e) (fun _ => cret null)
      else cbind (if n =? 0 then cret [] else read_bytes a n) k) h).
Proof.
  intros Hk Hc. unfold readable. destruct (N.eqb_spec a null) as [->|Ha]; destruct (N.eqb_spec n 0) as [->|Hn]; simpl.
  - unfold cbind, cret. eapply needs_iff; [apply Hk|]. split; [by left|done].
  - unfold cbind. rewrite put_error_ok by done. by left.
  - unfold cbind, cret. eapply needs_iff; [apply Hk|]. split; [by right; left|done].
  - unfold cbind, read_bytes. destruct (h !! a) as [x|] eqn:E; [|simpl; naive_solver].
    destruct x; try (simpl; naive_solver).
    all: destruct (N.leb_spec n (N.of_nat (length bytes))) as [Hl|Hl]; [|simpl; intros [?|[?|(y & l & [= <-] & [= <-] & ?)]]; [done..|lia]].
    all: eapply needs_iff; [apply Hk|]; split; [|done]; intros _; right; right; by eexists _, bytes.
Qed.

Lemma needs_bind_true {A B} (x : cm A) (f : A -> cm B) h : needs True (x h) ->
  (forall a h', x h = Done a h' -> needs True (f a h')) -> needs True (cbind x f h).
Proof. unfold cbind. intros Hx Hf. destruct (x h) as [a h'| |]; simpl in *; [by apply Hf|done..]. Qed.
Lemma needs_store a g h : needs True (store_graph a g h).
Proof. done. Qed.
Lemma needs_put_again cell n m h h' u : put_size cell n h = Done u h' -> needs True (put_size cell m h').
Proof.
  intros H. apply put_size_done in H as [[-> ->]|(Hc & _ & ->)]; unfold put_size; [done|].
  by rewrite (proj2 (N.eqb_neq _ _) Hc), lookup_insert.
Qed.

Ltac needs_auto := repeat first
  [ exact I | apply needs_ret | apply needs_box | apply needs_slice | apply needs_string | apply needs_crust
  | apply needs_store | (eapply needs_put_again; eassumption)
  | (apply needs_bind_true; [|intros]) | case_match ].

(** A length cell is written before the object is looked at. *)
Lemma needs_then {A} cell (k : ckind) a (f : unit -> cm A) h :
  (forall u h', put_size cell 0 h = Done u h' -> needs (alive h' k a /\ True) (f u h')) ->
  needs (size_param h cell /\ alive h k a) (cbind (put_size cell 0) f h).
Proof.
  intros Hf. apply needs_bind; [apply needs_size| |].
  - intros [] h' E Hc. eapply needs_iff; [by apply Hf|]. rewrite (alive_size h h' cell 0 k a Hc E). tauto.
  - unfold put_size. destruct (cell =? null); [done|]. by destruct (h !! cell) as [[]|].
Qed.

Lemma takes_some (h : cheap) k a : (forall k' a', Some (k, a) = Some (k', a') -> a' = null \/ exists x, h !! a' = Some x /\ of_kind k' x)
  <-> alive h k a.
Proof. split; [intros H; by apply H|]. by intros H ? ? [= <- <-]. Qed.
Lemma takes_none (h : cheap) : (forall k' a', @None (ckind * addr) = Some (k', a') -> a' = null \/ exists x, h !! a' = Some x /\ of_kind k' x)
  <-> True.
Proof. split; [done|]. by intros _ ? ? [=]. Qed.
Lemma size_null h : size_param h null <-> True.
Proof. split; [done|by left]. Qed.
Lemma error_null h : error_param h null <-> True.
Proof. split; [done|by left]. Qed.
Lemma needs_drop k (is_it : cobj -> bool) a h : (forall x, is_it x = true <-> of_kind k x) ->
  needs (alive h k a) ((if a =? null then cret tt else drop_box is_it a) h).
Proof.
  intros Hk. unfold alive, drop_box. destruct (N.eqb_spec a null); [by left|].
  destruct (h !! a) as [x|] eqn:E; [|simpl; naive_solver].
  destruct (is_it x) eqn:Ei; simpl.
  - right. exists x. split; [done|by apply Hk].
  - intros [?|(y & [= <-] & Hy)]; [done|]. apply Hk in Hy. congruence.
Qed.

Lemma needs_last {A} P (x : cresult A) : needs P x -> needs (True /\ True /\ True /\ P) x.
Proof. intros H. eapply needs_iff; [exact H|tauto]. Qed.
Lemma needs_from_bytes buffer size error err (k : list N -> cm addr) h :
  (forall l h', error_param h' error -> needs True (k l h')) ->
  needs (True /\ True /\ error_param h error /\ readable byte_array h buffer size)
    (cbind (put_error error 0) (fun _ =>
      if (buffer =? null) && negb (size =? 0) then cbind (put_error error err) (fun _ => cret null)
      else cbind (if size =? 0 then cret [] else read_bytes buffer size) k) h).
Proof.
  intros Hk. eapply needs_iff; [apply needs_bind; [apply needs_error| |]|].
  - intros [] h' E Hc. assert (error_param h' error) as Hc'.
    { rewrite put_error_ok in E by done. injection E as <-. by apply error_param_write. }
    eapply needs_iff; [apply needs_read; [|done]; intros l; by apply Hk|].
    by rewrite (readable_error byte_array h h' error 0 buffer size).
  - unfold put_error. destruct (error =? null); [done|]. by destruct (h !! error) as [[]|].
  - tauto.
Qed.

(** A call is undefined exactly if it breaks the contract. *)
Theorem C81_contract e c h : cexec e c h = UB <-> ~ contract h c.
Proof.
  assert (needs (contract h c) (cexec e c h)) as H.
  { destruct c; cbn [cexec]; unfold v_unit; try destruct undirected; apply needs_cmap;
    unfold contract; cbn [takes size_cell error_cell];
    (eapply needs_iff;
      [|rewrite ?takes_some, ?takes_none, ?size_null, ?error_null; symmetry;
        match goal with |- ?A /\ ?B /\ ?C /\ ?D <-> ?E => instantiate (1 := A /\ B /\ C /\ D); reflexivity end]).
    all: try (eapply needs_iff; [apply needs_graph; [intros; needs_auto|done]|tauto]).
    all: try (eapply needs_iff; [apply needs_compressed; [intros; needs_auto|done]|tauto]).
    all: try (eapply needs_iff; [apply needs_matrix; [intros; needs_auto|done]|tauto]).
    all: try (eapply needs_iff; [apply needs_then; intros; apply needs_graph; [intros; needs_auto|done]|tauto]).
    all: try (eapply needs_iff; [apply needs_then; intros; apply needs_compressed; [intros; needs_auto|done]|tauto]).
    all: try (eapply needs_iff; [apply needs_then; intros; apply needs_matrix; [intros; needs_auto|done]|tauto]).
    - eapply needs_iff; [apply (needs_drop KString); by intros []|tauto].
    - apply needs_last. pose proof (needs_slice_free bytes_len buffer size h) as H.
      unfold free_gphrx_bytes_buffer. by destruct (buffer =? null).
    - eapply needs_iff; [apply (needs_drop KGraph); by intros []|tauto].
    - apply needs_last. pose proof (needs_slice_free edges_len list length h) as H.
      unfold free_gphrx_edge_list. by destruct (list =? null).
    - apply needs_last. pose proof (needs_slice_free vertices_len list length h) as H.
      unfold free_gphrx_vertex_list. by destruct (list =? null).
    - by simpl.
    - by simpl.
    - apply needs_from_bytes. intros l h' Hc. apply needs_bind_true; [apply needs_crust|].
      intros r h1 E. apply crust_done in E as [_ ->]. destruct r; [done|].
      unfold cbind. by rewrite put_error_ok.
    - eapply needs_iff; [apply needs_graph; [|]|].
      + intros g Hg Hx. instantiate (1 := graph <> null -> readable id_array h ids len).
        eapply needs_iff; [|split; [intros HH _; exact HH|intros HH; by apply HH]].
        unfold readable. destruct (N.eqb_spec ids null) as [->|Ha]; destruct (N.eqb_spec len 0) as [->|Hn]; simpl.
        * by left.
        * by left.
        * by right; left.
        * unfold cbind, read_ids. destruct (h !! ids) as [x|] eqn:E; [|simpl; naive_solver].
          destruct x; try (simpl; naive_solver).
          -- destruct (N.leb_spec len (N.of_nat (length l))) as [Hl|Hl]; simpl.
             ++ right; right. by eexists _, l.
             ++ intros [?|[?|(y & l' & [= <-] & [= <-] & ?)]]; [done..|lia].
          -- destruct (N.leb_spec len (N.of_nat (length ids0))) as [Hl|Hl]; simpl.
             ++ right; right. by eexists _, ids0.
             ++ intros [?|[?|(y & l' & [= <-] & [= <-] & ?)]]; [done..|lia].
      + done.
      + tauto.
    - eapply needs_iff; [apply (needs_drop KCompressed); by intros []|tauto].
    - apply needs_from_bytes. intros l h' Hc. apply needs_bind_true; [apply needs_crust|].
      intros r h1 E. apply crust_done in E as [_ ->]. destruct r; [done|].
      unfold cbind. by rewrite put_error_ok.
    - eapply needs_iff; [apply (needs_drop KMatrix); by intros []|tauto].
    - apply needs_last. pose proof (needs_slice_free entries_len list length h) as H.
      unfold free_gphrx_matrix_entry_list. by destruct (list =? null). }
  destruct (cexec e c h); simpl in H; (split; [by intros|by intros]) || (split; done).
Qed.
Print Assumptions C81_contract.

(** ** Aborting *)

Lemma cbind_abort {A B} (x : cm A) (f : A -> cm B) h : cbind x f h = Abort ->
  x h = Abort \/ exists a h', x h = Done a h' /\ f a h' = Abort.
Proof. unfold cbind. destruct (x h); naive_solver. Qed.
Lemma cmap_abort {A B} (f : A -> B) (x : cm A) h : cmap f x h = Abort -> x h = Abort.
Proof. unfold cmap, cbind. by destruct (x h). Qed.
Lemma put_size_abort cell n h : put_size cell n h <> Abort.
Proof. unfold put_size. destruct (cell =? null); [done|]. by destruct (h !! cell) as [[]|]. Qed.
Lemma put_error_abort cell n h : put_error cell n h <> Abort.
Proof. unfold put_error. destruct (cell =? null); [done|]. by destruct (h !! cell) as [[]|]. Qed.
Lemma box_slice_abort {A} e al (obj : list A -> cobj) l h : box_slice e al obj l h <> Abort.
Proof. by destruct l. Qed.
Lemma into_c_string_abort e s h : into_c_string e s h <> Abort.
Proof. unfold into_c_string. by destruct (existsb _ _). Qed.
Lemma crust_abort {A} (x : outcome A) h : crust x h = Abort -> forall a, x <> Ret a.
Proof. by destruct x. Qed.
Lemma drop_box_abort f a h : drop_box f a h <> Abort.
Proof. unfold drop_box. destruct (h !! a) as [x|]; [|done]. by destruct (f x). Qed.
Lemma drop_slice_abort f a n h : drop_slice f a n h <> Abort.
Proof.
  unfold drop_slice. destruct (n =? 0); [done|]. destruct (h !! a) as [x|]; [|done].
  destruct (f x); [|done]. by destruct (_ =? n).
Qed.
Lemma read_bytes_abort a n h : read_bytes a n h <> Abort.
Proof. unfold read_bytes. destruct (h !! a) as [[]|]; try done; by destruct (_ <=? _). Qed.
Lemma read_ids_abort a n h : read_ids a n h <> Abort.
Proof. unfold read_ids. destruct (h !! a) as [[]|]; try done; by destruct (_ <=? _). Qed.
Lemma on_graph_abort {A} a (z : A) f h : on_graph a z f h = Abort ->
  a <> null /\ exists g, h !! a = Some (OGraph g) /\ f g h = Abort.
Proof.
  unfold on_graph, cbind, graph_ref. destruct (N.eqb_spec a null); [done|].
  destruct (h !! a) as [[]|]; try done. intros H. split; [done|]. by eexists.
Qed.
Lemma on_compressed_abort {A} a (z : A) f h : on_compressed a z f h = Abort ->
  a <> null /\ exists g, h !! a = Some (OCompressed g) /\ f g h = Abort.
Proof.
  unfold on_compressed, cbind, compressed_graph_ref. destruct (N.eqb_spec a null); [done|].
  destruct (h !! a) as [[]|]; try done. intros H. split; [done|]. by eexists.
Qed.
Lemma on_matrix_abort {A} a (z : A) f h : on_matrix a z f h = Abort ->
  a <> null /\ exists g, h !! a = Some (OMatrix g) /\ f g h = Abort.
Proof.
  unfold on_matrix, cbind, matrix_ref. destruct (N.eqb_spec a null); [done|].
  destruct (h !! a) as [[]|]; try done. intros H. split; [done|]. by eexists.
Qed.

Ltac unfold_calls H := unfold free_gphrx_string_buffer, free_gphrx_bytes_buffer, free_gphrx_graph, free_gphrx_edge_list, free_gphrx_vertex_list, gphrx_new_undirected, gphrx_new_directed, gphrx_from_bytes, gphrx_duplicate, gphrx_matrix_string, gphrx_to_bytes, gphrx_is_undirected, gphrx_vertex_count, gphrx_edge_count, gphrx_does_edge_exist, gphrx_find_avg_pool_matrix, gphrx_approximate, gphrx_compress, gphrx_get_edge_list, gphrx_add_vertex, gphrx_add_edge, gphrx_delete_edge, gphrx_get_vertex_in_edges_list, gphrx_get_vertex_out_edges_list, gphrx_get_vertex_in_degree, gphrx_get_vertex_out_degree, free_gphrx_compressed_graph, gphrx_compressed_graph_duplicate, gphrx_compressed_graph_compression_level, gphrx_compressed_graph_is_undirected, gphrx_compressed_graph_vertex_count, gphrx_compressed_graph_edge_count, gphrx_compressed_graph_does_edge_exist, gphrx_get_compressed_matrix_entry, gphrx_compressed_graph_matrix_string, gphrx_compressed_graph_to_bytes, gphrx_compressed_graph_from_bytes, gphrx_decompress, free_gphrx_matrix, gphrx_matrix_duplicate, free_gphrx_matrix_entry_list, gphrx_matrix_dimension, gphrx_matrix_entry_count, gphrx_matrix_get_entry, gphrx_matrix_to_string, gphrx_matrix_to_string_with_precision, gphrx_matrix_get_entry_list in H.
Ltac abort_step :=
  match goal with
  | H : cbind _ _ _ = Abort |- _ => apply cbind_abort in H as [H|(? & ? & ? & H)]
  | H : on_graph _ _ _ _ = Abort |- _ => apply on_graph_abort in H as (? & ? & ? & H)
  | H : on_compressed _ _ _ _ = Abort |- _ => apply on_compressed_abort in H as (? & ? & ? & H)
  | H : on_matrix _ _ _ _ = Abort |- _ => apply on_matrix_abort in H as (? & ? & ? & H)
  | H : put_size _ _ _ = Abort |- _ => by apply put_size_abort in H
  | H : put_error _ _ _ = Abort |- _ => by apply put_error_abort in H
  | H : box_slice _ _ _ _ _ = Abort |- _ => by apply box_slice_abort in H
  | H : boxed_bytes_to_raw _ _ _ _ = Abort |- _ => unfold boxed_bytes_to_raw in H
  | H : into_c_string _ _ _ = Abort |- _ => by apply into_c_string_abort in H
  | H : drop_box _ _ _ = Abort |- _ => by apply drop_box_abort in H
  | H : drop_slice _ _ _ _ = Abort |- _ => by apply drop_slice_abort in H
  | H : read_bytes _ _ _ = Abort |- _ => by apply read_bytes_abort in H
  | H : read_ids _ _ _ = Abort |- _ => by apply read_ids_abort in H
  | H : cret _ _ = Abort |- _ => discriminate H
  | H : box_new _ _ _ = Abort |- _ => discriminate H
  | H : store_graph _ _ _ = Abort |- _ => discriminate H
  | H : (if ?b then _ else _) _ = Abort |- _ => destruct b eqn:?
  | H : (match ?r with Ok _ => _ | Err _ => _ end) _ = Abort |- _ => destruct r
  end.

(** In every heap a C program can produce, no call within its contract aborts the process,
    except pooling and approximating with 2^32 vertices and blocks of that size in builds with
    overflow checks (which always abort), texts with more than 65491 decimals, and
    gphrx_matrix_to_string where the text is too long. *)
Theorem C81_abort p e c h : wf_platform p -> c_reach p h -> ce_platform e = p ->
  wf_alloc_fn (ce_alloc e) -> args_ok p h c ->
  match c with
  | CFindAvgPool a b | CApproximate a b _ => cexec e c h = Abort <->
      exists g, a <> null /\ h !! a = Some (OGraph g) /\
        overflow_checks p = true /\ 2 ^ 32 <= N.min b (vertex_count g)
  | CMatrixToStringPrecision _ d => cexec e c h = Abort -> 65491 < d
  | CMatrixToString a => cexec e c h = Abort <-> exists m msg, a <> null /\ h !! a = Some (OMatrix m) /\
      sq_to_string_with_precision p f64_numeric (ce_order1 e) m 2 = Ret (Err (CapacityOverflow msg))
  | _ => cexec e c h <> Abort
  end.
Proof.
  intros Hp Hh He Hal Hargs. pose proof (fun a => C52_reachable p h a Hh) as Hreach.
  assert (forall buffer size error n h1 l h2, put_error error n h = Done tt h1 ->
    (if size =? 0 then cret [] else read_bytes buffer size) h1 = Done l h2 ->
    (forall l, h !! buffer = Some (OInputBytes l) \/ h !! buffer = Some (OBytes l) -> is_slice p l) ->
    is_slice p l) as Hread.
  { intros buffer size error n h1 l h2 H1 H2 Hs. destruct (size =? 0).
    - injection H2 as <- <-. apply slice_nil.
    - apply put_error_done in H1 as [[_ ->]|(_ & [k Hk] & ->)]; unfold read_bytes in H2.
      + destruct (h !! buffer) as [[]|]; try done;
          (destruct (_ <=? _); [|done]; injection H2 as <- <-; apply slice_take, Hs; eauto).
      + destruct (decide (error = buffer)) as [->|Hne]; [by rewrite lookup_insert in H2|].
        rewrite lookup_insert_ne in H2 by done.
        destruct (h !! buffer) as [[]|]; try done;
          (destruct (_ <=? _); [|done]; injection H2 as <- <-; apply slice_take, Hs; eauto). }
  destruct (C52_makers e h Hal) as (_ & _ & Hmk & _). rewrite He in Hmk.
  assert (forall a m d, a <> null -> h !! a = Some (OMatrix m) -> d <= 65491 ->
    exists r, sq_to_string_with_precision p f64_numeric (ce_order1 e) m d = Ret r /\
      match r with Ok _ => True | Err err => exists msg, err = CapacityOverflow msg end) as Htext.
  { intros a m d Ha Hm Hd. destruct (Hreach a) as (_ & _ & _ & Hr). destruct (Hr m Hm) as (g & o & b & Hg & _ & Hpool).
    apply (pool_safe p o (ce_order1 e) g b m d Hp (reach_inv p g Hp Hg) Hpool). lia. }
  assert (forall s r, makes_text h (Ok s) r -> r <> Abort) as Hok.
  { intros s r Hx ->. unfold makes_text in Hx. destruct (existsb _ s); [done|]. by destruct Hx as (? & ? & _). }
  destruct c; cbn [args_ok] in Hargs; try (intros H; pose proof H as Hab; cbn [cexec] in H; unfold v_unit in H;
    try destruct undirected; apply cmap_abort in H; unfold_calls H; repeat abort_step).
  - destruct (graph_try_from_total (ce_platform e) x1) as [r Er]; [by rewrite He| |].
    + destruct x. rewrite He. eapply Hread; [done|done|apply Hargs].
    + by apply (crust_abort _ _ H r).
  - split.
    + intros H. cbn [cexec] in H. apply cmap_abort in H. unfold_calls H.
      apply on_graph_abort in H as (Hn & g & Hg & H). abort_step; [|done].
      exists g. split_and!; [done..| |]; destruct (Hreach graph) as (_ & Hr & _); specialize (Hr g Hg);
        destruct (C36_panics_exactly p (ce_order1 e) (ce_order2 e) g block_dimension f64_zero Hp Hr) as (P1 & _ & P3);
        rewrite He in H; destruct (find_avg_pool_matrix p (ce_order1 e) g block_dimension) eqn:E; try done;
        try (by apply P1).
      all: destruct P3 as [[m Hm] _]; [|done]; intros Hw; apply P1 in Hw; congruence.
    + intros (g & Hn & Hg & Hw). destruct (Hreach graph) as (_ & Hr & _). specialize (Hr g Hg).
      destruct (C36_panics_exactly p (ce_order1 e) (ce_order2 e) g block_dimension f64_zero Hp Hr) as (P1 & _ & _).
      destruct (Hmk graph g Hn Hg) as (_ & Hx & _). specialize (Hx block_dimension).
      by rewrite (proj2 P1 Hw) in Hx.
  - split.
    + intros H. cbn [cexec] in H. apply cmap_abort in H. unfold_calls H.
      apply on_graph_abort in H as (Hn & g & Hg & H). abort_step; [|done].
      exists g. split_and!; [done..| |]; destruct (Hreach graph) as (_ & Hr & _); specialize (Hr g Hg);
        destruct (C36_panics_exactly p (ce_order1 e) (ce_order2 e) g block_dimension threshold Hp Hr) as (_ & P1 & P3);
        rewrite He in H; destruct (approximate p (ce_order1 e) (ce_order2 e) g block_dimension threshold) eqn:E; try done;
        try (by apply P1).
      all: destruct P3 as [_ [m Hm]]; [|done]; intros Hw; apply P1 in Hw; congruence.
    + intros (g & Hn & Hg & Hw). destruct (Hreach graph) as (_ & Hr & _). specialize (Hr g Hg).
      destruct (C36_panics_exactly p (ce_order1 e) (ce_order2 e) g block_dimension threshold Hp Hr) as (_ & P1 & _).
      destruct (Hmk graph g Hn Hg) as (_ & _ & Hx & _). specialize (Hx block_dimension threshold).
      by rewrite (proj2 P1 Hw) in Hx.
  - match goal with Hg : h !! graph = Some (OGraph ?g) |- _ =>
      destruct (Hreach graph) as (_ & Hr & _); specialize (Hr g Hg);
      destruct (C25_decompress p (ce_order1 e) (ce_order2 e) (ce_order1 e) g level Hp Hr) as (cg & g' & Hc & _) end.
    rewrite He, Hc in H. done.
  - match goal with Hg : h !! graph = Some (OCompressed ?g) |- _ =>
      destruct (Hreach graph) as (_ & _ & Hr & _); specialize (Hr g Hg);
      destruct (C52_texts_and_bytes p e h graph null Hp He Hal ltac:(done) ltac:(by left)) as [_ HC];
      destruct (HC g Hr Hg) as [(r & E & _) _] end.
    rewrite He, E in H. done.
  - destruct (cgraph_try_from_total (ce_platform e) x1) as [r Er]; [by rewrite He| |].
    + destruct x. rewrite He. eapply Hread; [done|done|apply Hargs].
    + by apply (crust_abort _ _ H r).
  - match goal with Hg : h !! graph = Some (OCompressed ?g) |- _ =>
      destruct (Hreach graph) as (_ & _ & Hr & _); specialize (Hr g Hg);
      destruct (C25_decompress_any p (ce_order1 e) g Hp Hr) as (g' & Hd & _) end.
    rewrite He, Hd in H. done.
  - split.
    + intros H. assert (matrix <> null /\ exists m, h !! matrix = Some (OMatrix m)) as (Hn & m & Hm).
      { cbn [cexec] in H. apply cmap_abort in H. unfold_calls H.
        apply on_matrix_abort in H as (Hn & m & Hm & _). split; [done|]. by exists m. }
      destruct (C52_matrix_texts e h matrix m Hal Hn Hm) as [_ Ht]. rewrite He in Ht.
      destruct (Htext matrix m 2 Hn Hm ltac:(lia)) as (r & E & Hr). rewrite E in Ht.
      destruct r as [s|err]; [by destruct (Hok s _ Ht)|]. destruct Hr as [msg ->]. by exists m, msg.
    + intros (m & msg & Hn & Hm & E). destruct (C52_matrix_texts e h matrix m Hal Hn Hm) as [_ Ht].
      rewrite He, E in Ht. exact Ht.
  - destruct (N.le_gt_cases digits 65491) as [Hd|Hd]; [|done].
    match goal with Hm : h !! matrix = Some (OMatrix ?m) |- _ =>
      destruct (Htext matrix m digits ltac:(done) Hm Hd) as (r & E & _) end.
    rewrite He, E in H. done.
Qed.
Print Assumptions C81_abort.

(** ** What a program knows about the heap *)

Definition same_use (a : addr) (x y : cobj) : Prop :=
  free_call a x = free_call a y /\ is_client x = is_client y /\ forall k, of_kind k x <-> of_kind k y.
Definition keeps (except : addr -> Prop) (h h' : cheap) : Prop :=
  forall a x, h !! a = Some x -> ~ except a -> exists y, h' !! a = Some y /\ same_use a x y.

Lemma same_use_refl a x : same_use a x x.
Proof. by split_and!. Qed.
Lemma same_use_trans a x y z : same_use a x y -> same_use a y z -> same_use a x z.
Proof. intros (H1 & H2 & H3) (H4 & H5 & H6). split_and!; [congruence..|]. intros k. by rewrite H3. Qed.
Lemma keeps_refl P h : keeps P h h.
Proof. intros a x Ha _. exists x. split; [done|apply same_use_refl]. Qed.
Lemma keeps_insert P h h1 b w : (forall z, h1 !! b = Some z -> same_use b z w) -> keeps P h h1 ->
  keeps P h (<[b := w]> h1).
Proof.
  intros Hb Hk a x Ha Hx. destruct (Hk a x Ha Hx) as (y & Hy & Hs).
  destruct (decide (b = a)) as [->|Hne].
  - exists w. rewrite lookup_insert. split; [done|]. eapply same_use_trans; [exact Hs|]. by apply Hb.
  - exists y. by rewrite lookup_insert_ne.
Qed.
Lemma keeps_delete h b : keeps (fun a => a = b) h (delete b h).
Proof.
  intros a x Ha Hne. exists x. rewrite lookup_delete_ne by done. split; [done|apply same_use_refl].
Qed.

Lemma call_keeps e c h v h' : wf_alloc_fn (ce_alloc e) -> cexec e c h = Done v h' ->
  keeps (fun a => a = frees c) h h'.
Proof.
  intros Hal H. cinv c; repeat cinv_step; subst; try done; try apply keeps_refl; try apply keeps_delete.
  all: repeat first [apply keeps_refl | apply keeps_insert;
    [intros ? Hz;
     first [rewrite (proj2 (Hal _)) in Hz; discriminate
           |repeat (apply lookup_insert_Some in Hz as [[_ <-]|[_ Hz]]; [by split_and!; try (by intros [])|]);
            match type of Hz with ?hh !! ?b = _ => match goal with Hy : hh !! b = Some _ |- _ => rewrite Hy in Hz; injection Hz as <- end end;
            split_and!; try done; by intros []]|]].
Qed.

(** Lists in the heap are not empty. *)
Definition nonempty (x : cobj) : Prop :=
  x <> OBytes [] /\ x <> OEdges [] /\ x <> OVertices [] /\ x <> OEntries [].
Definition full (h : cheap) : Prop := forall a x, h !! a = Some x -> nonempty x.
Lemma full_insert h a x : full h -> nonempty x -> full (<[a := x]> h).
Proof. intros Hh Hx b y Hy. apply lookup_insert_Some in Hy as [[_ <-]|[_ Hy]]; [done|by eapply Hh]. Qed.
Lemma full_delete h a : full h -> full (delete a h).
Proof. intros Hh b y Hy. apply lookup_delete_Some in Hy as [_ Hy]. by eapply Hh. Qed.
Lemma call_full e c h v h' : full h -> cexec e c h = Done v h' -> full h'.
Proof.
  intros Hf H. cinv c; repeat cinv_step; subst; try done;
    repeat first [exact Hf | apply full_delete | apply full_insert]; try (by split_and!);
    split_and!; congruence.
Qed.

(** What a call returns is of the announced kind. *)
Lemma call_returns e c h a h' k : cexec e c h = Done (VPtr a) h' -> returns c = Some k ->
  a <> null -> exists x, h' !! a = Some x /\ of_kind k x.
Proof.
  intros H Hk Ha. cinv c; cbn [returns] in Hk; try discriminate Hk; injection Hk as <-;
    repeat cinv_step; subst; simplify_eq;
    try (eexists; rewrite lookup_insert; split; [reflexivity|exact I]); done.
Qed.

Lemma cell_after e (h : cheap) cell m y n : wf_alloc_fn (ce_alloc e) ->
  <[ce_alloc e (<[cell := OSizeCell m]> h) := y]> (<[cell := OSizeCell m]> h) !! cell = Some (OSizeCell n) -> n = m.
Proof.
  intros Hal. rewrite lookup_insert_ne, lookup_insert; [by intros [= ->]|]. intros E.
  pose proof (proj2 (Hal (<[cell := OSizeCell m]> h))) as Hx. by rewrite E, lookup_insert in Hx.
Qed.
Lemma call_returns_list e c h a h' n cell : wf_alloc_fn (ce_alloc e) ->
  cexec e c h = Done (VPtr a) h' -> a <> null -> free_list c a n <> None ->
  size_cell c = cell -> cell <> null -> h' !! cell = Some (OSizeCell n) ->
  n = 0 \/ exists x, h' !! a = Some x /\ free_call a x = free_list c a n.
Proof.
  intros Hal H Ha Hl Hc Hn Hcell. cinv c; cbn [free_list] in *; try done;
    repeat cinv_step; subst; simplify_eq; try done.
  all: first
    [ left; rewrite lookup_insert in Hcell; injection Hcell as <-;
      repeat match goal with Hl : _ = [] |- _ => rewrite Hl end; reflexivity
    | right; apply cell_after in Hcell; [|exact Hal]; subst; eexists; rewrite lookup_insert; by split ].
Qed.

(** ** Programs *)

Lemma crun_snoc evs ev : forall h vs h', crun (evs ++ [ev]) h = Done vs h' ->
  exists vs0 v h1, crun evs h = Done vs0 h1 /\ cstep ev h1 = Done v h' /\ vs = vs0 ++ [v].
Proof.
  induction evs as [|ev0 evs IH]; intros h vs h' H; simpl in *.
  - destruct (cstep ev h) as [v h1| |] eqn:E; try done. injection H as <- <-. by exists [], v, h.
  - destruct (cstep ev0 h) as [v h1| |] eqn:E; try done.
    destruct (crun (evs ++ [ev]) h1) as [vs1 h2| |] eqn:E1; try done. injection H as <- <-.
    destruct (IH h1 vs1 h2 E1) as (vs0 & v0 & h0 & E2 & E3 & ->).
    exists (v :: vs0), v0, h0. by rewrite E2.
Qed.

Lemma frees_exact e c h v h' : cexec e c h = Done v h' -> frees c <> null -> h' = h \/ h' = delete (frees c) h.
Proof.
  intros H Hf. cinv c; try done; repeat cinv_step; subst; try done; try (by left); by right.
Qed.
Lemma free_call_frees a x c : free_call a x = Some c -> frees c = a.
Proof. destruct x; simpl; try done; by intros [= <-]. Qed.
Lemma client_step ev h v h' a x : (forall e c, ev <> ECall e c) -> cstep ev h = Done v h' ->
  is_client x = false -> (h !! a = Some x <-> h' !! a = Some x).
Proof.
  intros Hc H Hx. destruct ev as [e c|b y|b y|b]; [by destruct (Hc e c)|..]; cbn [cstep] in H.
  - destruct (is_client y) eqn:Ey; [|done]. destruct (negb (b =? null)); [|done]. simpl in H.
    destruct (bool_decide_reflect (is_Some (h !! b))) as [|Hn]; [done|]. injection H as <- <-.
    destruct (decide (b = a)) as [->|Hne]; [|by rewrite lookup_insert_ne].
    rewrite lookup_insert. split; [intros E; destruct Hn; by eexists|intros [= ->]; congruence].
  - destruct (h !! b) as [z|] eqn:Eb; [|done]. destruct (is_client y) eqn:Ey; [|done].
    destruct (is_client z) eqn:Ez; [|done]. injection H as <- <-.
    destruct (decide (b = a)) as [->|Hne]; [|by rewrite lookup_insert_ne].
    rewrite lookup_insert, Eb. split; intros [= ->]; congruence.
  - destruct (h !! b) as [z|] eqn:Eb; [|done]. destruct (is_client z) eqn:Ez; [|done]. injection H as <- <-.
    destruct (decide (b = a)) as [->|Hne]; [|by rewrite lookup_delete_ne].
    rewrite lookup_delete, Eb. split; [intros [= ->]; congruence|done].
Qed.
Lemma client_full ev h v h' : (forall e c, ev <> ECall e c) -> cstep ev h = Done v h' -> full h -> full h'.
Proof.
  intros Hc H Hf. destruct ev as [e c|b y|b y|b]; [by destruct (Hc e c)|..]; cbn [cstep] in H.
  - destruct (is_client y) eqn:Ey; [|done]. destruct (_ && _); [|done]. injection H as <- <-.
    apply full_insert; [done|]. by destruct y.
  - destruct (h !! b) as [z|] eqn:Eb; [|done]. destruct (is_client y) eqn:Ey; [|done].
    destruct (is_client z) eqn:Ez; [|done]. injection H as <- <-. apply full_insert; [done|]. by destruct y.
  - destruct (h !! b) as [z|] eqn:Eb; [|done]. destruct (is_client z); [|done]. injection H as <- <-.
    by apply full_delete.
Qed.
Lemma step_null ev h v h' : wf_event ev -> cstep ev h = Done v h' -> h !! null = None -> h' !! null = None.
Proof.
  intros Hw H Hn. destruct ev as [e c|b y|b y|b]; cbn [cstep] in H.
  - destruct (h' !! null) eqn:E; [|done]. exfalso.
    by destruct (proj1 (proj2 (C51_frame e c h v h' Hw H)) null Hn) as [_ []]; [rewrite E|].
  - destruct (is_client y) eqn:Ey; [|done]. destruct (N.eqb_spec b null); [done|]. simpl in H.
    destruct (negb _); [|done]. injection H as <- <-. by rewrite lookup_insert_ne.
  - destruct (h !! b) as [z|] eqn:Eb; [|done]. destruct (_ && _); [|done]. injection H as <- <-.
    rewrite lookup_insert_ne; [done|]. intros ->. congruence.
  - destruct (h !! b) as [z|] eqn:Eb; [|done]. destruct (is_client z); [|done]. injection H as <- <-.
    apply lookup_delete_None. by right.
Qed.

Lemma run_basic evs : forall vs h, Forall wf_event evs -> crun evs ∅ = Done vs h ->
  length vs = length evs /\ full h /\ h !! null = None.
Proof.
  induction evs as [|ev evs IH] using rev_ind; intros vs h Hw H.
  - simpl in H. injection H as <- <-. split_and!; [done| |done]. intros a x. by rewrite lookup_empty.
  - apply crun_snoc in H as (vs0 & v & h1 & H1 & H2 & ->). apply Forall_app in Hw as [Hw Hev].
    apply Forall_cons in Hev as [Hev _]. destruct (IH vs0 h1 Hw H1) as (Hlen & Hf & Hn).
    split_and!.
    + rewrite !app_length. simpl. lia.
    + destruct ev as [e c| | |]; [by eapply call_full|..]; (eapply client_full; [|exact H2|done]; done).
    + by eapply step_null.
Qed.

(** Every object of the library that is in memory was returned to the program by a call, and
    none of the later calls was the one that frees it.  So nothing is left when the program has
    freed all it was handed. *)
Theorem C81_no_leak evs vs h a x : (forall e c, ECall e c ∈ evs -> wf_alloc_fn (ce_alloc e)) ->
  crun evs ∅ = Done vs h -> h !! a = Some x -> is_client x = false ->
  exists i e c, evs !! i = Some (ECall e c) /\ vs !! i = Some (VPtr a) /\
    forall j e' c', (i < j)%nat -> evs !! j = Some (ECall e' c') -> free_call a x <> Some c'.
Proof.
  intros Hw. assert (Forall wf_event evs) as Hwf.
  { apply Forall_forall. intros [e c| | |] Hev; [|done..]. by eapply Hw. }
  clear Hw. revert vs h a x Hwf. induction evs as [|ev evs IH] using rev_ind; intros vs h a x Hw H Ha Hx.
  - simpl in H. injection H as <- <-. done.
  - apply crun_snoc in H as (vs0 & v & h1 & H1 & H2 & ->). apply Forall_app in Hw as [Hw Hev].
    apply Forall_cons in Hev as [Hev _]. destruct (run_basic evs vs0 h1 Hw H1) as (Hlen & Hf & Hn).
    assert (forall y, h1 !! a = Some y -> is_client y = false -> free_call a y = free_call a x ->
      (forall e c, ev = ECall e c -> free_call a x <> Some c) ->
      exists i e c, (evs ++ [ev]) !! i = Some (ECall e c) /\ (vs0 ++ [v]) !! i = Some (VPtr a) /\
      forall j e' c', (i < j)%nat -> (evs ++ [ev]) !! j = Some (ECall e' c') -> free_call a x <> Some c') as Hold.
    { intros y Hy Hyc Hyx Hlast. destruct (IH vs0 h1 a y Hw H1 Hy Hyc) as (i & e & c & Hi & Hvi & Hlater).
      exists i, e, c. split_and!.
      - by apply lookup_app_l_Some.
      - by apply lookup_app_l_Some.
      - intros j e' c' Hij Hj. apply lookup_app_Some in Hj as [Hj|[Hlj Hj]].
        + rewrite <-Hyx. by eapply Hlater.
        + apply list_lookup_singleton_Some in Hj as [_ Hj]. by eapply Hlast. }
    destruct ev as [e c|b y|b y|b].
    + simpl in H2. destruct (h1 !! a) as [x1|] eqn:E1.
      * destruct (decide (a = frees c)) as [Hfr|Hfr].
        -- assert (frees c <> null) as Hnn by (intros E; congruence).
           destruct (frees_exact e c h1 v h H2 Hnn) as [-> | ->]; [|by rewrite Hfr, lookup_delete in Ha].
           rewrite E1 in Ha. injection Ha as ->. apply (Hold x); [done..|].
           intros e' c' [= <- <-] Hc. destruct (Hf a x E1) as (F1 & F2 & F3 & F4).
           destruct (C57_free e h1) as (F & _).
           assert (a <> null) as Hnull by congruence.
           pose proof (F a x c Hnull E1 Hc F1 F2 F3 F4) as Hd.
           rewrite Hd in H2. injection H2 as _ Hd'. rewrite <-Hd', lookup_delete in E1. done.
        -- destruct (call_keeps e c h1 v h Hev H2 a x1 E1 Hfr) as (x2 & Hx2 & U1 & U2 & _).
           rewrite Ha in Hx2. injection Hx2 as <-. apply (Hold x1); [done|congruence|done|].
           intros e' c' [= <- <-] Hc. apply Hfr. symmetry. by eapply free_call_frees.
      * destruct (proj1 (proj2 (C51_frame e c h1 v h Hev H2)) a E1) as [-> Hnn]; [by rewrite Ha|].
        exists (length evs), e, c. split_and!.
        -- by rewrite list_lookup_middle.
        -- rewrite <-Hlen. by rewrite list_lookup_middle.
        -- intros j e' c' Hj Hl. apply lookup_lt_Some in Hl. rewrite app_length in Hl. simpl in Hl. lia.
    + apply (Hold x); [|done|done|done]. eapply (client_step _ h1 v h a x); [|exact H2|done|done]; done.
    + apply (Hold x); [|done|done|done]. eapply (client_step _ h1 v h a x); [|exact H2|done|done]; done.
    + apply (Hold x); [|done|done|done]. eapply (client_step _ h1 v h a x); [|exact H2|done|done]; done.
Qed.
Print Assumptions C81_no_leak.

(** A handle stays valid, and of its kind, until it is passed to a freeing function: programs
    that know what they were handed can keep to the contract. *)
Lemma run_keeps evs1 evs2 : forall vs h vs1 h1 a x, Forall wf_event (evs1 ++ evs2) ->
  crun evs1 ∅ = Done vs1 h1 -> crun (evs1 ++ evs2) ∅ = Done vs h -> h1 !! a = Some x -> is_client x = false ->
  (forall e c, ECall e c ∈ evs2 -> frees c <> a) -> exists y, h !! a = Some y /\ same_use a x y.
Proof.
  induction evs2 as [|ev evs2 IH] using rev_ind; intros vs h vs1 h1 a x Hw H1 H Ha Hx Hf.
  - rewrite app_nil_r in H. rewrite H1 in H. injection H as <- <-. exists x. split; [done|apply same_use_refl].
  - rewrite app_assoc in H, Hw. apply crun_snoc in H as (vs2 & v & h2 & H2 & H3 & ->).
    apply Forall_app in Hw as [Hw Hev]. apply Forall_cons in Hev as [Hev _].
    destruct (IH vs2 h2 vs1 h1 a x Hw H1 H2 Ha Hx) as (y & Hy & Hs).
    { intros e c Hc. apply (Hf e c). apply elem_of_app. by left. }
    destruct ev as [e c|b z|b z|b].
    + destruct (call_keeps e c h2 v h Hev H3 a y Hy) as (z & Hz & Hs').
      { intros E. apply (Hf e c); [|done]. apply elem_of_app. right. by apply elem_of_list_singleton. }
      exists z. split; [done|by eapply same_use_trans].
    + exists y. split; [|done]. eapply (client_step _ h2 v h a y); [|exact H3| |exact Hy]; [done|]. destruct Hs as (_ & <- & _). done.
    + exists y. split; [|done]. eapply (client_step _ h2 v h a y); [|exact H3| |exact Hy]; [done|]. destruct Hs as (_ & <- & _). done.
    + exists y. split; [|done]. eapply (client_step _ h2 v h a y); [|exact H3| |exact Hy]; [done|]. destruct Hs as (_ & <- & _). done.
Qed.

Theorem C81_handles evs1 e c evs2 vs1 h1 a h2 vs h :
  (forall e' c', ECall e' c' ∈ evs1 ++ ECall e c :: evs2 -> wf_alloc_fn (ce_alloc e')) ->
  crun evs1 ∅ = Done vs1 h1 -> cexec e c h1 = Done (VPtr a) h2 -> a <> null ->
  crun (evs1 ++ ECall e c :: evs2) ∅ = Done vs h ->
  (forall e' c', ECall e' c' ∈ evs2 -> frees c' <> a) ->
  (forall k, returns c = Some k -> exists x, h !! a = Some x /\ of_kind k x) /\
  (forall n c', size_cell c <> null -> h2 !! size_cell c = Some (OSizeCell n) ->
     free_list c a n = Some c' -> contract h c').
Proof.
  intros Hw H1 H2 Ha H Hf.
  assert (Forall wf_event (evs1 ++ ECall e c :: evs2)) as Hwf.
  { apply Forall_forall. intros [e' c'| | |] Hev; [|done..]. by eapply Hw. }
  assert (forall l vs h', Forall wf_event l -> forall h, crun l h = Done vs h' -> forall ev h'' v,
    cstep ev h' = Done v h'' -> crun (l ++ [ev]) h = Done (vs ++ [v]) h'') as Hsnoc.
  { clear. intros l. induction l as [|ev0 l IH]; intros vs h' Hw h H ev h'' v Hs; simpl in *.
    - injection H as <- <-. by rewrite Hs.
    - apply Forall_cons in Hw as [_ Hw]. destruct (cstep ev0 h) as [v0 h0| |]; try done.
      destruct (crun l h0) as [vs0 h1| |] eqn:E; try done. injection H as <- <-.
      by rewrite (IH _ _ Hw _ E _ _ _ Hs). }
  assert (Forall wf_event evs1 /\ wf_alloc_fn (ce_alloc e)) as [Hw1 Hal].
  { apply Forall_app in Hwf as [? Hx]. split; [done|]. by apply Forall_cons in Hx as [? _]. }
  assert (crun (evs1 ++ [ECall e c]) ∅ = Done (vs1 ++ [VPtr a]) h2) as Hrun by by eapply Hsnoc.
  rewrite cons_middle, app_assoc in H, Hwf.
  pose proof (run_keeps (evs1 ++ [ECall e c]) evs2 vs h (vs1 ++ [VPtr a]) h2 a) as Hk.
  split.
  - intros k Hret. destruct (call_returns e c h1 a h2 k H2 Hret Ha) as (x & Hx & Hkx).
    destruct (Hk x Hwf Hrun H Hx) as (y & Hy & _ & _ & Hu); [by destruct k, x|exact Hf|].
    exists y. split; [done|by apply Hu].
  - intros n c' Hcell Hn Hc'.
    assert (n = 0 \/ exists y, h !! a = Some y /\ free_call a y = Some c') as Hy.
    { destruct (call_returns_list e c h1 a h2 n (size_cell c) Hal H2 Ha) as [->|(x & Hx & Hfx)];
        [by rewrite Hc'|done|done|done|by left|].
      right. rewrite Hc' in Hfx.
      destruct (Hk x Hwf Hrun H Hx) as (y & Hy & Hu & _); [by destruct x|exact Hf|].
      exists y. split; [done|]. by rewrite <-Hu. }
    destruct c; simpl in Hc'; try discriminate Hc'; injection Hc' as <-;
      (split_and!; [done|by left|by left|]); unfold whole_list; right;
      (destruct Hy as [->|(y & Hy & Hu)]; [by left|right]; exists y; split; [done|];
       destruct y; simpl in Hu; try discriminate Hu; injection Hu as <-; simpl; f_equal; lia).
Qed.
Print Assumptions C81_handles.

(** The two tables leave nothing out: every call that returns a pointer hands out either an object
    of the announced kind or a list or bytes with a function that frees them, and no other call
    announces anything. *)
Theorem C81_results e c h v h' : cexec e c h = Done v h' ->
  match v with
  | VPtr a => forall n, (returns c <> None /\ free_list c a n = None) \/
                        (returns c = None /\ free_list c a n <> None)
  | _ => returns c = None /\ forall a n, free_list c a n = None
  end.
Proof.
  intros H. destruct c; cbn [cexec] in H; try destruct undirected;
    (first [apply cmap_done in H as (x & _ & ->) | apply v_unit_done in H as [_ ->]]);
    cbn [returns free_list]; try (by split); intros n; (by left) || (by right).
Qed.
Print Assumptions C81_results.

Example C81_case :
  (exists vs h, crun [EClientNew 2 (OSizeCell 0); ECall env64 (CNew false); ECall env64 (CAddEdge 16 4 1);
      ECall env64 (CEdgeList 16 2)] ∅ = Done vs h /\
    vs = [VUnit; VPtr 16; VUnit; VPtr 17] /\ h !! 2 = Some (OSizeCell 1) /\
    cexec env64 (CFreeEdges 17 2) h = UB /\ cexec env64 (CFreeVertices 17 1) h = UB /\
    cexec env64 (CEdgeCount 17) h = UB /\ cexec env64 (CToBytes 16 3) h = UB /\
    value_of (cexec env64 (CFreeEdges 17 1) h) = Some VUnit) /\
  contract ∅ (CFreeGraph null) /\ ~ contract ∅ (CFreeGraph 16).
Proof.
  split; [|split].
  - apply done_ex. vm_compute. repeat split.
  - split_and!; [|by left|by left|done]. intros k a [= <- <-]. by left.
  - intros (H & _). destruct (H KGraph 16 eq_refl) as [?|(x & Hx & _)]; [done|]. by rewrite lookup_empty in Hx.
Qed.
