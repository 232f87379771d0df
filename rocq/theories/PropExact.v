(** Exact versions of properties that hold only in part: what happens in the remaining
    cases. *)
From Coq Require Import ZArith Ascii String.
From Verif Require Import Base HashIter F64 Numeric Adj Sq Standard Compressed Spec Api CApi CSpec
  Py PySpec AdjProofs SqProofs GraphProofs BitsProofs CompressProofs BytesProofs
  GraphCodecProofs CGraphCodecProofs ApproxProofs CodecMoreProofs PropCommon PropCompress PropCodec
  CHeapProofs TextSpec PropC PropPy.
Local Arguments N.mul : simpl never.
Local Arguments N.add : simpl never.

(** ** C26 *)

Lemma ones_total_zero l : (forall w c r, (w, c, r) ∈ l -> w <> 0) -> ones_total l = 0 -> l = [].
Proof.
  destruct l as [|[[w c] r] l]; [done|]. intros H. rewrite ones_total_cons.
  pose proof (count_ones_pos w (H w c r ltac:(left))). lia.
Qed.

Lemma cdecoded_items_rest und n level l o : good_cfile n level l ->
  exists rest, l ≡ₚ sq_items o (cg_mat (cdecoded und n level l)) ++ rest /\
    (rest = [] <-> distinct_blocks l).
Proof.
  intros Hg. destruct (cdecoded_facts und n level l Hg) as (Hi & _).
  assert (sq_items o (cg_mat (cdecoded und n level l)) ⊆+ l) as [rest H]%submseteq_Permutation.
  { apply NoDup_submseteq; [apply NoDup_sq_items, Hi|]. intros [[w c] r] H.
    apply elem_of_sq_items in H; [|apply Hi]. by apply (cdecoded_val und n level). }
  exists rest. split; [done|]. split.
  - intros ->. rewrite app_nil_r in H. unfold distinct_blocks. rewrite H.
    apply (NoDup_sq_items_keys o), Hi.
  - intros Hd. pose proof (cdecoded_items und n level l o Hg Hd) as H'.
    apply Permutation_length in H, H'. rewrite app_length in H. destruct rest; [done|simpl in H; lia].
Qed.

(** The edge count of a compressed graph read from a file is the number of bits set in the
    file: never too small, and right exactly when no block is given twice. *)
Theorem C26_files_exact p und n level l cg k : wf_platform p -> valid_cgraph_file n level l ->
  let bytes := cgraph_file und (blocks_of n) (N.of_nat (length l)) (popcount_total l) n level l in
  is_slice p bytes -> cgraph_try_from p bytes = Ret (Ok cg) ->
  has_card (fun '(u, v) => c_does_edge_exist cg u v = true) k ->
  c_edge_count cg = popcount_total l /\ k <= c_edge_count cg /\
  (c_edge_count cg = k <-> distinct_blocks l).
Proof.
  intros Hp Hv bytes Hs Hok Hk. assert (good_cfile n level l) as Hg by by apply good_cfile_valid.
  unfold bytes in *. rewrite (cfile_of_valid und n level l Hv) in *.
  rewrite (cgraph_try_from_good p und n level l Hp Hs Hg) in Hok. injection Hok as <-.
  destruct (cdecoded_facts und n level l Hg) as (Hi & _ & _ & _ & He).
  destruct (cdecoded_items_rest und n level l plain_order Hg) as (rest & Hperm & Hrest).
  pose proof (has_card_unique _ _ _ Hk (c_has_card plain_order _ Hi)) as ->.
  assert (ones_total l = ones_total (sq_items plain_order (cg_mat (cdecoded und n level l))) +
    ones_total rest) as Ht by by rewrite <-ones_total_app; apply ones_total_perm.
  unfold c_edge_count. rewrite He. split_and!.
  - rewrite popcount_ones_total; [done|]. intros w c r Hin. apply (vc_words _ _ _ Hv w c r Hin).
  - lia.
  - rewrite Ht, <-Hrest. split; [|intros ->; unfold ones_total; simpl; lia]. intros E. apply ones_total_zero; [|lia].
    intros w c r Hin. pose proof (vc_words _ _ _ Hv w c r) as H.
    rewrite Hperm, elem_of_app in H. specialize (H (or_intror Hin)). lia.
Qed.
Print Assumptions C26_files_exact.

(** Reachable compressed graphs: the edge count is never too small, up to saturation. *)
Theorem C26_never_less p cg k : wf_platform p -> creach p cg ->
  has_card (fun '(u, v) => c_does_edge_exist cg u v = true) k ->
  N.min k u64_max <= c_edge_count cg.
Proof.
  intros Hp Hr Hk. destruct Hr as [o1 o2 g l cg Hr Hl Hc|bytes cg Hs Hok].
  - destruct (C26_edge_count_partial p cg k Hp Hk) as [H _]. by rewrite (H o1 o2 g l Hr Hc).
  - destruct (C32_cgraph_decoding p bytes Hp Hs) as (res & E & H). rewrite Hok in E. injection E as <-.
    destruct H as (und & n & level & l & Eb & Hv & _). rewrite Eb in Hs, Hok.
    destruct (C26_files_exact p und n level l cg k Hp Hv Hs Hok Hk) as (_ & H & _). lia.
Qed.
Print Assumptions C26_never_less.

Example C26_files_case : exists cg,
  cgraph_try_from plat64 (cgraph_file false 1 2 4 8 1 [(7, 0, 0); (2, 0, 0)]) = Ret (Ok cg) /\
  c_edge_count cg = 4 /\ c_does_edge_exist cg 1 0 = true /\ c_does_edge_exist cg 0 0 = false.
Proof. apply ret_ok_ex. by vm_compute. Qed.

(** ** C27 *)

(** A compressed graph read from a file is symmetric exactly when the last words for mirrored
    blocks are transposes of each other. *)
Theorem C27_files_exact p und n level l cg : wf_platform p -> valid_cgraph_file n level l ->
  let bytes := cgraph_file und (blocks_of n) (N.of_nat (length l)) (popcount_total l) n level l in
  is_slice p bytes -> cgraph_try_from p bytes = Ret (Ok cg) ->
  (forall u v, c_does_edge_exist cg u v = c_does_edge_exist cg v u) <->
  (forall c r i j, i < 8 -> j < 8 ->
     N.testbit (last_word l c r) (8 * j + i) = N.testbit (last_word l r c) (8 * i + j)).
Proof.
  intros Hp Hv bytes Hs Hok.
  destruct (C32_valid_files_accepted p und n level l Hp Hv Hs) as (cg' & E & _ & _ & _ & _ & Hw).
  fold bytes in E. rewrite Hok in E. injection E as <-. split.
  - intros H c r i j Hi Hj. specialize (H (8 * c + i) (8 * r + j)).
    rewrite !c_exists_bit, !Hw in H.
    assert ((8 * c + i) / 8 = c /\ (8 * c + i) mod 8 = i) as [E1 E2].
    { split; [symmetry; apply (N.div_unique _ 8 c i); lia|symmetry; apply (N.mod_unique _ 8 c i); lia]. }
    assert ((8 * r + j) / 8 = r /\ (8 * r + j) mod 8 = j) as [E3 E4].
    { split; [symmetry; apply (N.div_unique _ 8 r j); lia|symmetry; apply (N.mod_unique _ 8 r j); lia]. }
    by rewrite E1, E2, E3, E4 in H.
  - intros H u v. rewrite !c_exists_bit, !Hw.
    apply H; by apply N.mod_lt.
Qed.
Print Assumptions C27_files_exact.

Example C27_files_case : last_word [(2, 0, 0); (514, 0, 0)] 0 0 = 514 /\
  (exists cg, cgraph_try_from plat64 (cgraph_file true 1 1 2 8 1 [(258, 0, 0)]) = Ret (Ok cg) /\
    c_does_edge_exist cg 0 1 = true /\ c_does_edge_exist cg 1 0 = true).
Proof. split; [done|]. apply ret_ok_ex. by vm_compute. Qed.

(** ** C33 *)

(** Whatever compressed graph is re-encoded, the bytes are accepted exactly when the edge
    count is the number of edges; the graph decoded is then the same. *)
Theorem C33_exact p o cg bytes k j : wf_platform p -> creach p cg ->
  has_card (fun '(u, v) => c_does_edge_exist cg u v = true) k ->
  has_card (fun '(c, r) => get_compressed_matrix_entry cg c r <> 0) j -> j < two64 ->
  cgraph_to_bytes p o cg = Ok bytes ->
  is_slice p bytes /\
  (c_edge_count cg = k -> exists cg', cgraph_try_from p bytes = Ret (Ok cg') /\ same_cgraph cg cg') /\
  (c_edge_count cg <> k -> exists msg, cgraph_try_from p bytes = Ret (Err (InvalidFormat msg))).
Proof.
  intros Hp Hr Hk Hj Hj64 Hb. assert (Hr' := Hr). apply creach_inv in Hr'; [|done].
  pose proof (has_card_unique _ _ _ Hk (c_has_card o _ Hr')) as ->.
  assert (N.of_nat (length (sq_items o (cg_mat cg))) < two64) as Hlen.
  { rewrite <- (fmap_length (fun '(e, c, r) => (c, r)) (sq_items o (cg_mat cg))).
    assert (has_card (fun '(c, r) => get_compressed_matrix_entry cg c r <> 0)
      (N.of_nat (length ((fun '(e, c, r) => (c, r)) <$> sq_items o (cg_mat cg))))) as H.
    { eapply has_card_ext; [|apply has_card_list, (NoDup_sq_items_keys o), Hr'].
      intros [c r]. rewrite elem_of_list_fmap, c_get_entry_val. split.
      - intros ([[w c'] r'] & [= -> ->] & Hin). apply elem_of_sq_items in Hin; [|apply Hr'].
        rewrite Hin. simpl. by apply (ci_word _ Hr' _ _ _ Hin).
      - destruct (sq_val (cg_mat cg) c r) as [w|] eqn:E; [|done]. intros _. exists (w, c, r).
        split; [done|]. apply elem_of_sq_items; [apply Hr'|done]. }
    by rewrite (has_card_unique _ _ _ H Hj). }
  assert (Ha := Hb). apply cgraph_to_bytes_alloc in Ha; [|done].
  assert (Hf := Hb). apply cgraph_to_bytes_file in Hf.
  rewrite (c_entry_count o) in Hf, Ha by done. rewrite (ci_dim cg Hr') in Hf.
  pose proof (ci_level cg Hr') as Hlev.
  assert (is_slice p bytes) as Hs.
  { split; rewrite Hf.
    - apply cgraph_file_bytes. unfold is_byte. lia.
    - rewrite length_cgraph_file. pose proof (wf_alloc p Hp _ Ha). lia. }
  split_and!; [done| |].
  - intros E. destruct (cgraph_round_trip p o cg bytes Hp Hr' Hlen E Hb) as [_ H].
    destruct (H p Hp Hs) as (cg' & ? & _ & ?). eauto.
  - intros Hne. pose proof (oinvalid_cgraph_try_from p bytes) as Hinv.
    destruct (cgraph_try_from_spec p bytes Hp Hs) as [(e & He & _)|(und & n & level & l & Hf' & Hg & _)].
    { rewrite He in Hinv. destruct Hinv as [msg ->]. eauto. }
    destruct Hne. rewrite Hf in Hf'. unfold cfile_of in Hf'. rewrite !cgraph_file_hdr in Hf'.
    apply app_inj_len in Hf' as [Hh Henc]; [|by rewrite !length_cgraph_hdr].
    assert (sq_items o (cg_mat cg) = l) as El.
    { apply enc_triples_inj; [|by eapply good_cfile_u64|done].
      apply Forall_forall. intros [[w c] r] Hin. apply elem_of_sq_items in Hin; [|apply Hr'].
      pose proof (si_dim _ (ci_sq _ Hr')). split; [by apply (ci_word _ Hr' _ _ _ Hin)|].
      destruct (si_bound _ (ci_sq _ Hr') c r); [by rewrite Hin|]. lia. }
    apply cgraph_hdr_inj in Hh as (_ & _ & _ & _ & Ee & _).
    + unfold c_edge_count. by rewrite Ee, El.
    + done.
    + done.
    + apply cmd_u64, Hr'.
    + done.
    + apply Hr'.
    + apply Hr'.
    + done.
    + done.
    + apply cmd_u64, Hg.
    + by rewrite <-El.
    + apply Hg.
    + apply Hg.
Qed.
Print Assumptions C33_exact.

(** In terms of the file: re-encoding works exactly when no block was given twice. *)
Theorem C33_files_exact p o und n level l cg bytes' : wf_platform p -> valid_cgraph_file n level l ->
  let bytes := cgraph_file und (blocks_of n) (N.of_nat (length l)) (popcount_total l) n level l in
  is_slice p bytes -> cgraph_try_from p bytes = Ret (Ok cg) -> cgraph_to_bytes p o cg = Ok bytes' ->
  (exists cg', cgraph_try_from p bytes' = Ret (Ok cg')) <-> distinct_blocks l.
Proof.
  intros Hp Hv bytes Hs Hok Hb. assert (creach p cg) as Hr by by eapply cr_try_from.
  assert (Hi := Hr). apply creach_inv in Hi; [|done].
  pose proof (c_has_card o cg Hi) as Hk.
  destruct (C26_files_exact p und n level l cg _ Hp Hv Hs Hok Hk) as (Het & Hle & Hiff).
  assert (has_card (fun '(c, r) => get_compressed_matrix_entry cg c r <> 0)
      (N.of_nat (length (sq_items o (cg_mat cg))))) as Hj.
  { rewrite <- (fmap_length (fun '(e, c, r) => (c, r)) (sq_items o (cg_mat cg))).
    eapply has_card_ext; [|apply has_card_list, (NoDup_sq_items_keys o), Hi].
    intros [c r]. rewrite elem_of_list_fmap, c_get_entry_val. split.
    - intros ([[w c'] r'] & [= -> ->] & Hin). apply elem_of_sq_items in Hin; [|apply Hi].
      rewrite Hin. simpl. by apply (ci_word _ Hi _ _ _ Hin).
    - destruct (sq_val (cg_mat cg) c r) as [w|] eqn:E; [|done]. intros _. exists (w, c, r).
      split; [done|]. apply elem_of_sq_items; [apply Hi|done]. }
  assert (forall es : list (N * N * N), (forall w c r, (w, c, r) ∈ es -> w <> 0) ->
    N.of_nat (length es) <= ones_total es) as Hlen.
  { induction es as [|[[w c] r] es IH]; intros H; [done|]. rewrite ones_total_cons. simpl.
    pose proof (count_ones_pos w (H w c r ltac:(left))).
    specialize (IH ltac:(intros w' c' r' ?; apply (H w' c' r'); by right)). lia. }
  assert (N.of_nat (length (sq_items o (cg_mat cg))) < two64) as Hj64.
  { specialize (Hlen (sq_items o (cg_mat cg))). pose proof (vc_total _ _ _ Hv).
    assert (N.of_nat (length (sq_items o (cg_mat cg))) <= ones_total (sq_items o (cg_mat cg))); [|lia].
    apply Hlen. intros w c r Hin. apply elem_of_sq_items in Hin; [|apply Hi].
    by apply (ci_word _ Hi _ _ _ Hin). }
  destruct (C33_exact p o cg bytes' _ _ Hp Hr Hk Hj Hj64 Hb) as (_ & H1 & H2).
  rewrite <-Hiff. split.
  - intros [cg' E]. destruct (decide (c_edge_count cg = ones_total (sq_items o (cg_mat cg)))) as [?|Hne]; [done|].
    destruct (H2 Hne) as [msg E']. by rewrite E in E'.
  - intros E. destruct (H1 E) as (cg' & ? & _). eauto.
Qed.
Print Assumptions C33_files_exact.

Example C33_exact_case : exists cg, cgraph_try_from plat64 repeated_block = Ret (Ok cg) /\
  c_edge_count cg = 2 /\ exists bytes, cgraph_to_bytes plat64 plain_order cg = Ok bytes /\
  cgraph_try_from plat64 bytes =
    Ret (Err (InvalidFormat "CompressedGraph edge count does not match header")).
Proof.
  assert (exists cg, cgraph_try_from plat64 repeated_block = Ret (Ok cg) /\ c_edge_count cg = 2 /\
    cgraph_to_bytes plat64 plain_order cg = Ok (cgraph_file false 1 1 2 8 1 [(2, 0, 0)])) as (cg & ? & ? & ?).
  { apply ret_ok_ex. by vm_compute. }
  exists cg. split_and!; [done..|]. eexists. split; [done|]. by vm_compute.
Qed.

(** ** C54 *)

(** Negative indexes of every size. *)
Theorem C54_negative_exact {A} (list_of : cobj -> option (list A)) h ptr size l i :
  holds_list h list_of ptr size l -> (i < 0)%Z -> l <> [] ->
  let n := Z.of_nat (length l) in
  exists a, l !! Z.to_nat (n - Z.max (Z.abs i mod n) 1) = Some a /\
    py_getitem list_of ptr size i h = PyDone a h.
Proof.
  intros [-> Hl] Hi Hne n. unfold py_getitem.
  assert (0 < n)%Z as Hn by (destruct l; [done|simpl in n; lia]).
  replace (Z.of_N (N.of_nat (length l))) with n by lia.
  destruct (Z.leb_spec n i); [lia|]. destruct (Z.ltb_spec i 0); [|lia].
  destruct (N.eqb_spec (N.of_nat (length l)) 0); [lia|].
  pose proof (Z.mod_pos_bound (Z.abs i) n Hn) as Hm.
  set (q := (n - Z.max (Z.abs i mod n) 1)%Z).
  assert (0 <= q < n)%Z as Hq by lia.
  destruct (lookup_lt_is_Some_2 l (Z.to_nat q)) as [a Ha]; [lia|].
  exists a. split; [done|].
  destruct Hl as [->|(x & Hx & Hx')]; [done|]. eapply ptr_item_at; eauto. lia.
Qed.
Print Assumptions C54_negative_exact.

Example C54_negative_case : py_getitem vertices_of 20 3 (-5) list_heap = PyDone 7 list_heap.
Proof. done. Qed.

(** ** C61 *)

(** [from_bytes(bytes(cg))] in Python, for every compressed graph there can be: TypeError
    exactly when the bytes could not be allocated or the edge count is wrong. *)
Theorem C61_compressed_exact p e e' h h' a cg k j : wf_platform p ->
  ce_platform e = p -> ce_platform e' = p ->
  wf_alloc_fn (ce_alloc e) -> wf_alloc_fn (ce_alloc e') ->
  a <> null -> creach p cg -> h !! a = Some (OCompressed cg) ->
  has_card (fun '(u, v) => c_does_edge_exist cg u v = true) k ->
  has_card (fun '(c, r) => get_compressed_matrix_entry cg c r <> 0) j -> j < two64 ->
  exists bytes, pyexec e (PCBytes a) h = PyDone (PyBytes bytes) h /\
  (bytes = [] <-> usize_max p < 42 + 24 * j \/ can_alloc p (42 + 24 * j) = false) /\
  if decide (bytes <> [] /\ c_edge_count cg = k)
  then exists cg', py_hands h' PyCompressed (OCompressed cg') (pyexec e' (PCFromBytes bytes) h') /\
    same_cgraph cg cg'
  else pyexec e' (PCFromBytes bytes) h' = PyRaise TypeError h'.
Proof.
  intros Hp He He' Hal Hal' Ha Hr Hg Hk Hj Hj64.
  destruct (C59_bytes p e h a Hp He Hal Ha) as [_ Hbytes].
  eexists. split; [by apply Hbytes|].
  pose proof (C31_cgraph_layout p (ce_order1 e) cg j Hp Hr Hj Hj64) as HL.
  assert (pyexec e' (PCFromBytes []) h' = PyRaise TypeError h') as Hnil.
  { assert (is_slice p []) as Hs by (split; [constructor|simpl; lia]).
    destruct (C60_partial p e' h' [] Hp He' Hal' Hs) as [_ (r & Er & H)].
    vm_compute in Er. by injection Er as <-. }
  destruct (42 + 24 * j <=? usize_max p) eqn:E1; [apply N.leb_le in E1|apply N.leb_gt in E1]; cbn [andb] in HL.
  2: { destruct HL as [msg ->]. split; [tauto|]. by rewrite decide_False by naive_solver. }
  destruct (can_alloc p (42 + 24 * j)) eqn:E2.
  2: { destruct HL as [msg ->]. split; [tauto|]. by rewrite decide_False by naive_solver. }
  destruct HL as (bytes & fl & Hb & _ & _ & _ & Hlen). rewrite Hb.
  assert (bytes <> []) as Hne by (intros ->; simpl in Hlen; lia).
  split. { split; [done|]. intros [?|?]; [lia|done]. }
  destruct (C33_exact p _ cg bytes k j Hp Hr Hk Hj Hj64 Hb) as (Hs & H1 & H2).
  destruct (C60_partial p e' h' bytes Hp He' Hal' Hs) as [_ (r & Er & Hm)].
  case_decide as E.
  - destruct (H1 (proj2 E)) as (cg' & Ed & Hsame). rewrite Ed in Er. injection Er as <-. by exists cg'.
  - destruct H2 as [msg Ed]; [naive_solver|]. rewrite Ed in Er. by injection Er as <-.
Qed.
Print Assumptions C61_compressed_exact.

Example C61_compressed_exact_case : exists vs h,
  pyrun [PCFromBytes repeated_block; PCBytes 18] ∅ = PyDone vs h /\
  vs = [PyCompressed 18; PyBytes (cgraph_file false 1 1 2 8 1 [(2, 0, 0)])] /\
  match pyexec env64 (PCFromBytes (cgraph_file false 1 1 2 8 1 [(2, 0, 0)])) h with
  | PyRaise x _ => x = TypeError
  | _ => False
  end.
Proof. apply pydone_ex. by vm_compute. Qed.

(** ** C65 *)

(** Two files with the same header data decode to the same compressed graph exactly when the
    last words for every block agree. *)
Theorem C65_cgraph_exact p und n level l l' : wf_platform p ->
  valid_cgraph_file n level l -> valid_cgraph_file n level l' -> popcount_total l = popcount_total l' ->
  let file l := cgraph_file und (blocks_of n) (N.of_nat (length l)) (popcount_total l) n level l in
  is_slice p (file l) -> is_slice p (file l') ->
  exists cg cg', cgraph_try_from p (file l) = Ret (Ok cg) /\ cgraph_try_from p (file l') = Ret (Ok cg') /\
    (same_cgraph cg cg' <-> forall c r, last_word l c r = last_word l' c r).
Proof.
  intros Hp Hv Hv' Hpop file Hs Hs'.
  destruct (C32_valid_files_accepted p und n level l Hp Hv Hs) as (cg & E & U & V & L & C & W).
  destruct (C32_valid_files_accepted p und n level l' Hp Hv' Hs') as (cg' & E' & U' & V' & L' & C' & W').
  exists cg, cg'. split_and!; [done..|]. split.
  - intros (_ & _ & _ & _ & H & _) c r. by rewrite <-W, <-W'.
  - intros H. unfold same_cgraph. split_and!; [congruence..| |].
    + intros c r. by rewrite W, W'.
    + intros u v. by rewrite !c_exists_bit, W, W', H.
Qed.
Print Assumptions C65_cgraph_exact.

Example C65_cgraph_exact_case : last_word [(2, 0, 0); (1, 0, 0); (4, 1, 0)] 0 0 =
  last_word [(4, 1, 0); (2, 0, 0); (1, 0, 0)] 0 0.
Proof. done. Qed.

(** ** C21 *)

(** A file that is accepted lists every edge in every direction it exists in exactly when it
    lists no pair twice. *)
Theorem C21_exact p bytes g und n l : wf_platform p -> is_slice p bytes ->
  bytes = graph_file und n (N.of_nat (length l)) l ->
  Forall (fun '(u, v) => u < two64 /\ v < two64) l -> n < two64 ->
  graph_try_from p bytes = Ret (Ok g) ->
  (NoDup l <-> forall u v, (u, v) ∈ l <-> does_edge_exist g u v = true).
Proof.
  intros Hp Hs -> Hl Hn Hok.
  destruct (C18_graph_decoding p _ Hp Hs) as (res & Hres & Hm).
  rewrite Hok in Hres. injection Hres as <-.
  destruct Hm as (und' & n' & l' & Heq & Hv & Hu & Hn' & He & Hh).
  assert (Hs' := Hs). rewrite Heq in Hs'.
  apply graph_file_inj in Heq as (<- & <- & _ & <-); [|done|apply Hv|
    by eapply good_file_len|by eapply good_file_len|done|].
  2:{ apply good_file_valid in Hv. eapply bound_u64; apply Hv. }
  destruct (vg_edges _ _ _ Hv) as (dl & Hnd & Hdl & Hlen).
  split.
  - intros Hl' u v. rewrite Hh. split; [by left|]. intros Hd. apply Hdl in Hd.
    assert (l ⊆+ dl) as Hsub.
    { apply NoDup_submseteq; [done|]. intros [a b] Hab. apply Hdl. by left. }
    apply submseteq_Permutation in Hsub as [rest Hrest]. pose proof (Permutation_length Hrest) as HL.
    rewrite app_length in HL. destruct rest; [|simpl in HL; lia]. rewrite app_nil_r in Hrest.
    by rewrite <-Hrest.
  - intros Hall. apply NoDup_ListNoDup. apply NoDup_ListNoDup in Hnd.
    eapply List.NoDup_incl_NoDup; [exact Hnd|lia|].
    intros [a b] He'. apply elem_of_list_In, Hdl in He'. apply elem_of_list_In, Hall, Hh. done.
Qed.
Print Assumptions C21_exact.

(** ** C53 *)

Lemma nul_free_no_nul s : nul_free s -> existsb (fun c => N_of_ascii c =? 0) s = false.
Proof.
  unfold nul_free. induction s as [|c s IH]; [done|]. simpl.
  intros Hn. apply orb_false_iff in Hn as [H1 H2]. rewrite IH by done.
  destruct (N.eqb_spec (N_of_ascii c) 0) as [E|]; [|done].
  rewrite <- (ascii_N_embedding c), E in H1. done.
Qed.

(** For the pooled matrices: gphrx_matrix_to_string aborts exactly where the function with
    precision returns null, and otherwise hands out the same text. *)
Theorem C53_exact p e h a g o b m : wf_platform p -> ce_platform e = p -> wf_alloc_fn (ce_alloc e) ->
  a <> null -> h !! a = Some (OMatrix m) -> reach p g -> N.max 1 (N.min b (vertex_count g)) < 2 ^ 32 ->
  find_avg_pool_matrix p o g b = Ret m ->
  (cexec e (CMatrixToString a) h = Abort <->
     cexec e (CMatrixToStringPrecision a 2) h = Done (VPtr null) h) /\
  (cexec e (CMatrixToString a) h = Abort \/
     exists s, hands_out h (OString s) (cexec e (CMatrixToString a) h) /\
       hands_out h (OString s) (cexec e (CMatrixToStringPrecision a 2) h)).
Proof.
  intros Hp He Hal Ha Hm Hr Hb Hpool.
  destruct (C56_pooled_text p o (ce_order1 e) g b m 2 Hp Hr Hb Hpool ltac:(lia) ltac:(lia)) as (r & E & Hsh).
  destruct (C52_matrix_texts e h a m Hal Ha Hm) as [Hprec Hdisp]. rewrite He in *.
  specialize (Hprec 2). rewrite E in Hprec, Hdisp.
  destruct r as [s|err].
  - assert (nul_free s) as Hn.
    { eapply nul_free_shows; [|exact Hsh]. intros c r t _ _. apply nul_free_rounded. }
    apply nul_free_no_nul in Hn. unfold makes_text in Hprec, Hdisp. rewrite Hn in Hprec, Hdisp.
    split; [|right; by exists s]. destruct Hprec as (x & -> & Hx & _). destruct Hdisp as (y & -> & _).
    split; [done|]. intros [= ->]. done.
  - split; [|by left]. split; [done|]. intros _. exact Hdisp.
Qed.
Print Assumptions C53_exact.

(** Both kinds of files are accepted; the text of a small pooled matrix is handed out. *)
Example C21_exact_case :
  (exists g, graph_try_from plat64 (graph_file true 2 2 [(0, 1); (1, 0)]) = Ret (Ok g) /\
     does_edge_exist g 1 0 = true) /\
  (exists g, graph_try_from plat64 (graph_file true 2 2 [(0, 1); (0, 1)]) = Ret (Ok g) /\
     does_edge_exist g 1 0 = true).
Proof. split; apply ret_ok_ex; by vm_compute. Qed.

Example C53_exact_case : exists m, find_avg_pool_matrix plat64 plain_order (add_edge new_directed 0 1) 2 = Ret m /\
  match cexec env64 (CMatrixToString 17) {[17 := OMatrix m]} with
  | Done (VPtr a) h => bool_decide (a = null) = false
  | _ => False
  end.
Proof. apply ret_ex. by vm_compute. Qed.
