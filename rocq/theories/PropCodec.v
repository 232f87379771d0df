(** Properties C16-C21 and C30-C33: the two byte formats. *)
From Coq Require Import Ascii String.
From Verif Require Import Base HashIter F64 Numeric Adj Sq Standard Compressed Spec Api
  HashIterProofs AdjProofs SqProofs GraphProofs BitsProofs CompressProofs BytesProofs
  GraphCodecProofs CGraphCodecProofs ApproxProofs CodecMoreProofs PropCommon.

Local Arguments N.mul : simpl never.
Local Arguments N.add : simpl never.

(** ** C16: what was written can be read, on any platform where the bytes fit a slice. *)
Theorem C16_graph_round_trip p o g bytes k : wf_platform p -> reach p g ->
  has_card (fun '(u, v) => does_edge_exist g u v = true) k -> k < two64 ->
  graph_to_bytes p o g = Ok bytes ->
  is_slice p bytes /\ forall p', wf_platform p' -> is_slice p' bytes ->
  exists g', graph_try_from p' bytes = Ret (Ok g') /\ same_graph g g'.
Proof.
  intros Hp Hr Hk Hk64 Hb. apply reach_inv in Hr; [|done].
  destruct (graph_round_trip p o g bytes k) as [Hs H]; [done..|]. split; [done|].
  intros p' Hp' Hs'. destruct (H p' Hp' Hs') as (g' & ? & _ & ?). eauto.
Qed.
Print Assumptions C16_graph_round_trip.

Example C16_case : exists bytes, graph_to_bytes plat64 reversed_order sample_und = Ok bytes /\
  length bytes = 138%nat /\ edge_count sample_und = 7 /\
  exists g', graph_try_from plat16 bytes = Ret (Ok g') /\ edge_count g' = 7 /\
    does_edge_exist g' 0 4 = true.
Proof.
  eexists. split; [vm_compute; reflexivity|]. split; [reflexivity|]. split; [by vm_compute|].
  apply ret_ok_ex. by vm_compute.
Qed.

(** ** C17: the layout, and when writing fails. *)
Theorem C17_graph_layout p o g k : wf_platform p -> reach p g ->
  has_card (fun '(u, v) => does_edge_exist g u v = true) k -> k < two64 ->
  if (26 + 16 * k <=? usize_max p) && can_alloc p (26 + 16 * k)
  then exists bytes l, graph_to_bytes p o g = Ok bytes /\
    bytes = graph_file (is_undirected g) (vertex_count g) k l /\
    NoDup l /\ (forall u v, (u, v) ∈ l <-> does_edge_exist g u v = true) /\
    N.of_nat (length bytes) = 26 + 16 * k
  else exists msg, graph_to_bytes p o g = Err (CapacityOverflow msg).
Proof.
  intros Hp Hr Hk Hk64. apply reach_inv in Hr; [|done].
  assert (edge_count g = k) as Hec by (rewrite (edge_count_card g k), N.mod_small; done).
  unfold graph_to_bytes. rewrite graph_bytes_size_eq, Hec by done.
  destruct (26 + 16 * k <=? usize_max p) eqn:E1; [|simpl; eauto].
  cbn [rbind andb]. destruct (can_alloc p (26 + 16 * k)) eqn:E2; [|simpl; eauto].
  assert (N.of_nat (length (graph_items o g)) = k) as Hlen
    by (eapply has_card_unique; [by apply items_card|exact Hk]).
  assert (graph_to_bytes p o g =
    Ok (graph_file (is_undirected g) (vertex_count g) k (graph_items o g))) as H.
  { rewrite graph_to_bytes_ok by (rewrite ?Hec; done). by rewrite Hec. }
  unfold graph_to_bytes in H. rewrite graph_bytes_size_eq, Hec, E1 in H by done.
  cbn [rbind] in H. rewrite E2 in H. eexists _, (graph_items o g).
  split; [exact H|]. split_and!.
  - done.
  - apply NoDup_adj_items, Hr.
  - intros u v. rewrite exists_has. unfold has. by rewrite <- (elem_of_adj_items o) by apply Hr.
  - rewrite length_graph_file. lia.
Qed.
Print Assumptions C17_graph_layout.

Example C17_case : graph_to_bytes plat64 plain_order (add_edge new_undirected 1 258) =
  Ok ([0x7a; 0xe7; 0x1f; 0xfd; 0; 0; 0; 1] ++ [0; 0; 0; 0; 0; 0; 1; 3] ++
      [0; 0; 0; 0; 0; 0; 0; 2] ++ [1; 0] ++
      [0; 0; 0; 0; 0; 0; 0; 1; 0; 0; 0; 0; 0; 0; 1; 2] ++
      [0; 0; 0; 0; 0; 0; 1; 2; 0; 0; 0; 0; 0; 0; 0; 1]) /\
  exists msg, graph_to_bytes (Platform 65535 true (fun _ => false)) plain_order sample_dir =
    Err (CapacityOverflow msg).
Proof. split; [by vm_compute|eexists; by vm_compute]. Qed.

(** ** C18: accepted files, the result, and every other byte string. *)
Theorem C18_graph_decoding p bytes : wf_platform p -> is_slice p bytes ->
  exists res, graph_try_from p bytes = Ret res /\
  match res with
  | Ok g => exists und n l, bytes = graph_file und n (N.of_nat (length l)) l /\
      valid_graph_file und n l /\
      is_undirected g = und /\ vertex_count g = n /\ edge_count g = N.of_nat (length l) /\
      (forall u v, does_edge_exist g u v = true <-> described und l (u, v))
  | Err e => (exists msg, e = InvalidFormat msg) /\
      forall und n l, bytes = graph_file und n (N.of_nat (length l)) l ->
        ~ valid_graph_file und n l
  end.
Proof.
  intros Hp Hs. pose proof (oinvalid_graph_try_from p bytes) as Hinv.
  destruct (graph_try_from_spec p bytes Hp Hs) as [(e & He & Hno)|(und & n & l & Hf & Hg & Hok)].
  - exists (Err e). split; [done|]. rewrite He in Hinv. split; [exact Hinv|].
    intros und n l Heq Hv. apply (Hno und n l Heq). by apply good_file_valid.
  - exists (Ok (decoded und n l)). split; [done|]. exists und, n, l.
    destruct (decoded_facts und n l) as (Hi & Hu & Hn & Hh); [apply Hg..|].
    split_and!; [done|by apply good_file_valid|done|done| |].
    + rewrite (edge_count_card _ (N.of_nat (length l))); [|done|].
      * apply N.mod_small. rewrite Hf in Hs. by eapply good_file_len.
      * eapply has_card_ext; [|apply Hg]. intros [u v]. by rewrite exists_has, Hh.
    + intros u v. by rewrite exists_has, Hh.
Qed.
Print Assumptions C18_graph_decoding.

(** The same read from right to left: valid files are accepted. *)
Theorem C18_valid_files_accepted p und n l : wf_platform p ->
  is_slice p (graph_file und n (N.of_nat (length l)) l) -> valid_graph_file und n l ->
  exists g, graph_try_from p (graph_file und n (N.of_nat (length l)) l) = Ret (Ok g) /\
    is_undirected g = und /\ vertex_count g = n /\ edge_count g = N.of_nat (length l) /\
    (forall u v, does_edge_exist g u v = true <-> described und l (u, v)).
Proof.
  intros Hp Hs Hv.
  destruct (C18_graph_decoding p _ Hp Hs) as (res & Hres & Hm).
  destruct res as [g|e]; [|exfalso; by eapply (proj2 Hm)].
  exists g. split; [done|]. destruct Hm as (und' & n' & l' & Heq & Hv' & Hm).
  assert (Hs' := Hs). rewrite Heq in Hs'.
  apply graph_file_inj in Heq as (-> & -> & _ & ->); [done|apply Hv|apply Hv'|
    by eapply good_file_len|by eapply good_file_len| |].
  - apply good_file_valid in Hv. eapply bound_u64; apply Hv.
  - apply good_file_valid in Hv'. eapply bound_u64; apply Hv'.
Qed.
Print Assumptions C18_valid_files_accepted.

Example C18_case :
  (exists g, graph_try_from plat64 (graph_file true 3 2 [(0, 2); (2, 0)]) = Ret (Ok g) /\
     does_edge_exist g 2 0 = true) /\
  (exists msg, graph_try_from plat64 (graph_file true 3 1 [(0, 2)]) =
     Ret (Err (InvalidFormat msg))) /\
  (exists msg, graph_try_from plat64 (graph_file false 2 1 [(0, 2)]) =
     Ret (Err (InvalidFormat msg))) /\
  (exists msg, graph_try_from plat64 [] = Ret (Err (InvalidFormat msg))).
Proof.
  split; [apply ret_ok_ex; by vm_compute|].
  split_and!; eexists; vm_compute; reflexivity.
Qed.

(** ** C19 *)
Theorem C19_graph_reencoding p o bytes g bytes' : wf_platform p -> is_slice p bytes ->
  graph_try_from p bytes = Ret (Ok g) -> graph_to_bytes p o g = Ok bytes' ->
  exists g', graph_try_from p bytes' = Ret (Ok g') /\ same_graph g g'.
Proof.
  intros Hp Hs Hok Hb. destruct (C18_graph_decoding p bytes Hp Hs) as (res & Hres & Hm).
  rewrite Hok in Hres. injection Hres as <-.
  destruct Hm as (und & n & l & -> & Hv & Hu & Hn & He & Hh).
  destruct (C16_graph_round_trip p o g bytes' (N.of_nat (length l))) as [Hs' H]; [done| | | |done|].
  - by eapply r_try_from.
  - eapply has_card_ext; [|apply Hv]. intros [u v]. by rewrite Hh.
  - by eapply good_file_len.
  - by apply H.
Qed.
Print Assumptions C19_graph_reencoding.

Example C19_case : exists g, graph_try_from plat64 (graph_file true 3 2 [(0, 2); (2, 0)]) = Ret (Ok g) /\
  exists bytes', graph_to_bytes plat64 plain_order g = Ok bytes' /\ length bytes' = 58%nat.
Proof. apply ret_ok_ex. vm_compute. eexists. split; reflexivity. Qed.

(** ** C20: of a file and a longer one starting with it, at most one is accepted, and the
    other is InvalidFormat. *)
Theorem C20_no_truncation_or_extension p b rest : wf_platform p -> is_slice p (b ++ rest) ->
  rest <> [] ->
  (forall g, graph_try_from p b = Ret (Ok g) ->
     exists msg, graph_try_from p (b ++ rest) = Ret (Err (InvalidFormat msg))) /\
  (forall g, graph_try_from p (b ++ rest) = Ret (Ok g) ->
     exists msg, graph_try_from p b = Ret (Err (InvalidFormat msg))) /\
  (forall cg, cgraph_try_from p b = Ret (Ok cg) ->
     exists msg, cgraph_try_from p (b ++ rest) = Ret (Err (InvalidFormat msg))) /\
  (forall cg, cgraph_try_from p (b ++ rest) = Ret (Ok cg) ->
     exists msg, cgraph_try_from p b = Ret (Err (InvalidFormat msg))).
Proof.
  intros Hp Hs Hrest.
  assert (is_slice p b) as Hsb.
  { destruct Hs as [Hb Hl]. apply Forall_app in Hb as [Hb _]. rewrite app_length in Hl.
    split; [done|lia]. }
  split_and!; intros g Hok.
  - pose proof (oinvalid_graph_try_from p (b ++ rest)) as Hinv.
    destruct (graph_try_from_total p (b ++ rest) Hp Hs) as ([g'|e] & H).
    + exfalso. by eapply Hrest, (graph_no_extension p b rest g g').
    + rewrite H in *. destruct Hinv as [msg ->]. eauto.
  - pose proof (oinvalid_graph_try_from p b) as Hinv.
    destruct (graph_try_from_total p b Hp Hsb) as ([g'|e] & H).
    + exfalso. by eapply Hrest, (graph_no_extension p b rest g' g).
    + rewrite H in *. destruct Hinv as [msg ->]. eauto.
  - pose proof (oinvalid_cgraph_try_from p (b ++ rest)) as Hinv.
    destruct (cgraph_try_from_total p (b ++ rest) Hp Hs) as ([g'|e] & H).
    + exfalso. by eapply Hrest, (cgraph_no_extension p b rest g g').
    + rewrite H in *. destruct Hinv as [msg ->]. eauto.
  - pose proof (oinvalid_cgraph_try_from p b) as Hinv.
    destruct (cgraph_try_from_total p b Hp Hsb) as ([g'|e] & H).
    + exfalso. by eapply Hrest, (cgraph_no_extension p b rest g' g).
    + rewrite H in *. destruct Hinv as [msg ->]. eauto.
Qed.
Print Assumptions C20_no_truncation_or_extension.

Example C20_case :
  (exists g, graph_try_from plat64 (graph_file false 3 1 [(0, 2)]) = Ret (Ok g) /\
     edge_count g = 1) /\
  (exists cg, cgraph_try_from plat64 (cgraph_file false 1 1 1 8 3 [(2, 0, 0)]) = Ret (Ok cg) /\
     c_edge_count cg = 1).
Proof. split; apply ret_ok_ex; by vm_compute. Qed.

(** ** C21 is false of the code: an undirected file may list one edge twice and leave its
    mirror out. *)
Theorem C21_canonical_refuted : exists p bytes g und n l,
  wf_platform p /\ is_slice p bytes /\ graph_try_from p bytes = Ret (Ok g) /\
  bytes = graph_file und n (N.of_nat (length l)) l /\
  ~ NoDup l /\ exists u v, does_edge_exist g u v = true /\ (u, v) ∉ l.
Proof.
  set (l := [(0, 1); (0, 1)]).
  assert (exists g, graph_try_from plat64 (graph_file true 2 2 l) = Ret (Ok g) /\
    does_edge_exist g 1 0 = true) as (g & Hr & Hg).
  { apply ret_ok_ex. by vm_compute. }
  exists plat64, (graph_file true 2 2 l), g, true, 2, l. split_and!.
  - apply plat64_wf.
  - split; [apply graph_file_bytes|by vm_compute].
  - exact Hr.
  - done.
  - intros H. apply NoDup_cons in H as [H _]. apply H. left.
  - exists 1, 0. split; [done|]. unfold l. rewrite !elem_of_cons, elem_of_nil. naive_solver.
Qed.
Print Assumptions C21_canonical_refuted.

(** Directed files list every edge exactly once.  Undirected files list every edge at
    least in one of its two directions and list nothing else.  Missing from C21: undirected
    files, where an edge can be repeated in place of its mirror. *)
Theorem C21_canonical_partial p bytes g und n l : wf_platform p -> is_slice p bytes ->
  bytes = graph_file und n (N.of_nat (length l)) l ->
  Forall (fun '(u, v) => u < two64 /\ v < two64) l -> n < two64 ->
  graph_try_from p bytes = Ret (Ok g) ->
  (und = false -> NoDup l /\ forall u v, (u, v) ∈ l <-> does_edge_exist g u v = true) /\
  (forall u v, (u, v) ∈ l -> does_edge_exist g u v = true) /\
  (forall u v, does_edge_exist g u v = true -> (u, v) ∈ l \/ (v, u) ∈ l).
Proof.
  intros Hp Hs -> Hl Hn Hok.
  destruct (C18_graph_decoding p _ Hp Hs) as (res & Hres & Hm).
  rewrite Hok in Hres. injection Hres as <-.
  destruct Hm as (und' & n' & l' & Heq & Hv & Hu & Hn' & He & Hh).
  assert (Hs' := Hs). rewrite Heq in Hs'.
  apply graph_file_inj in Heq as (<- & <- & _ & <-); [|done|apply Hv|
    by eapply good_file_len|by eapply good_file_len|done|].
  2:{ apply good_file_valid in Hv. eapply bound_u64; apply Hv. }
  split_and!.
  - intros ->. split.
    + destruct (vg_edges _ _ _ Hv) as (dl & Hnd & Hdl & Hlen).
      apply NoDup_ListNoDup. apply NoDup_ListNoDup in Hnd.
      eapply List.NoDup_incl_NoDup; [exact Hnd|lia|].
      intros e He'. apply elem_of_list_In, Hdl in He' as [He'|[? _]]; [|done].
      by apply elem_of_list_In.
    + intros u v. rewrite Hh. unfold described. naive_solver.
  - intros u v Hin. apply Hh. by left.
  - intros u v Hin. apply Hh in Hin as [Hin|[_ Hin]]; eauto.
Qed.
Print Assumptions C21_canonical_partial.

(** ** C30 *)
Theorem C30_cgraph_round_trip p o1 o2 o3 g l cg bytes k : wf_platform p -> reach p g ->
  has_card (fun '(u, v) => does_edge_exist g u v = true) k -> k < two64 ->
  compress p o1 o2 g l = Ret cg -> cgraph_to_bytes p o3 cg = Ok bytes ->
  is_slice p bytes /\ forall p', wf_platform p' -> is_slice p' bytes ->
  exists cg', cgraph_try_from p' bytes = Ret (Ok cg') /\ same_cgraph cg cg'.
Proof.
  intros Hp Hr Hk Hk64 Hc Hb. apply reach_inv in Hr; [|done].
  destruct (compress_spec p o1 o2 g l Hr) as (cg0 & Hc0 & Hco).
  rewrite Hc in Hc0. injection Hc0 as <-.
  pose proof (c_has_card o3 cg (co_inv _ _ _ Hco)) as Hcard.
  assert (ones_total (sq_items o3 (cg_mat cg)) <= k) as Hle.
  { eapply has_card_le; [exact Hcard|exact Hk|]. intros [u v] Huv.
    apply c_exists_has in Huv. unfold c_has in Huv. rewrite (co_val _ _ _ Hco) in Huv.
    destruct (kept g l (u / 8) (v / 8)); simpl in Huv; [|done]. by rewrite block_word_bit in Huv. }
  assert (N.of_nat (length (sq_items o3 (cg_mat cg))) <= ones_total (sq_items o3 (cg_mat cg))) as Hlen.
  { apply length_le_ones. intros w c r Hin. apply elem_of_sq_items in Hin; [|apply Hco].
    by apply (ci_word _ (co_inv _ _ _ Hco)) in Hin as [? _]. }
  destruct (cgraph_round_trip p o3 cg bytes) as [Hs H]; [done|apply Hco|lia| |done|].
  { rewrite (co_ec _ _ _ Hco _ Hcard). unfold u64_max, two64 in *. lia. }
  split; [done|]. intros p' Hp' Hs'. destruct (H p' Hp' Hs') as (cg' & ? & _ & ?). eauto.
Qed.
Print Assumptions C30_cgraph_round_trip.

Example C30_case : exists cg, compress plat64 plain_order reversed_order sample_und 1 = Ret cg /\
  exists bytes, cgraph_to_bytes plat64 plain_order cg = Ok bytes /\ length bytes = 66%nat.
Proof. apply ret_ex. vm_compute. eexists. split; reflexivity. Qed.

(** ** C31: for graphs obtained through the safe API... *)
Theorem C31_cgraph_layout p o cg k : wf_platform p -> creach p cg ->
  has_card (fun '(c, r) => get_compressed_matrix_entry cg c r <> 0) k -> k < two64 ->
  if (42 + 24 * k <=? usize_max p) && can_alloc p (42 + 24 * k)
  then exists bytes l, cgraph_to_bytes p o cg = Ok bytes /\
    bytes = cgraph_file (c_is_undirected cg) (blocks_of (c_vertex_count cg)) k
      (c_edge_count cg) (c_vertex_count cg) (compression_level cg) l /\
    distinct_blocks l /\
    (forall w c r, (w, c, r) ∈ l <-> get_compressed_matrix_entry cg c r = w /\ w <> 0) /\
    N.of_nat (length bytes) = 42 + 24 * k
  else exists msg, cgraph_to_bytes p o cg = Err (CapacityOverflow msg).
Proof.
  intros Hp Hr Hk Hk64. apply creach_inv in Hr; [|done].
  pose proof (cgraph_layout p o cg k Hp (ci_sq _ Hr) (ci_word _ Hr) Hk Hk64) as H.
  rewrite (ci_dim _ Hr), <- blocks_of_dim in H. exact H.
Qed.
Print Assumptions C31_cgraph_layout.

(** ...and for graphs made with the builder. *)
Theorem C31_builder_layout p o und n level calls k : wf_platform p -> is_u64 n ->
  (forall e c r h, (e, c, r, h) ∈ calls -> is_u64 e) ->
  let cg := build und n level calls in
  has_card (fun '(c, r) => get_compressed_matrix_entry cg c r <> 0) k -> k < two64 ->
  if (42 + 24 * k <=? usize_max p) && can_alloc p (42 + 24 * k)
  then exists bytes l, cgraph_to_bytes p o cg = Ok bytes /\
    bytes = cgraph_file und (built_dim n calls) k (c_edge_count cg) n (compression_level cg) l /\
    distinct_blocks l /\
    (forall w c r, (w, c, r) ∈ l <-> get_compressed_matrix_entry cg c r = w /\ w <> 0) /\
    N.of_nat (length bytes) = 42 + 24 * k
  else exists msg, cgraph_to_bytes p o cg = Err (CapacityOverflow msg).
Proof.
  intros Hp Hn He cg Hk Hk64.
  destruct (build_spec und n level calls Hn He) as (Hi & Hu & Hv & _ & _ & Hd & _ & Hw).
  fold cg in Hi, Hu, Hv, Hd, Hw.
  pose proof (cgraph_layout p o cg k Hp Hi Hw Hk Hk64) as H.
  rewrite Hd, Hu, Hv in H. exact H.
Qed.
Print Assumptions C31_builder_layout.

Example C31_case :
  cgraph_to_bytes plat64 plain_order (build true 9 70 [(0x102, 1, 0, None); (0, 3, 3, None)]) =
  Ok ([0x71; 0xff; 0x7a; 0xed; 0; 0; 0; 2] ++ [0; 0; 0; 0; 0; 0; 0; 4] ++
      [0; 0; 0; 0; 0; 0; 0; 1] ++ [0; 0; 0; 0; 0; 0; 0; 2] ++ [0; 0; 0; 0; 0; 0; 0; 9] ++ [1; 64] ++
      [0; 0; 0; 0; 0; 0; 1; 2] ++ [0; 0; 0; 0; 0; 0; 0; 1] ++ [0; 0; 0; 0; 0; 0; 0; 0]).
Proof. by vm_compute. Qed.

(** ** C32 *)
Theorem C32_cgraph_decoding p bytes : wf_platform p -> is_slice p bytes ->
  exists res, cgraph_try_from p bytes = Ret res /\
  match res with
  | Ok cg => exists und n level l, bytes = cgraph_file und (blocks_of n) (N.of_nat (length l))
        (popcount_total l) n level l /\ valid_cgraph_file n level l /\
      c_is_undirected cg = und /\ c_vertex_count cg = n /\ compression_level cg = level /\
      c_edge_count cg = popcount_total l /\
      (forall c r, get_compressed_matrix_entry cg c r = last_word l c r) /\
      (forall u v, c_does_edge_exist cg u v =
         N.testbit (last_word l (u / 8) (v / 8)) (8 * (v mod 8) + u mod 8))
  | Err e => (exists msg, e = InvalidFormat msg) /\
      forall und n level l, bytes = cgraph_file und (blocks_of n) (N.of_nat (length l))
        (popcount_total l) n level l -> ~ valid_cgraph_file n level l
  end.
Proof.
  intros Hp Hs. pose proof (oinvalid_cgraph_try_from p bytes) as Hinv.
  destruct (cgraph_try_from_spec p bytes Hp Hs)
    as [(e & He & Hno)|(und & n & level & l & Hf & Hg & Hok)].
  - exists (Err e). split; [done|]. rewrite He in Hinv. split; [exact Hinv|].
    intros und n level l Heq Hv. apply (Hno und n level l); [|by apply good_cfile_valid].
    rewrite Heq. by apply cfile_of_valid.
  - exists (Ok (cdecoded und n level l)). split; [done|]. exists und, n, level, l.
    destruct (cdecoded_facts und n level l Hg) as (Hi & Hu & Hn & Hl & He).
    assert (Hv := Hg). apply good_cfile_valid in Hv.
    split_and!; [|done|done|done|done| | |].
    + rewrite Hf. symmetry. by apply cfile_of_valid.
    + rewrite popcount_ones_total; [done|]. intros w c r Hin. apply (vc_words _ _ _ Hv w c r Hin).
    + intros c r. by apply cdecoded_entry.
    + intros u v. by rewrite c_exists_bit, cdecoded_entry.
Qed.
Print Assumptions C32_cgraph_decoding.

Theorem C32_valid_files_accepted p und n level l : wf_platform p -> valid_cgraph_file n level l ->
  let bytes := cgraph_file und (blocks_of n) (N.of_nat (length l)) (popcount_total l) n level l in
  is_slice p bytes ->
  exists cg, cgraph_try_from p bytes = Ret (Ok cg) /\
    c_is_undirected cg = und /\ c_vertex_count cg = n /\ compression_level cg = level /\
    c_edge_count cg = popcount_total l /\
    (forall c r, get_compressed_matrix_entry cg c r = last_word l c r).
Proof.
  intros Hp Hv bytes Hs. assert (good_cfile n level l) as Hg by by apply good_cfile_valid.
  exists (cdecoded und n level l). unfold bytes in *. rewrite (cfile_of_valid und n level l Hv) in *.
  split; [by apply cgraph_try_from_good|].
  destruct (cdecoded_facts und n level l Hg) as (Hi & Hu & Hn & Hl & He).
  split_and!; [done|done|done| |].
  - rewrite popcount_ones_total; [done|]. intros w c r Hin. apply (vc_words _ _ _ Hv w c r Hin).
  - intros c r. by apply cdecoded_entry.
Qed.
Print Assumptions C32_valid_files_accepted.

Example C32_case :
  (exists cg, cgraph_try_from plat64 (cgraph_file true 2 2 3 9 5 [(3, 0, 0); (1, 1, 1)]) = Ret (Ok cg) /\
     c_does_edge_exist cg 8 8 = true /\ c_does_edge_exist cg 1 0 = true) /\
  (exists msg, cgraph_try_from plat64 (cgraph_file true 2 1 1 9 5 [(2, 1, 1)]) =
     Ret (Err (InvalidFormat msg))) /\
  (exists msg, cgraph_try_from plat64 (cgraph_file true 2 1 1 9 0 [(1, 1, 1)]) =
     Ret (Err (InvalidFormat msg))).
Proof.
  split; [apply ret_ok_ex; by vm_compute|]. split; eexists; vm_compute; reflexivity.
Qed.

(** ** C33 is false of the code: entries for the same block are all counted but only the
    last one is kept, so the re-encoded file has a wrong edge count. *)
Definition repeated_block : list N := cgraph_file false 1 2 2 8 1 [(1, 0, 0); (2, 0, 0)].

Theorem C33_cgraph_reencoding_refuted : exists p bytes cg bytes' msg,
  wf_platform p /\ is_slice p bytes /\ cgraph_try_from p bytes = Ret (Ok cg) /\
  cgraph_to_bytes p plain_order cg = Ok bytes' /\ is_slice p bytes' /\
  cgraph_try_from p bytes' = Ret (Err (InvalidFormat msg)).
Proof.
  assert (exists cg, cgraph_try_from plat64 repeated_block = Ret (Ok cg) /\
    cgraph_to_bytes plat64 plain_order cg = Ok (cgraph_file false 1 1 2 8 1 [(2, 0, 0)]))
    as (cg & H1 & H2).
  { apply ret_ok_ex. vm_compute. reflexivity. }
  exists plat64, repeated_block, cg, (cgraph_file false 1 1 2 8 1 [(2, 0, 0)]). eexists.
  split_and!.
  - apply plat64_wf.
  - split; [by apply cgraph_file_bytes|by vm_compute].
  - exact H1.
  - exact H2.
  - split; [by apply cgraph_file_bytes|by vm_compute].
  - vm_compute. reflexivity.
Qed.
Print Assumptions C33_cgraph_reencoding_refuted.

(** Files that mention every block at most once, and with them every file written by
    to_bytes, can be re-encoded.  Missing from C33: files with repeated blocks. *)
Theorem C33_cgraph_reencoding_partial p o und n level l cg bytes' : wf_platform p ->
  valid_cgraph_file n level l -> distinct_blocks l ->
  let bytes := cgraph_file und (blocks_of n) (N.of_nat (length l)) (popcount_total l) n level l in
  is_slice p bytes -> cgraph_try_from p bytes = Ret (Ok cg) -> cgraph_to_bytes p o cg = Ok bytes' ->
  exists cg', cgraph_try_from p bytes' = Ret (Ok cg') /\ same_cgraph cg cg'.
Proof.
  intros Hp Hv Hd bytes Hs Hok Hb. assert (good_cfile n level l) as Hg by by apply good_cfile_valid.
  unfold bytes in *. rewrite (cfile_of_valid und n level l Hv) in *.
  rewrite (cgraph_try_from_good p und n level l Hp Hs Hg) in Hok. injection Hok as <-.
  pose proof (cfile_len _ _ _ _ p Hp Hs) as Hl.
  destruct (cdecoded_facts und n level l Hg) as (Hi & Hu & Hn & Hlev & He).
  pose proof (cdecoded_items und n level l o Hg Hd) as Hperm.
  destruct (cgraph_round_trip p o (cdecoded und n level l) bytes') as [Hs' H];
    [done|done|by rewrite Hperm| |done|].
  { rewrite He. symmetry. by apply ones_total_perm. }
  destruct (H p Hp Hs') as (cg' & ? & _ & ?). eauto.
Qed.
Print Assumptions C33_cgraph_reencoding_partial.

Example C33_case : exists cg,
  cgraph_try_from plat64 (cgraph_file true 2 2 3 9 5 [(3, 0, 0); (1, 1, 1)]) = Ret (Ok cg) /\
  exists bytes', cgraph_to_bytes plat64 plain_order cg = Ok bytes' /\ length bytes' = 90%nat.
Proof. apply ret_ok_ex. vm_compute. eexists. split; reflexivity. Qed.
