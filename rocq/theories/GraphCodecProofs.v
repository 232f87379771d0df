(** Encoding and decoding of graphs. *)
From Coq Require Import Ascii String.
From Verif Require Import Base HashIter HashIterProofs F64 Numeric Adj Sq Standard Spec Api
  Compressed AdjProofs SqProofs GraphProofs PoolProofs BitsProofs KeepTable CompressProofs
  BytesProofs.
Local Arguments N.mul : simpl never.
Local Arguments N.add : simpl never.

(** ** Encoding *)

Lemma fold_bytes_pairs l acc :
  fold_left (fun buffer '(col, row) => buffer ++ to_be_bytes 8 col ++ to_be_bytes 8 row) l acc
  = acc ++ enc_pairs l.
Proof.
  revert acc. induction l as [|[u v] l IH]; intros acc; cbn [fold_left].
  - unfold enc_pairs. simpl. by rewrite app_nil_r.
  - rewrite IH. unfold enc_pairs. rewrite bind_cons, !to_be_be64. by rewrite !app_assoc.
Qed.

Lemma graph_to_bytes_file p o g bytes :
  graph_to_bytes p o g = Ok bytes ->
  bytes = graph_file (g_und g) (vertex_count g) (edge_count g) (graph_items o g).
Proof.
  unfold graph_to_bytes. destruct (graph_bytes_size p g); simpl; [|done].
  destruct (can_alloc p a); [|done]. intros [= <-].
  rewrite fold_bytes_pairs. unfold graph_file. rewrite !app_assoc.
  rewrite <- !to_be_be64. done.
Qed.

Lemma graph_bytes_size_eq p g :
  wf_platform p ->
  graph_bytes_size p g =
  if 26 + 16 * edge_count g <=? usize_max p then Ok (26 + 16 * edge_count g)
  else Err (CapacityOverflow "Graph byte size overflowed").
Proof.
  intros [Hmin Hmax _]. unfold graph_bytes_size, usize_try_from, checked_mulU, checked_addU,
    GRAPH_BYTES_HEADER_SIZE, edge_count.
  set (k := adj_entry_count (g_adj g)).
  destruct (N.leb_spec (26 + 16 * k) (usize_max p)).
  - destruct (N.leb_spec k (usize_max p)); [|lia]. simpl.
    destruct (N.leb_spec (k * 2) (usize_max p)); [|lia]. simpl.
    destruct (N.leb_spec (k * 2 * 8) (usize_max p)); [|lia]. simpl.
    destruct (N.leb_spec (26 + k * 2 * 8) (usize_max p)); [|lia]. simpl. f_equal. lia.
  - destruct (N.leb_spec k (usize_max p)); simpl; [|done].
    destruct (N.leb_spec (k * 2) (usize_max p)); simpl; [|done].
    destruct (N.leb_spec (k * 2 * 8) (usize_max p)); simpl; [|done].
    destruct (N.leb_spec (26 + k * 2 * 8) (usize_max p)); [lia|]. done.
Qed.

(** to_bytes succeeds exactly when the size fits and the allocator grants it. *)
Lemma graph_to_bytes_ok p o g :
  wf_platform p -> can_alloc p (26 + 16 * edge_count g) = true ->
  graph_to_bytes p o g =
    Ok (graph_file (g_und g) (vertex_count g) (edge_count g) (graph_items o g)).
Proof.
  intros Hp Ha. destruct (graph_to_bytes p o g) as [bytes|e] eqn:E.
  - f_equal. by apply graph_to_bytes_file in E.
  - unfold graph_to_bytes in E. rewrite graph_bytes_size_eq in E by done.
    pose proof (wf_alloc p Hp _ Ha).
    destruct (N.leb_spec (26 + 16 * edge_count g) (usize_max p)); [|lia].
    simpl in E. by rewrite Ha in E.
Qed.

Lemma graph_to_bytes_alloc p o g bytes :
  wf_platform p -> graph_to_bytes p o g = Ok bytes ->
  can_alloc p (26 + 16 * edge_count g) = true.
Proof.
  intros Hp. unfold graph_to_bytes. rewrite graph_bytes_size_eq by done.
  destruct (_ <=? _); simpl; [|done]. by destruct (can_alloc p _).
Qed.

(** ** Decoding *)

Lemma read_be_at p pre w post off k :
  is_slice p (pre ++ w ++ post) -> off = N.of_nat (length pre) -> k = length w ->
  read_be p k (pre ++ w ++ post) off = Ok (from_be_bytes w).
Proof.
  intros [_ Hlen] -> ->. unfold read_be, checked_addU.
  rewrite !app_length in Hlen.
  destruct (N.leb_spec (N.of_nat (length pre) + N.of_nat (length w)) (usize_max p)); [|lia].
  simpl. by rewrite slice_get_at.
Qed.

Definition bad_edge : result graph :=
  Err (InvalidFormat "Graph edge exceeds matrix dimension").

Lemma graph_read_loop_spec p fuel pre l n g expected :
  is_slice p (pre ++ enc_pairs l) ->
  Forall (fun '(u, v) => u < two64 /\ v < two64) l ->
  expected = N.of_nat (length (pre ++ enc_pairs l)) -> (length l <= fuel)%nat ->
  graph_read_loop p fuel (pre ++ enc_pairs l) expected n (N.of_nat (length pre)) g =
  Ret (if forallb (fun '(u, v) => (u <? n) && (v <? n)) l then Ok (add_edges l g)
       else bad_edge).
Proof.
  revert fuel pre g. induction l as [|[u v] l IH]; intros fuel pre g Hs Hl Hexp Hfuel.
  - unfold enc_pairs in *. simpl in *. rewrite app_nil_r in *. subst expected.
    destruct fuel; cbn [graph_read_loop]; rewrite N.ltb_irrefl; done.
  - apply Forall_cons in Hl as [[Hu Hv] Hl].
    destruct fuel as [|fuel]; [simpl in Hfuel; lia|].
    assert (pre ++ enc_pairs ((u, v) :: l) = pre ++ be64 u ++ be64 v ++ enc_pairs l) as Heq.
    { unfold enc_pairs. by rewrite bind_cons, <- app_assoc. }
    rewrite Heq in *.
    assert (N.of_nat (length pre) + 16 <= expected) as Hlt.
    { rewrite Hexp, !app_length, !length_be64. lia. }
    assert (expected <= usize_max p) as Hmax.
    { destruct Hs as [_ Hs]. lia. }
    cbn [graph_read_loop].
    destruct (N.ltb_spec (N.of_nat (length pre)) expected); [|lia].
    rewrite (read_be_at p pre (be64 u)) by done. rewrite from_be64 by done. cbn [orbind].
    unfold usize_add.
    destruct (N.leb_spec (N.of_nat (length pre) + 8) (usize_max p)); [|lia]. cbn [obind].
    assert (pre ++ be64 u ++ be64 v ++ enc_pairs l = (pre ++ be64 u) ++ be64 v ++ enc_pairs l)
      as Heq2 by (by rewrite <- app_assoc).
    rewrite Heq2 in *.
    rewrite (read_be_at p (pre ++ be64 u) (be64 v));
      [|done|rewrite app_length, length_be64; lia|done].
    rewrite from_be64 by done. cbn [orbind].
    destruct (N.leb_spec (N.of_nat (length pre) + 8 + 8) (usize_max p)); [|lia]. cbn [obind].
    rewrite !(N.leb_antisym _ n).
    cbn [forallb]. destruct (N.ltb_spec u n), (N.ltb_spec v n); cbn [negb orb andb]; try done.
    assert ((pre ++ be64 u) ++ be64 v ++ enc_pairs l
            = ((pre ++ be64 u) ++ be64 v) ++ enc_pairs l) as Heq3 by (by rewrite <- !app_assoc).
    rewrite Heq3 in *.
    replace (N.of_nat (length pre) + 8 + 8) with (N.of_nat (length ((pre ++ be64 u) ++ be64 v)))
      by (rewrite !app_length, !length_be64; lia).
    rewrite IH; [done|done|done|done|]. simpl in Hfuel. lia.
Qed.

Definition graph_hdr (magic ver n cnt f w : N) : list N :=
  to_be_bytes 4 magic ++ to_be_bytes 4 ver ++ be64 n ++ be64 cnt ++ [f] ++ [w].

Lemma length_graph_hdr magic ver n cnt f w : length (graph_hdr magic ver n cnt f w) = 26%nat.
Proof. unfold graph_hdr. rewrite !app_length, !length_to_be. done. Qed.

Lemma graph_file_hdr (und : bool) n cnt l :
  graph_file und n cnt l =
  graph_hdr GRAPH_BYTES_MAGIC_NUMBER GRAPH_BYTES_VERSION n cnt (if und then 1 else 0) 0
  ++ enc_pairs l.
Proof. unfold graph_file, graph_hdr. rewrite <- !app_assoc. done. Qed.

Lemma split_graph_hdr bytes : Forall is_byte bytes -> (26 <= length bytes)%nat ->
  exists magic ver n cnt f w rest,
    bytes = graph_hdr magic ver n cnt f w ++ rest /\
    magic < 2 ^ 32 /\ ver < 2 ^ 32 /\ n < two64 /\ cnt < two64 /\ is_byte f /\ is_byte w /\
    Forall is_byte rest.
Proof.
  intros H Hl.
  destruct (split_be32 bytes H) as (magic & r1 & -> & Hm & H1); [lia|].
  rewrite app_length, length_to_be in Hl.
  destruct (split_be32 r1 H1) as (ver & r2 & -> & Hv & H2); [lia|].
  rewrite app_length, length_to_be in Hl.
  destruct (split_be64 r2 H2) as (n & r3 & -> & Hn & H3); [lia|].
  rewrite app_length, length_be64 in Hl.
  destruct (split_be64 r3 H3) as (cnt & r4 & -> & Hc & H4); [lia|].
  rewrite app_length, length_be64 in Hl.
  destruct (split_byte r4 H4) as (f & r5 & -> & Hf & H5); [lia|].
  rewrite app_length in Hl. simpl in Hl.
  destruct (split_byte r5 H5) as (w & r6 & -> & Hw & H6); [lia|].
  exists magic, ver, n, cnt, f, w, r6. split_and!; [|done..].
  unfold graph_hdr. by rewrite <- !app_assoc.
Qed.

(** What the decoder computes on a header followed by a body. *)
Definition graph_decode (p : platform) (magic ver n cnt f w : N) (len : N)
    (body : result graph) : result graph :=
  if negb (magic =? GRAPH_BYTES_MAGIC_NUMBER)
  then Err (InvalidFormat "Incorrect magic number")
  else if negb (ver =? GRAPH_BYTES_VERSION)
  then Err (InvalidFormat "Unrecognized Graph version")
  else if 1 <? f
  then Err (InvalidFormat "Invalid graph direction flag")
  else if negb (w =? 0)
  then Err (InvalidFormat "Weighted graphs are not supported")
  else if (n =? 0) && negb (cnt =? 0)
  then Err (InvalidFormat "Graph with zero dimension cannot contain edges")
  else
    rbind (graph_expected_size p cnt) (fun expected =>
    if len <? expected
    then Err (InvalidFormat "Slice is too short to contain all expected graph edges")
    else if expected <? len
    then Err (InvalidFormat "Slice is too long represent the expected graph edges")
    else
      rbind body (fun g =>
      if negb (edge_count g =? cnt)
      then Err (InvalidFormat "Graph edge count does not match header")
      else Ok (if 0 <? n then add_vertex g (n - 1) None else g))).

Definition empty_graph (f : N) : graph := if f =? 0 then new_directed else new_undirected.

Lemma graph_expected_size_eq p cnt : wf_platform p ->
  graph_expected_size p cnt =
  if 16 * cnt + 26 <=? usize_max p then Ok (16 * cnt + 26)
  else Err (InvalidFormat "Graph byte size overflowed").
Proof.
  intros [Hmin _ _]. unfold graph_expected_size, usize_try_from, checked_mulU, checked_addU,
    GRAPH_BYTES_HEADER_SIZE.
  destruct (N.leb_spec (16 * cnt + 26) (usize_max p)).
  - destruct (N.leb_spec cnt (usize_max p)); [|lia]. simpl.
    destruct (N.leb_spec (cnt * 2) (usize_max p)); [|lia]. simpl.
    destruct (N.leb_spec (cnt * 2 * 8) (usize_max p)); [|lia]. simpl.
    destruct (N.leb_spec (cnt * 2 * 8 + 26) (usize_max p)); [|lia]. simpl. f_equal. lia.
  - destruct (N.leb_spec cnt (usize_max p)); simpl; [|done].
    destruct (N.leb_spec (cnt * 2) (usize_max p)); simpl; [|done].
    destruct (N.leb_spec (cnt * 2 * 8) (usize_max p)); simpl; [|done].
    destruct (N.leb_spec (cnt * 2 * 8 + 26) (usize_max p)); [lia|]. done.
Qed.

Lemma graph_try_from_eq p magic ver n cnt f w rest :
  wf_platform p -> is_slice p (graph_hdr magic ver n cnt f w ++ rest) ->
  magic < 2 ^ 32 -> ver < 2 ^ 32 -> n < two64 -> cnt < two64 ->
  graph_try_from p (graph_hdr magic ver n cnt f w ++ rest) =
  Ret (graph_decode p magic ver n cnt f w (26 + N.of_nat (length rest))
    (match graph_read_loop p (26 + length rest) (graph_hdr magic ver n cnt f w ++ rest)
            (26 + N.of_nat (length rest)) n 26 (empty_graph f) with
     | Ret r => r | _ => bad_edge end)) \/
  (16 * cnt + 26 = 26 + N.of_nat (length rest) /\
   exists x, graph_read_loop p (26 + length rest) (graph_hdr magic ver n cnt f w ++ rest)
            (26 + N.of_nat (length rest)) n 26 (empty_graph f) = x /\ forall r, x <> Ret r).
Proof.
  intros Hp Hs Hm Hv Hn Hc. unfold graph_try_from.
  assert (length (graph_hdr magic ver n cnt f w ++ rest) = (26 + length rest)%nat) as Hlen
    by (by rewrite app_length, length_graph_hdr).
  rewrite Hlen. unfold GRAPH_BYTES_HEADER_SIZE.
  destruct (N.ltb_spec (N.of_nat (26 + length rest)) 26); [lia|].
  set (bytes := graph_hdr magic ver n cnt f w ++ rest) in *.
  assert (read_be p 4 bytes 0 = Ok magic) as ->.
  { assert (bytes = [] ++ to_be_bytes 4 magic ++ (to_be_bytes 4 ver ++ be64 n ++ be64 cnt
              ++ [f] ++ [w] ++ rest)) as Hb by (unfold bytes, graph_hdr; by rewrite <- !app_assoc).
    rewrite Hb in Hs |- *. rewrite (read_be_at p [] (to_be_bytes 4 magic)); [|done|done|done].
    rewrite from_to_be. f_equal. by apply N.mod_small. }
  assert (read_be p 4 bytes 4 = Ok ver) as ->.
  { assert (bytes = to_be_bytes 4 magic ++ to_be_bytes 4 ver ++ (be64 n ++ be64 cnt
              ++ [f] ++ [w] ++ rest)) as Hb by (unfold bytes, graph_hdr; by rewrite <- !app_assoc).
    rewrite Hb in Hs |- *. rewrite (read_be_at p (to_be_bytes 4 magic) (to_be_bytes 4 ver));
      [|done|done|done].
    rewrite from_to_be. f_equal. by apply N.mod_small. }
  assert (read_be p 8 bytes 8 = Ok n) as ->.
  { assert (bytes = (to_be_bytes 4 magic ++ to_be_bytes 4 ver) ++ be64 n ++ (be64 cnt
              ++ [f] ++ [w] ++ rest)) as Hb by (unfold bytes, graph_hdr; by rewrite <- !app_assoc).
    rewrite Hb in Hs |- *. rewrite (read_be_at p (to_be_bytes 4 magic ++ to_be_bytes 4 ver) (be64 n));
      [|done|done|done].
    by rewrite from_be64. }
  assert (read_be p 8 bytes 16 = Ok cnt) as ->.
  { assert (bytes = (to_be_bytes 4 magic ++ to_be_bytes 4 ver ++ be64 n) ++ be64 cnt
              ++ ([f] ++ [w] ++ rest)) as Hb by (unfold bytes, graph_hdr; by rewrite <- !app_assoc).
    rewrite Hb in Hs |- *.
    rewrite (read_be_at p (to_be_bytes 4 magic ++ to_be_bytes 4 ver ++ be64 n) (be64 cnt));
      [|done|done|done].
    by rewrite from_be64. }
  assert (byte_at bytes 24 = Ret f) as ->.
  { assert (bytes = (to_be_bytes 4 magic ++ to_be_bytes 4 ver ++ be64 n ++ be64 cnt) ++ [f]
              ++ ([w] ++ rest)) as Hb by (unfold bytes, graph_hdr; by rewrite <- !app_assoc).
    rewrite Hb. by apply byte_at_at. }
  assert (byte_at bytes 25 = Ret w) as ->.
  { assert (bytes = (to_be_bytes 4 magic ++ to_be_bytes 4 ver ++ be64 n ++ be64 cnt ++ [f])
              ++ [w] ++ rest) as Hb by (unfold bytes, graph_hdr; by rewrite <- !app_assoc).
    rewrite Hb. by apply byte_at_at. }
  cbn [orbind obind]. unfold graph_decode.
  destruct (negb (magic =? GRAPH_BYTES_MAGIC_NUMBER)); [by left|].
  destruct (negb (ver =? GRAPH_BYTES_VERSION)); [by left|].
  destruct (1 <? f); [by left|].
  destruct (negb (w =? 0)); [by left|].
  destruct ((n =? 0) && negb (cnt =? 0)); [by left|].
  rewrite graph_expected_size_eq by done.
  destruct (N.leb_spec (16 * cnt + 26) (usize_max p)); cbn [orbind rbind]; [|by left].
  replace (N.of_nat (26 + length rest)) with (26 + N.of_nat (length rest)) by lia.
  destruct (N.ltb_spec (26 + N.of_nat (length rest)) (16 * cnt + 26)); [by left|].
  destruct (N.ltb_spec (16 * cnt + 26) (26 + N.of_nat (length rest))); [by left|].
  replace (16 * cnt + 26) with (26 + N.of_nat (length rest)) by lia.
  fold (empty_graph f).
  destruct (graph_read_loop p (26 + length rest) bytes (26 + N.of_nat (length rest)) n 26
              (empty_graph f)) as [r| |] eqn:Eloop.
  - left. cbn [orbind]. destruct r as [g|e]; cbn [rbind]; [|done].
    by destruct (negb (edge_count g =? cnt)).
  - right. split; [lia|]. eexists. split; [reflexivity|]. intros r. discriminate.
  - right. split; [lia|]. eexists. split; [reflexivity|]. intros r. discriminate.
Qed.

(** ** The accepted files *)

Record good_file (und : bool) (n : N) (l : list (N * N)) : Prop := GoodFile {
  gf_n : n < two64;
  gf_bound : Forall (fun '(u, v) => u < n /\ v < n) l;
  gf_card : has_card (described und l) (N.of_nat (length l));
}.

Definition start_graph (und : bool) : graph := if und then new_undirected else new_directed.

Definition decoded (und : bool) (n : N) (l : list (N * N)) : graph :=
  let g := add_edges l (start_graph und) in
  if 0 <? n then add_vertex g (n - 1) None else g.

Lemma start_facts und : graph_inv (start_graph und) /\ g_und (start_graph und) = und /\
  vertex_count (start_graph und) = 0 /\ forall u v, ~ has (start_graph und) u v.
Proof.
  unfold start_graph. split_and!; destruct und; try done; (apply graph_inv_new || apply not_has_new).
Qed.

Lemma edges_facts und n l :
  n < two64 -> Forall (fun '(u, v) => u < n /\ v < n) l ->
  let g := add_edges l (start_graph und) in
  graph_inv g /\ g_und g = und /\ vertex_count g <= n /\
  (forall u v, has g u v <-> described und l (u, v)).
Proof.
  intros Hn Hb g. destruct (start_facts und) as (Hi & Hu & Hv & Hh). split_and!.
  - by apply graph_inv_fold_add_edge.
  - unfold g, add_edges. by rewrite und_fold_add_edge.
  - apply vc_fold_add_edge; [lia|]. intros u v Hin.
    rewrite Forall_forall in Hb. apply (Hb (u, v) Hin).
  - intros u v. unfold g, add_edges. rewrite has_fold_add_edge, Hu. unfold described. simpl.
    split.
    + intros [H|[_ H]]; [by apply Hh in H|done].
    + intros H. right. split; [|done]. rewrite Forall_forall in Hb. apply both_valid_lt.
      unfold u64_max, two64 in *.
      destruct H as [H|[_ H]]; apply Hb in H; lia.
Qed.

Lemma decoded_facts und n l :
  n < two64 -> Forall (fun '(u, v) => u < n /\ v < n) l ->
  let g := decoded und n l in
  graph_inv g /\ g_und g = und /\ vertex_count g = n /\
  (forall u v, has g u v <-> described und l (u, v)).
Proof.
  intros Hn Hb g. destruct (edges_facts und n l Hn Hb) as (Hi & Hu & Hv & Hh).
  unfold g, decoded. destruct (N.ltb_spec 0 n).
  - rewrite add_vertex_none. split_and!.
    + by apply graph_inv_grow.
    + by rewrite und_grow.
    + rewrite vc_grow by done. unfold valid_id.
      destruct (N.ltb_spec (n - 1) u64_max); unfold u64_max, two64 in *; lia.
    + intros u v. by rewrite has_grow.
  - split_and!; [done|done|lia|done].
Qed.

Lemma described_card_bound und l k : has_card (described und l) k ->
  k <= 2 * N.of_nat (length l).
Proof.
  intros (dl & Hnd & Hdl & <-).
  assert (length dl <= length (l ++ ((fun e => (e.2, e.1)) <$> l)))%nat as Hle.
  { apply submseteq_length, NoDup_submseteq; [done|]. intros [u v] Hin.
    apply Hdl in Hin. rewrite elem_of_app. destruct Hin as [Hin|[_ Hin]]; [by left|right].
    apply elem_of_list_fmap. exists (v, u). done. }
  rewrite app_length, fmap_length in Hle. lia.
Qed.

Lemma edges_count und n l :
  n < two64 -> Forall (fun '(u, v) => u < n /\ v < n) l -> 2 * N.of_nat (length l) < two64 ->
  has_card (described und l) (edge_count (add_edges l (start_graph und))).
Proof.
  intros Hn Hb Hlen. destruct (edges_facts und n l Hn Hb) as (Hi & Hu & Hv & Hh).
  set (g := add_edges l (start_graph und)) in *.
  pose proof (has_card_edges g) as Hc. rewrite (edge_count_card g _ Hi Hc).
  apply (has_card_ext _ (described und l)) in Hc.
  - rewrite N.mod_small; [done|]. apply described_card_bound in Hc. lia.
  - intros [u v]. by rewrite exists_has, Hh.
Qed.

Lemma forallb_bound (l : list (N * N)) n :
  forallb (fun '(u, v) => (u <? n) && (v <? n)) l = true <->
  Forall (fun '(u, v) => u < n /\ v < n) l.
Proof.
  induction l as [|[u v] l IH]; simpl.
  - split; [by constructor|done].
  - rewrite andb_true_iff, IH, Forall_cons, andb_true_iff, !N.ltb_lt. done.
Qed.

(** The decoder as a function of the parsed file. *)
Lemma graph_try_from_spec p bytes :
  wf_platform p -> is_slice p bytes ->
  (exists e, graph_try_from p bytes = Ret (Err e) /\
     forall und n l, bytes = graph_file und n (N.of_nat (length l)) l -> ~ good_file und n l) \/
  (exists und n l, bytes = graph_file und n (N.of_nat (length l)) l /\ good_file und n l /\
     graph_try_from p bytes = Ret (Ok (decoded und n l))).
Proof.
  intros Hp Hs. destruct Hs as [Hbytes Hmax] eqn:Es. clear Es. fold (is_slice p bytes) in Hs.
  (* files of the right shape are long enough *)
  destruct (decide (26 <= length bytes)%nat) as [Hlen|Hlen].
  2:{ left. unfold graph_try_from. unfold GRAPH_BYTES_HEADER_SIZE.
      destruct (N.ltb_spec (N.of_nat (length bytes)) 26); [|lia]. eexists. split; [done|].
      intros und n l ->. rewrite graph_file_hdr, app_length, length_graph_hdr in Hlen. lia. }
  destruct (split_graph_hdr bytes Hbytes Hlen)
    as (magic & ver & n & cnt & f & w & rest & Heq & Hm & Hv & Hn & Hc & Hf & Hw & Hrest).
  assert (length bytes = (26 + length rest)%nat) as Hl
    by (rewrite Heq, app_length, length_graph_hdr; lia).
  (* a good file determines the header *)
  assert (forall und n' l, bytes = graph_file und n' (N.of_nat (length l)) l ->
    n' < two64 ->
    magic = GRAPH_BYTES_MAGIC_NUMBER /\ ver = GRAPH_BYTES_VERSION /\ n = n' /\
    cnt = N.of_nat (length l) /\ f = (if und then 1 else 0) /\ w = 0 /\ rest = enc_pairs l)
    as Hdet.
  { intros und n' l Hfile Hn'. rewrite graph_file_hdr, Heq in Hfile.
    assert (N.of_nat (length l) < two64) as Hlt.
    { apply (f_equal length) in Hfile. rewrite !app_length, !length_graph_hdr, length_enc_pairs in Hfile.
      pose proof (wf_usize_max p Hp). unfold two64 in *. lia. }
    apply app_inj_len in Hfile as [Hh ->]; [|by rewrite !length_graph_hdr].
    unfold graph_hdr in Hh.
    apply app_inj_len in Hh as [E1 Hh]; [|by rewrite !length_to_be].
    apply app_inj_len in Hh as [E2 Hh]; [|by rewrite !length_to_be].
    apply app_inj_len in Hh as [E3 Hh]; [|done].
    apply app_inj_len in Hh as [E4 Hh]; [|done].
    injection Hh as -> ->.
    apply be64_inj in E3; [|done..]. apply be64_inj in E4; [|done..].
    apply (f_equal from_be_bytes) in E1. apply (f_equal from_be_bytes) in E2.
    rewrite !from_to_be in E1, E2.
    rewrite !N.mod_small in E1 by done. rewrite !N.mod_small in E2 by done. done. }
  destruct (graph_try_from_eq p magic ver n cnt f w rest Hp) as [Htf|[Hsz (x & Hx & Hno)]];
    [by rewrite <- Heq|done..| |].
  2:{ exfalso. destruct (split_pairs (N.to_nat cnt) rest Hrest) as (l & -> & Hll & Hall); [lia|].
      rewrite Heq in Hs.
      apply (Hno (if forallb (fun '(u, v) => (u <? n) && (v <? n)) l
                  then Ok (add_edges l (empty_graph f)) else bad_edge)).
      rewrite <- Hx.
      pose proof (graph_read_loop_spec p (26 + length (enc_pairs l)) (graph_hdr magic ver n cnt f w)
        l n (empty_graph f) (26 + N.of_nat (length (enc_pairs l))) Hs Hall) as Hloop.
      rewrite length_graph_hdr in Hloop. apply Hloop.
      - rewrite app_length, length_graph_hdr. lia.
      - rewrite length_enc_pairs. lia. }
  rewrite <- Heq in Htf. rewrite Htf. clear Htf.
  unfold graph_decode.
  destruct (N.eqb_spec magic GRAPH_BYTES_MAGIC_NUMBER) as [->|Hne]; cbn [negb];
    [|left; eexists; split; [done|]; intros ??? H [? _ _]; apply Hdet in H as (? & _); done].
  destruct (N.eqb_spec ver GRAPH_BYTES_VERSION) as [->|Hne]; cbn [negb];
    [|left; eexists; split; [done|]; intros ??? H [? _ _]; apply Hdet in H as (_ & ? & _); done].
  destruct (N.ltb_spec 1 f) as [Hf1|Hf1];
    [left; eexists; split; [done|]; intros und ?? H [? _ _];
     apply Hdet in H as (_ & _ & _ & _ & ? & _); [|done]; destruct und; lia|].
  destruct (N.eqb_spec w 0) as [->|Hne]; cbn [negb];
    [|left; eexists; split; [done|]; intros ??? H [? _ _];
      apply Hdet in H as (_ & _ & _ & _ & _ & ? & _); done].
  destruct ((n =? 0) && negb (cnt =? 0)) eqn:Ez.
  { apply andb_true_iff in Ez as [Hn0 Hc0]. apply N.eqb_eq in Hn0.
    apply negb_true_iff, N.eqb_neq in Hc0.
    left. eexists. split; [done|]. intros und n' l H [? Hb _].
    apply Hdet in H as (_ & _ & Hnn & Hcc & _); [|done].
    destruct l as [|[u v] l]; [simpl in Hcc; done|].
    apply Forall_cons in Hb as [[Hu _] _]. lia. }
  clear Ez. rewrite graph_expected_size_eq by done.
  destruct (N.leb_spec (16 * cnt + 26) (usize_max p)) as [Hsz|Hsz]; cbn [rbind].
  2:{ left. eexists. split; [done|]. intros und n' l H [? Hb _].
      apply Hdet in H as (_ & _ & Hnn & Hcc & _ & _ & ->); [|done].
      rewrite length_enc_pairs in Hl. lia. }
  destruct (N.ltb_spec (26 + N.of_nat (length rest)) (16 * cnt + 26)).
  { left. eexists. split; [done|]. intros und n' l H' [? Hb _].
    apply Hdet in H' as (_ & _ & Hnn & Hcc & _ & _ & ->); [|done].
    rewrite length_enc_pairs in *. lia. }
  destruct (N.ltb_spec (16 * cnt + 26) (26 + N.of_nat (length rest))).
  { left. eexists. split; [done|]. intros und n' l H' [? Hb _].
    apply Hdet in H' as (_ & _ & Hnn & Hcc & _ & _ & ->); [|done].
    rewrite length_enc_pairs in *. lia. }
  destruct (split_pairs (N.to_nat cnt) rest Hrest) as (l & -> & Hll & Hall); [lia|].
  assert (graph_read_loop p (26 + length (enc_pairs l)) bytes
            (26 + N.of_nat (length (enc_pairs l))) n 26 (empty_graph f)
          = Ret (if forallb (fun '(u, v) => (u <? n) && (v <? n)) l
                 then Ok (add_edges l (empty_graph f)) else bad_edge)) as Hloop.
  { pose proof (graph_read_loop_spec p (26 + length (enc_pairs l))
      (graph_hdr GRAPH_BYTES_MAGIC_NUMBER GRAPH_BYTES_VERSION n cnt f 0)
        l n (empty_graph f) (26 + N.of_nat (length (enc_pairs l)))) as Hloop.
    rewrite <- Heq, length_graph_hdr in Hloop. apply Hloop; [done|done| |].
    - lia.
    - rewrite length_enc_pairs. lia. }
  rewrite Hloop. clear Hloop.
  set (und := negb (f =? 0)).
  assert (f = if und then 1 else 0) as Hfu
    by (unfold und; destruct (N.eqb_spec f 0); simpl; lia).
  assert (empty_graph f = start_graph und) as ->.
  { unfold empty_graph, start_graph, und. by destruct (f =? 0). }
  assert (bytes = graph_file und n (N.of_nat (length l)) l) as Hfile.
  { rewrite Heq, graph_file_hdr, <- Hfu. repeat f_equal. lia. }
  assert (forall und' n' l', bytes = graph_file und' n' (N.of_nat (length l')) l' ->
    good_file und' n' l' -> und' = und /\ n' = n /\ l' = l) as Huniq.
  { intros und' n' l' H' [Hn' Hb' _].
    apply Hdet in H' as (_ & _ & <- & Hcc & Hff & _ & Henc); [|done]. split_and!; [|done|].
    - rewrite Hfu in Hff. by destruct und, und'.
    - symmetry. apply enc_pairs_inj; [done| |done].
      eapply Forall_impl; [exact Hb'|]. intros [u v]. lia. }
  assert (2 * N.of_nat (length l) < two64) as Hl64.
  { pose proof (wf_usize_max p Hp). rewrite length_enc_pairs in *. unfold two64 in *. lia. }
  destruct (forallb _ l) eqn:Eb.
  2:{ left. eexists. split; [done|]. intros und' n' l' H' Hg.
      destruct (Huniq _ _ _ H' Hg) as (-> & -> & ->). destruct Hg as [_ Hb _].
      apply forallb_bound in Hb. congruence. }
  apply forallb_bound in Eb. cbn [rbind].
  pose proof (edges_count und n l Hn Eb Hl64) as Hcard.
  destruct (N.eqb_spec (edge_count (add_edges l (start_graph und))) cnt) as [Hec|Hec]; cbn [negb].
  - right. exists und, n, l. split; [done|]. split; [|done].
    constructor; [done|done|]. rewrite Hec in Hcard. by replace (N.of_nat (length l)) with cnt by lia.
  - left. eexists. split; [done|]. intros und' n' l' H' Hg.
    destruct (Huniq _ _ _ H' Hg) as (-> & -> & ->). destruct Hg as [_ _ Hc'].
    apply Hec. rewrite (has_card_unique _ _ _ Hcard Hc'). lia.
Qed.

(** ** Consequences *)

Lemma graph_try_from_total p bytes : wf_platform p -> is_slice p bytes ->
  exists r, graph_try_from p bytes = Ret r.
Proof.
  intros Hp Hs. destruct (graph_try_from_spec p bytes Hp Hs) as [(e & He & _)|(und & n & l & _ & _ & H)];
    eauto.
Qed.

Lemma graph_try_from_ok_inv p bytes g : wf_platform p -> is_slice p bytes ->
  graph_try_from p bytes = Ret (Ok g) ->
  exists und n l, bytes = graph_file und n (N.of_nat (length l)) l /\ good_file und n l /\
    g = decoded und n l.
Proof.
  intros Hp Hs Hok.
  destruct (graph_try_from_spec p bytes Hp Hs) as [(e & He & _)|(und & n & l & ? & ? & H)].
  - congruence.
  - exists und, n, l. split_and!; [done|done|]. congruence.
Qed.

Lemma graph_file_inj und n l und' n' l' cnt cnt' :
  n < two64 -> n' < two64 -> cnt < two64 -> cnt' < two64 ->
  Forall (fun '(u, v) => u < two64 /\ v < two64) l ->
  Forall (fun '(u, v) => u < two64 /\ v < two64) l' ->
  graph_file und n cnt l = graph_file und' n' cnt' l' ->
  und = und' /\ n = n' /\ cnt = cnt' /\ l = l'.
Proof.
  intros Hn Hn' Hc Hc' Hl Hl'. rewrite !graph_file_hdr. intros H.
  apply app_inj_len in H as [Hh Henc]; [|by rewrite !length_graph_hdr].
  apply enc_pairs_inj in Henc; [|done..]. unfold graph_hdr in Hh.
  apply app_inj_len in Hh as [E1 Hh]; [|by rewrite !length_to_be].
  apply app_inj_len in Hh as [E2 Hh]; [|by rewrite !length_to_be].
  apply app_inj_len in Hh as [E3 Hh]; [|done].
  apply app_inj_len in Hh as [E4 Hh]; [|done].
  apply be64_inj in E3; [|done..]. apply be64_inj in E4; [|done..].
  split_and!; [|done..]. by destruct und, und'.
Qed.

Lemma good_file_len und n l p : wf_platform p ->
  is_slice p (graph_file und n (N.of_nat (length l)) l) -> N.of_nat (length l) < two64.
Proof.
  intros Hp [_ Hs]. rewrite graph_file_hdr, app_length, length_enc_pairs in Hs.
  pose proof (wf_usize_max p Hp). lia.
Qed.

Lemma bound_u64 n l : n < two64 -> Forall (fun '(u, v) => u < n /\ v < n) l ->
  Forall (fun '(u, v) => u < two64 /\ v < two64) l.
Proof. intros Hn H. eapply Forall_impl; [exact H|]. intros [u v]. lia. Qed.

Lemma graph_try_from_good p und n l : wf_platform p ->
  is_slice p (graph_file und n (N.of_nat (length l)) l) -> good_file und n l ->
  graph_try_from p (graph_file und n (N.of_nat (length l)) l) = Ret (Ok (decoded und n l)).
Proof.
  intros Hp Hs Hg.
  destruct (graph_try_from_spec p _ Hp Hs) as [(e & He & Hno)|(und' & n' & l' & Heq & Hg' & Hok)].
  - exfalso. by eapply Hno.
  - rewrite Hok. assert (Hs' := Hs). rewrite Heq in Hs'.
    apply graph_file_inj in Heq as (-> & -> & _ & ->); [done| | | | | |];
      try (by eapply good_file_len); try apply Hg; try apply Hg';
      (eapply bound_u64; [|apply Hg || apply Hg']; apply Hg || apply Hg').
Qed.

Lemma graph_file_bytes und n cnt l : Forall is_byte (graph_file und n cnt l).
Proof.
  unfold graph_file. repeat (apply Forall_app; split); try apply be64_bytes;
    try (repeat constructor; fail).
  - repeat constructor. destruct und; done.
  - apply enc_pairs_bytes.
Qed.

Lemma length_graph_file und n cnt l :
  length (graph_file und n cnt l) = (26 + 16 * length l)%nat.
Proof. by rewrite graph_file_hdr, app_length, length_graph_hdr, length_enc_pairs. Qed.

Lemma items_card o g : graph_inv g ->
  has_card (fun '(u, v) => does_edge_exist g u v = true) (N.of_nat (length (graph_items o g))).
Proof.
  intros Hi. eapply has_card_ext; [|apply has_card_list, NoDup_adj_items, Hi].
  intros [u v]. rewrite exists_has. unfold has. by rewrite <- (elem_of_adj_items o) by apply Hi.
Qed.

Lemma items_good o g : graph_inv g -> good_file (g_und g) (vertex_count g) (graph_items o g).
Proof.
  intros Hi. constructor.
  - by apply vc_u64.
  - apply Forall_forall. intros [u v] Hin. apply has_bound; [done|].
    unfold has. unfold graph_items in Hin. by rewrite elem_of_adj_items in Hin by apply Hi.
  - eapply has_card_ext; [|by apply items_card]. intros [u v]. rewrite exists_has.
    unfold described. simpl. unfold graph_items.
    rewrite !(elem_of_adj_items o) by apply Hi. fold (has g u v) (has g v u).
    split; [by left|]. intros [H|[Hu H]]; [done|]. by apply (gi_sym g Hi Hu).
Qed.

Lemma graph_round_trip p o g bytes k : wf_platform p -> graph_inv g ->
  has_card (fun '(u, v) => does_edge_exist g u v = true) k -> k < two64 ->
  graph_to_bytes p o g = Ok bytes ->
  is_slice p bytes /\ forall p', wf_platform p' -> is_slice p' bytes ->
  exists g', graph_try_from p' bytes = Ret (Ok g') /\ graph_inv g' /\ same_graph g g'.
Proof.
  intros Hp Hi Hk Hk64 Hb. pose proof (graph_to_bytes_alloc p o g bytes Hp Hb) as Ha.
  apply graph_to_bytes_file in Hb.
  assert (k = N.of_nat (length (graph_items o g))) as Hlen
    by (eapply has_card_unique; [exact Hk|by apply items_card]).
  assert (edge_count g = N.of_nat (length (graph_items o g))) as Hec.
  { rewrite (edge_count_card g k) by done. rewrite N.mod_small by done. done. }
  rewrite Hec in Hb, Ha.
  assert (is_slice p bytes) as Hs.
  { split; [rewrite Hb; apply graph_file_bytes|]. rewrite Hb, length_graph_file.
    pose proof (wf_alloc p Hp _ Ha). lia. }
  split; [done|]. clear Hs. intros p' Hp' Hs. subst bytes.
  pose proof (items_good o g Hi) as Hg.
  eexists. split; [by apply graph_try_from_good|].
  destruct (decoded_facts (g_und g) (vertex_count g) (graph_items o g))
    as (Hi' & Hu' & Hv' & Hh'); [apply Hg..|].
  split; [done|]. apply same_graph_intro; [done|done|by rewrite Hu'|by rewrite Hv'|].
  intros u v. rewrite Hh'. unfold described, graph_items. simpl.
  rewrite !(elem_of_adj_items o) by apply Hi. fold (has g u v) (has g v u).
  split; [by left|]. intros [H|[Hu H]]; [done|]. by apply (gi_sym g Hi Hu).
Qed.

Lemma graph_no_extension p bytes rest g g' : wf_platform p ->
  is_slice p bytes -> is_slice p (bytes ++ rest) ->
  graph_try_from p bytes = Ret (Ok g) -> graph_try_from p (bytes ++ rest) = Ret (Ok g') ->
  rest = [].
Proof.
  intros Hp Hs Hs' H H'.
  apply graph_try_from_ok_inv in H as (und & n & l & -> & Hg & _); [|done..].
  apply graph_try_from_ok_inv in H' as (und' & n' & l' & Heq & Hg' & _); [|done..].
  pose proof (good_file_len _ _ _ p Hp Hs) as Hl. assert (Hs2 := Hs'). rewrite Heq in Hs2.
  pose proof (good_file_len _ _ _ p Hp Hs2) as Hl'.
  assert (N.of_nat (length l) = N.of_nat (length l')) as Hll.
  { assert (Heq' := Heq). rewrite !graph_file_hdr, <- app_assoc in Heq'.
    apply app_inj_len in Heq' as [Hh _]; [|by rewrite !length_graph_hdr].
    unfold graph_hdr in Hh.
    apply app_inj_len in Hh as [_ Hh]; [|by rewrite !length_to_be].
    apply app_inj_len in Hh as [_ Hh]; [|by rewrite !length_to_be].
    apply app_inj_len in Hh as [_ Hh]; [|done].
    apply app_inj_len in Hh as [E4 _]; [|done].
    by apply be64_inj in E4. }
  apply (f_equal length) in Heq. rewrite app_length, !length_graph_file in Heq.
  destruct rest; [done|]. simpl in Heq. lia.
Qed.
