(** Encoding and decoding of compressed graphs. *)
From Coq Require Import Ascii String.
From Verif Require Import Base HashIter HashIterProofs F64 Numeric Adj Sq Standard Spec Api
  Compressed AdjProofs SqProofs GraphProofs PoolProofs BitsProofs KeepTable CompressProofs
  BytesProofs.
Local Arguments N.mul : simpl never.
Local Arguments N.add : simpl never.

(** ** Encoding *)

Lemma fold_bytes_triples l acc :
  fold_left (fun buffer '(entry, col, row) =>
     buffer ++ to_be_bytes 8 entry ++ to_be_bytes 8 col ++ to_be_bytes 8 row) l acc
  = acc ++ enc_triples l.
Proof.
  revert acc. induction l as [|[[w u] v] l IH]; intros acc; cbn [fold_left].
  - unfold enc_triples. simpl. by rewrite app_nil_r.
  - rewrite IH. unfold enc_triples. rewrite bind_cons, !to_be_be64. by rewrite !app_assoc.
Qed.

Lemma cgraph_to_bytes_file p o g bytes :
  cgraph_to_bytes p o g = Ok bytes ->
  bytes = cgraph_file (cg_und g) (sq_dim (cg_mat g)) (sq_cnt (cg_mat g)) (cg_edge_count g)
            (cg_vertex_count g) (cg_level g) (sq_items o (cg_mat g)).
Proof.
  unfold cgraph_to_bytes. destruct (cgraph_bytes_size p g); simpl; [|done].
  destruct (can_alloc p a); [|done]. intros [= <-].
  rewrite fold_bytes_triples. unfold cgraph_file. rewrite !app_assoc.
  rewrite <- !to_be_be64. done.
Qed.

Lemma cgraph_bytes_size_eq p g :
  wf_platform p ->
  cgraph_bytes_size p g =
  if 42 + 24 * sq_cnt (cg_mat g) <=? usize_max p then Ok (42 + 24 * sq_cnt (cg_mat g))
  else Err (CapacityOverflow "CompressedGraph byte size overflowed").
Proof.
  intros [Hmin Hmax _]. unfold cgraph_bytes_size, usize_try_from, checked_mulU, checked_addU,
    COMPRESSED_GRAPH_BYTES_HEADER_SIZE, sq_entry_count.
  set (k := sq_cnt (cg_mat g)).
  destruct (N.leb_spec (42 + 24 * k) (usize_max p)).
  - destruct (N.leb_spec k (usize_max p)); [|lia]. simpl.
    destruct (N.leb_spec (k * 3) (usize_max p)); [|lia]. simpl.
    destruct (N.leb_spec (k * 3 * 8) (usize_max p)); [|lia]. simpl.
    destruct (N.leb_spec (42 + k * 3 * 8) (usize_max p)); [|lia]. simpl. f_equal. lia.
  - destruct (N.leb_spec k (usize_max p)); simpl; [|done].
    destruct (N.leb_spec (k * 3) (usize_max p)); simpl; [|done].
    destruct (N.leb_spec (k * 3 * 8) (usize_max p)); simpl; [|done].
    destruct (N.leb_spec (42 + k * 3 * 8) (usize_max p)); [lia|]. done.
Qed.

Lemma cgraph_to_bytes_ok p o g :
  wf_platform p -> can_alloc p (42 + 24 * sq_cnt (cg_mat g)) = true ->
  cgraph_to_bytes p o g =
    Ok (cgraph_file (cg_und g) (sq_dim (cg_mat g)) (sq_cnt (cg_mat g)) (cg_edge_count g)
          (cg_vertex_count g) (cg_level g) (sq_items o (cg_mat g))).
Proof.
  intros Hp Ha. destruct (cgraph_to_bytes p o g) as [bytes|e] eqn:E.
  - f_equal. by apply cgraph_to_bytes_file in E.
  - unfold cgraph_to_bytes in E. rewrite cgraph_bytes_size_eq in E by done.
    pose proof (wf_alloc p Hp _ Ha).
    destruct (N.leb_spec (42 + 24 * sq_cnt (cg_mat g)) (usize_max p)); [|lia].
    simpl in E. by rewrite Ha in E.
Qed.

Lemma cgraph_to_bytes_alloc p o g bytes :
  wf_platform p -> cgraph_to_bytes p o g = Ok bytes ->
  can_alloc p (42 + 24 * sq_cnt (cg_mat g)) = true.
Proof.
  intros Hp. unfold cgraph_to_bytes. rewrite cgraph_bytes_size_eq by done.
  destruct (_ <=? _); simpl; [|done]. by destruct (can_alloc p _).
Qed.

(** ** Bit validation *)

Definition bit_ok (w c r n i : N) : bool :=
  negb (N.testbit w i) || ((8 * c + i mod 8 <? n) && (8 * r + i / 8 <? n)).

Lemma validate_bit_spec w c r n i : n < two64 -> i < 64 ->
  if bit_ok w c r n i then validate_bit w c r n i = Ok tt
  else exists e, validate_bit w c r n i = Err e.
Proof.
  intros Hn Hi. unfold bit_ok, validate_bit. rewrite shiftr_land_0.
  destruct (N.testbit w i); cbn [negb orb]; [|done].
  unfold COMPRESSION_BLOCK_DIMENSION, checked_mul64, checked_add64.
  rewrite !(N.mul_comm _ 8).
  pose proof (N.le_0_l (i mod 8)). pose proof (N.le_0_l (i / 8)).
  generalize dependent (i mod 8). generalize dependent (i / 8). intros y Hy x Hx.
  destruct (N.ltb_spec (8 * c + x) n); cbn [andb].
  - destruct (N.ltb_spec (8 * c) two64); [|lia]. simpl.
    destruct (N.ltb_spec (8 * c + x) two64); [|lia]. simpl.
    destruct (N.leb_spec n (8 * c + x)); [lia|]. cbn [orb].
    destruct (N.ltb_spec (8 * r + y) n).
    + destruct (N.ltb_spec (8 * r) two64); [|lia]. simpl.
      destruct (N.ltb_spec (8 * r + y) two64); [|lia]. simpl.
      destruct (N.leb_spec n (8 * r + y)); [lia|]. done.
    + destruct (N.ltb_spec (8 * r) two64); simpl; [|eauto].
      destruct (N.ltb_spec (8 * r + y) two64); simpl; [|eauto].
      destruct (N.leb_spec n (8 * r + y)); [|lia]. eauto.
  - destruct (N.ltb_spec (8 * c) two64); simpl; [|eauto].
    destruct (N.ltb_spec (8 * c + x) two64); simpl; [|eauto].
    destruct (N.leb_spec n (8 * c + x)); [|lia]. cbn [orb].
    destruct (N.ltb_spec (8 * r) two64); simpl; [|eauto].
    destruct (N.ltb_spec (8 * r + y) two64); simpl; eauto.
Qed.

Lemma validate_err_fold w c r n l e :
  fold_left (fun acc bit => rbind acc (fun _ => validate_bit w c r n bit)) l (Err e) = Err e.
Proof. by induction l. Qed.

Definition entry_ok (n : N) (item : N * N * N) : bool :=
  let '(w, c, r) := item in forallb (bit_ok w c r n) (range 64).

Lemma validate_spec w c r n : n < two64 ->
  if entry_ok n (w, c, r) then validate_compressed_entry_bounds w c r n = Ok tt
  else exists e, validate_compressed_entry_bounds w c r n = Err e.
Proof.
  intros Hn. unfold entry_ok, validate_compressed_entry_bounds.
  assert (forall i, i ∈ range 64 -> i < 64) as Hr by (intros i; apply elem_of_range).
  induction (range 64) as [|i l IH]; [done|].
  cbn [forallb fold_left]. pose proof (validate_bit_spec w c r n i Hn) as Hv.
  destruct (bit_ok w c r n i); cbn [andb].
  - cbn [rbind]. rewrite Hv by (apply Hr; left). apply IH. intros j Hj. apply Hr. by right.
  - destruct Hv as [e He]; [apply Hr; left|]. cbn [rbind]. rewrite He.
    exists e. apply validate_err_fold.
Qed.

Lemma entry_ok_edges n w c r :
  entry_ok n (w, c, r) = true <-> forall u v, (u, v) ∈ entry_edges (w, c, r) -> u < n /\ v < n.
Proof.
  unfold entry_ok. rewrite forallb_forall. split.
  - intros H u v Hin. unfold entry_edges in Hin.
    apply elem_of_list_fmap in Hin as (i & Heq & Hin). apply pair_equal_spec in Heq as [-> ->].
    apply elem_of_list_filter in Hin as [Hb Hi]. apply elem_of_list_In, H in Hi.
    unfold bit_ok in Hi. rewrite Hb in Hi. cbn [negb orb] in Hi.
    apply andb_true_iff in Hi as [? ?]. by rewrite <- !N.ltb_lt.
  - intros H i Hi. apply elem_of_list_In in Hi. unfold bit_ok.
    destruct (N.testbit w i) eqn:Eb; [|done]. cbn [negb orb].
    apply andb_true_iff. rewrite !N.ltb_lt. apply H. unfold entry_edges.
    apply elem_of_list_fmap. exists i. split; [done|]. by apply elem_of_list_filter.
Qed.

(** ** The reading loop *)

Lemma c_read_be_at p pre w post off k :
  is_slice p (pre ++ w ++ post) -> off = N.of_nat (length pre) -> k = length w ->
  c_read_be p k (pre ++ w ++ post) off = Ok (from_be_bytes w).
Proof.
  intros [_ Hlen] -> ->. unfold c_read_be, checked_addU.
  rewrite !app_length in Hlen.
  destruct (N.leb_spec (N.of_nat (length pre) + N.of_nat (length w)) (usize_max p)); [|lia].
  simpl. by rewrite slice_get_at.
Qed.

Definition triple_ok (dim n : N) (item : N * N * N) : bool :=
  let '(w, c, r) := item in
  negb (w =? 0) && (c <? dim) && (r <? dim) && entry_ok n (w, c, r).

Lemma cgraph_read_loop_spec p fuel pre l dim n b parsed expected :
  is_slice p (pre ++ enc_triples l) -> n < two64 -> parsed < two64 ->
  Forall (fun '(w, u, v) => w < two64 /\ u < two64 /\ v < two64) l ->
  expected = N.of_nat (length (pre ++ enc_triples l)) -> (length l <= fuel)%nat ->
  if forallb (triple_ok dim n) l && (parsed + ones_total l <? two64)
  then cgraph_read_loop p fuel (pre ++ enc_triples l) expected dim n (N.of_nat (length pre))
         b parsed = Ret (Ok (add_entries l b, parsed + ones_total l))
  else exists e, cgraph_read_loop p fuel (pre ++ enc_triples l) expected dim n
         (N.of_nat (length pre)) b parsed = Ret (Err e).
Proof.
  revert fuel pre b parsed.
  induction l as [|[[w u] v] l IH]; intros fuel pre b parsed Hs Hn Hpar Hl Hexp Hfuel.
  - unfold enc_triples in *. simpl in *. rewrite app_nil_r in *. subst expected.
    rewrite N.add_0_r. destruct (N.ltb_spec parsed two64); [|lia].
    destruct fuel; cbn [cgraph_read_loop]; rewrite N.ltb_irrefl; done.
  - apply Forall_cons in Hl as [(Hw & Hu & Hv) Hl].
    destruct fuel as [|fuel]; [simpl in Hfuel; lia|].
    assert (pre ++ enc_triples ((w, u, v) :: l)
            = pre ++ be64 w ++ be64 u ++ be64 v ++ enc_triples l) as Heq.
    { unfold enc_triples. by rewrite bind_cons, <- !app_assoc. }
    rewrite Heq in *.
    assert (N.of_nat (length pre) + 24 <= expected) as Hlt.
    { rewrite Hexp, !app_length, !length_be64. lia. }
    assert (expected <= usize_max p) as Hmax.
    { destruct Hs as [_ Hs]. lia. }
    cbn [cgraph_read_loop].
    destruct (N.ltb_spec (N.of_nat (length pre)) expected); [|lia].
    rewrite (c_read_be_at p pre (be64 w)) by done. rewrite from_be64 by done. cbn [orbind].
    unfold usize_add.
    destruct (N.leb_spec (N.of_nat (length pre) + 8) (usize_max p)); [|lia]. cbn [obind].
    assert (pre ++ be64 w ++ be64 u ++ be64 v ++ enc_triples l
            = (pre ++ be64 w) ++ be64 u ++ be64 v ++ enc_triples l)
      as Heq2 by (by rewrite <- app_assoc).
    rewrite Heq2 in *.
    rewrite (c_read_be_at p (pre ++ be64 w) (be64 u));
      [|done|rewrite app_length, length_be64; lia|done].
    rewrite from_be64 by done. cbn [orbind].
    destruct (N.leb_spec (N.of_nat (length pre) + 8 + 8) (usize_max p)); [|lia]. cbn [obind].
    assert ((pre ++ be64 w) ++ be64 u ++ be64 v ++ enc_triples l
            = ((pre ++ be64 w) ++ be64 u) ++ be64 v ++ enc_triples l)
      as Heq3 by (by rewrite <- !app_assoc).
    rewrite Heq3 in *.
    rewrite (c_read_be_at p ((pre ++ be64 w) ++ be64 u) (be64 v));
      [|done|rewrite !app_length, !length_be64; lia|done].
    rewrite from_be64 by done. cbn [orbind].
    destruct (N.leb_spec (N.of_nat (length pre) + 8 + 8 + 8) (usize_max p)); [|lia]. cbn [obind].
    rewrite !(N.leb_antisym _ dim), ones_total_cons.
    cbn [forallb]. unfold triple_ok at 1.
    destruct (N.eqb_spec w 0); cbn [negb andb]; [eauto|].
    destruct (N.ltb_spec u dim); cbn [negb orb andb]; [|eauto].
    destruct (N.ltb_spec v dim); cbn [negb orb andb]; [|eauto].
    pose proof (validate_spec w u v n Hn) as Hval.
    destruct (entry_ok n (w, u, v)); cbn [andb].
    2:{ destruct Hval as [e ->]. cbn [orbind]. eauto. }
    rewrite Hval. cbn [orbind]. unfold checked_add64.
    destruct (N.ltb_spec (parsed + count_ones w) two64) as [Hp1|Hp1]; cbn [ok_or orbind].
    2:{ destruct (forallb _ l); cbn [andb]; [|eauto].
        destruct (N.ltb_spec (parsed + (count_ones w + ones_total l)) two64); [lia|]. eauto. }
    assert (((pre ++ be64 w) ++ be64 u) ++ be64 v ++ enc_triples l
            = (((pre ++ be64 w) ++ be64 u) ++ be64 v) ++ enc_triples l)
      as Heq4 by (by rewrite <- !app_assoc).
    rewrite Heq4 in *.
    replace (N.of_nat (length pre) + 8 + 8 + 8)
      with (N.of_nat (length (((pre ++ be64 w) ++ be64 u) ++ be64 v)))
      by (rewrite !app_length, !length_be64; lia).
    rewrite N.add_assoc.
    apply IH; [done|done|done|done|done|]. simpl in Hfuel. lia.
Qed.

(** ** The header *)

Definition cgraph_hdr (magic ver dim cnt ec n f l : N) : list N :=
  to_be_bytes 4 magic ++ to_be_bytes 4 ver ++ be64 dim ++ be64 cnt ++ be64 ec ++ be64 n
  ++ [f] ++ [l].

Lemma length_cgraph_hdr magic ver dim cnt ec n f l :
  length (cgraph_hdr magic ver dim cnt ec n f l) = 42%nat.
Proof. unfold cgraph_hdr. rewrite !app_length, !length_to_be. done. Qed.

Lemma cgraph_file_hdr (und : bool) dim cnt ec n level l :
  cgraph_file und dim cnt ec n level l =
  cgraph_hdr COMPRESSED_GRAPH_BYTES_MAGIC_NUMBER COMPRESSED_GRAPH_BYTES_VERSION dim cnt ec n
    (if und then 1 else 0) level ++ enc_triples l.
Proof. unfold cgraph_file, cgraph_hdr. rewrite <- !app_assoc. done. Qed.

Lemma split_cgraph_hdr bytes : Forall is_byte bytes -> (42 <= length bytes)%nat ->
  exists magic ver dim cnt ec n f l rest,
    bytes = cgraph_hdr magic ver dim cnt ec n f l ++ rest /\
    magic < 2 ^ 32 /\ ver < 2 ^ 32 /\ dim < two64 /\ cnt < two64 /\ ec < two64 /\ n < two64 /\
    is_byte f /\ is_byte l /\ Forall is_byte rest.
Proof.
  intros H Hl.
  destruct (split_be32 bytes H) as (magic & r1 & -> & Hm & H1); [lia|].
  rewrite app_length, length_to_be in Hl.
  destruct (split_be32 r1 H1) as (ver & r2 & -> & Hv & H2); [lia|].
  rewrite app_length, length_to_be in Hl.
  destruct (split_be64 r2 H2) as (dim & r3 & -> & Hd & H3); [lia|].
  rewrite app_length, length_be64 in Hl.
  destruct (split_be64 r3 H3) as (cnt & r4 & -> & Hc & H4); [lia|].
  rewrite app_length, length_be64 in Hl.
  destruct (split_be64 r4 H4) as (ec & r5 & -> & He & H5); [lia|].
  rewrite app_length, length_be64 in Hl.
  destruct (split_be64 r5 H5) as (n & r6 & -> & Hn & H6); [lia|].
  rewrite app_length, length_be64 in Hl.
  destruct (split_byte r6 H6) as (f & r7 & -> & Hf & H7); [lia|].
  rewrite app_length in Hl. simpl in Hl.
  destruct (split_byte r7 H7) as (w & r8 & -> & Hw & H8); [lia|].
  exists magic, ver, dim, cnt, ec, n, f, w, r8. split_and!; [|done..].
  unfold cgraph_hdr. by rewrite <- !app_assoc.
Qed.

Lemma cgraph_hdr_inj magic ver dim cnt ec n f l magic' ver' dim' cnt' ec' n' f' l' :
  magic < 2 ^ 32 -> ver < 2 ^ 32 -> dim < two64 -> cnt < two64 -> ec < two64 -> n < two64 ->
  magic' < 2 ^ 32 -> ver' < 2 ^ 32 -> dim' < two64 -> cnt' < two64 -> ec' < two64 ->
  n' < two64 ->
  cgraph_hdr magic ver dim cnt ec n f l = cgraph_hdr magic' ver' dim' cnt' ec' n' f' l' ->
  magic = magic' /\ ver = ver' /\ dim = dim' /\ cnt = cnt' /\ ec = ec' /\ n = n' /\ f = f' /\
  l = l'.
Proof.
  intros Hm Hv Hd Hc He Hn Hm' Hv' Hd' Hc' He' Hn' Hh. unfold cgraph_hdr in Hh.
  apply app_inj_len in Hh as [E1 Hh]; [|by rewrite !length_to_be].
  apply app_inj_len in Hh as [E2 Hh]; [|by rewrite !length_to_be].
  apply app_inj_len in Hh as [E3 Hh]; [|done].
  apply app_inj_len in Hh as [E4 Hh]; [|done].
  apply app_inj_len in Hh as [E5 Hh]; [|done].
  apply app_inj_len in Hh as [E6 Hh]; [|done].
  injection Hh as -> ->.
  apply be64_inj in E3; [|done..]. apply be64_inj in E4; [|done..].
  apply be64_inj in E5; [|done..]. apply be64_inj in E6; [|done..].
  apply (f_equal from_be_bytes) in E1. apply (f_equal from_be_bytes) in E2.
  rewrite !from_to_be in E1, E2.
  rewrite !N.mod_small in E1 by done. rewrite !N.mod_small in E2 by done. done.
Qed.

Lemma cgraph_expected_size_eq p cnt : wf_platform p ->
  cgraph_expected_size p cnt =
  if 24 * cnt + 42 <=? usize_max p then Ok (24 * cnt + 42)
  else Err (InvalidFormat "CompressedGraph byte size overflowed").
Proof.
  intros [Hmin _ _]. unfold cgraph_expected_size, usize_try_from, checked_mulU, checked_addU,
    COMPRESSED_GRAPH_BYTES_HEADER_SIZE.
  destruct (N.leb_spec (24 * cnt + 42) (usize_max p)).
  - destruct (N.leb_spec cnt (usize_max p)); [|lia]. simpl.
    destruct (N.leb_spec (cnt * 3) (usize_max p)); [|lia]. simpl.
    destruct (N.leb_spec (cnt * 3 * 8) (usize_max p)); [|lia]. simpl.
    destruct (N.leb_spec (cnt * 3 * 8 + 42) (usize_max p)); [|lia]. simpl. f_equal. lia.
  - destruct (N.leb_spec cnt (usize_max p)); simpl; [|done].
    destruct (N.leb_spec (cnt * 3) (usize_max p)); simpl; [|done].
    destruct (N.leb_spec (cnt * 3 * 8) (usize_max p)); simpl; [|done].
    destruct (N.leb_spec (cnt * 3 * 8 + 42) (usize_max p)); [lia|]. done.
Qed.

(** What the decoder computes on a header followed by a body. *)
Definition cgraph_decode (p : platform) (magic ver dim cnt ec n f l : N) (len : N)
    (body : outcome (result (cgraph * N))) : outcome (result cgraph) :=
    if negb (magic =? COMPRESSED_GRAPH_BYTES_MAGIC_NUMBER)
    then Ret (Err (InvalidFormat "Incorrect magic number"))
    else if ver <? COMPRESSED_GRAPH_BYTES_VERSION
    then Ret (Err (InvalidFormat "Outdated CompressedGraph version"))
    else if negb (ver =? COMPRESSED_GRAPH_BYTES_VERSION)
    then Ret (Err (InvalidFormat "Unrecognized CompressedGraph version"))
    else if 1 <? f
    then Ret (Err (InvalidFormat "Invalid compressed graph direction flag"))
    else if negb ((1 <=? l) && (l <=? 64))
    then Ret (Err (InvalidFormat "Invalid compression level"))
    else if negb (dim =? compressed_matrix_dimension n)
    then Ret (Err (InvalidFormat
           "CompressedGraph matrix dimension does not match vertex count"))
    else if (dim =? 0) && negb (cnt =? 0)
    then Ret (Err (InvalidFormat
           "CompressedGraph with zero matrix dimension cannot contain entries"))
    else
      orbind (Ret (cgraph_expected_size p cnt)) (fun expected =>
      if len <? expected
      then Ret (Err (InvalidFormat
             "Slice is too short to contain all expected graph edges"))
      else if expected <? len
      then Ret (Err (InvalidFormat
             "Slice is too long represent the expected graph edges"))
      else
        orbind body
          (fun '(b, parsed) =>
        if negb (parsed =? ec)
        then Ret (Err (InvalidFormat "CompressedGraph edge count does not match header"))
        else Ret (Ok (builder_finish b)))).

Lemma cgraph_try_from_eq p magic ver dim cnt ec n f l rest :
  wf_platform p -> is_slice p (cgraph_hdr magic ver dim cnt ec n f l ++ rest) ->
  magic < 2 ^ 32 -> ver < 2 ^ 32 -> dim < two64 -> cnt < two64 -> ec < two64 -> n < two64 ->
  cgraph_try_from p (cgraph_hdr magic ver dim cnt ec n f l ++ rest) =
  cgraph_decode p magic ver dim cnt ec n f l (42 + N.of_nat (length rest))
    (cgraph_read_loop p (42 + length rest) (cgraph_hdr magic ver dim cnt ec n f l ++ rest)
       (42 + N.of_nat (length rest)) dim n 42 (builder_new (f =? 1) n l) 0).
Proof.
  intros Hp Hs Hm Hv Hd Hc He Hn. unfold cgraph_try_from.
  assert (length (cgraph_hdr magic ver dim cnt ec n f l ++ rest) = (42 + length rest)%nat)
    as Hlen by (by rewrite app_length, length_cgraph_hdr).
  rewrite Hlen. unfold COMPRESSED_GRAPH_BYTES_HEADER_SIZE.
  destruct (N.ltb_spec (N.of_nat (42 + length rest)) 42); [lia|].
  set (bytes := cgraph_hdr magic ver dim cnt ec n f l ++ rest) in *.
  assert (forall pre w post off k x, bytes = pre ++ w ++ post -> off = N.of_nat (length pre) ->
    k = length w -> from_be_bytes w = x -> c_read_be p k bytes off = Ok x) as Hread.
  { intros pre w post off k x Hb Ho Hk Hx. rewrite Hb in Hs |- *.
    rewrite (c_read_be_at p pre w post) by done. by rewrite Hx. }
  assert (c_read_be p 4 bytes 0 = Ok magic) as ->.
  { eapply (Hread [] (to_be_bytes 4 magic)); [unfold bytes, cgraph_hdr; by rewrite <- !app_assoc| | |];
      [done|done|]. rewrite from_to_be. by apply N.mod_small. }
  assert (c_read_be p 4 bytes 4 = Ok ver) as ->.
  { eapply (Hread (to_be_bytes 4 magic) (to_be_bytes 4 ver));
      [unfold bytes, cgraph_hdr; by rewrite <- !app_assoc| | |];
      [done|done|]. rewrite from_to_be. by apply N.mod_small. }
  assert (c_read_be p 8 bytes 8 = Ok dim) as ->.
  { eapply (Hread (to_be_bytes 4 magic ++ to_be_bytes 4 ver) (be64 dim));
      [unfold bytes, cgraph_hdr; by rewrite <- !app_assoc| | |]; [done|done|]. by apply from_be64. }
  assert (c_read_be p 8 bytes 16 = Ok cnt) as ->.
  { eapply (Hread (to_be_bytes 4 magic ++ to_be_bytes 4 ver ++ be64 dim) (be64 cnt));
      [unfold bytes, cgraph_hdr; by rewrite <- !app_assoc| | |]; [done|done|]. by apply from_be64. }
  assert (c_read_be p 8 bytes 24 = Ok ec) as ->.
  { eapply (Hread (to_be_bytes 4 magic ++ to_be_bytes 4 ver ++ be64 dim ++ be64 cnt) (be64 ec));
      [unfold bytes, cgraph_hdr; by rewrite <- !app_assoc| | |]; [done|done|]. by apply from_be64. }
  assert (c_read_be p 8 bytes 32 = Ok n) as ->.
  { eapply (Hread (to_be_bytes 4 magic ++ to_be_bytes 4 ver ++ be64 dim ++ be64 cnt ++ be64 ec)
      (be64 n));
      [unfold bytes, cgraph_hdr; by rewrite <- !app_assoc| | |]; [done|done|]. by apply from_be64. }
  assert (byte_at bytes 40 = Ret f) as ->.
  { assert (bytes = (to_be_bytes 4 magic ++ to_be_bytes 4 ver ++ be64 dim ++ be64 cnt ++ be64 ec
      ++ be64 n) ++ [f] ++ ([l] ++ rest)) as Hb
      by (unfold bytes, cgraph_hdr; by rewrite <- !app_assoc).
    rewrite Hb. by apply byte_at_at. }
  assert (byte_at bytes 41 = Ret l) as ->.
  { assert (bytes = (to_be_bytes 4 magic ++ to_be_bytes 4 ver ++ be64 dim ++ be64 cnt ++ be64 ec
      ++ be64 n ++ [f]) ++ [l] ++ rest) as Hb
      by (unfold bytes, cgraph_hdr; by rewrite <- !app_assoc).
    rewrite Hb. by apply byte_at_at. }
  cbn [orbind obind]. unfold cgraph_decode.
  destruct (negb (magic =? COMPRESSED_GRAPH_BYTES_MAGIC_NUMBER)); [done|].
  destruct (ver <? COMPRESSED_GRAPH_BYTES_VERSION); [done|].
  destruct (negb (ver =? COMPRESSED_GRAPH_BYTES_VERSION)); [done|].
  destruct (1 <? f); [done|].
  destruct (negb ((1 <=? l) && (l <=? 64))); [done|].
  destruct (negb (dim =? compressed_matrix_dimension n)); [done|].
  destruct ((dim =? 0) && negb (cnt =? 0)); [done|].
  rewrite cgraph_expected_size_eq by done.
  destruct (N.leb_spec (24 * cnt + 42) (usize_max p)); cbn [orbind rbind]; [|done].
  replace (N.of_nat (42 + length rest)) with (42 + N.of_nat (length rest)) by lia.
  destruct (N.ltb_spec (42 + N.of_nat (length rest)) (24 * cnt + 42)); [done|].
  destruct (N.ltb_spec (24 * cnt + 42) (42 + N.of_nat (length rest))); [done|].
  replace (24 * cnt + 42) with (42 + N.of_nat (length rest)) by lia.
  done.
Qed.

(** ** The accepted files *)

Record good_cfile (n level : N) (l : list (N * N * N)) : Prop := GoodCfile {
  gc_n : n < two64;
  gc_level : 1 <= level <= 64;
  gc_word : Forall (fun '(w, _, _) => w <> 0 /\ w < two64) l;
  gc_key : Forall (fun '(_, c, r) =>
    c < compressed_matrix_dimension n /\ r < compressed_matrix_dimension n) l;
  gc_bits : forall u v, (u, v) ∈ l ≫= entry_edges -> u < n /\ v < n;
  gc_total : ones_total l < two64;
}.

Definition cfile_of (und : bool) (n level : N) (l : list (N * N * N)) : list N :=
  cgraph_file und (compressed_matrix_dimension n) (N.of_nat (length l)) (ones_total l) n level l.

Definition cdecoded (und : bool) (n level : N) (l : list (N * N * N)) : cgraph :=
  add_entries l (builder_new und n level).

Lemma triples_good n level l : n < two64 -> 1 <= level <= 64 ->
  Forall (fun '(w, u, v) => w < two64 /\ u < two64 /\ v < two64) l ->
  forallb (triple_ok (compressed_matrix_dimension n) n) l && (0 + ones_total l <? two64) = true
  <-> good_cfile n level l.
Proof.
  intros Hn Hlev Hall. rewrite N.add_0_l, andb_true_iff, N.ltb_lt, forallb_forall. split.
  - intros [Hok Ht]. constructor; [done|done| | | |done].
    + apply Forall_forall. intros [[w c] r] Hin. rewrite Forall_forall in Hall.
      specialize (Hall _ Hin). simpl in Hall.
      apply elem_of_list_In, Hok in Hin. unfold triple_ok in Hin.
      rewrite !andb_true_iff in Hin. destruct Hin as (((H1 & _) & _) & _).
      apply negb_true_iff, N.eqb_neq in H1. split; [done|]. apply Hall.
    + apply Forall_forall. intros [[w c] r] Hin.
      apply elem_of_list_In, Hok in Hin. unfold triple_ok in Hin.
      rewrite !andb_true_iff, !N.ltb_lt in Hin. naive_solver.
    + intros u v. rewrite elem_of_list_bind. intros ([[w c] r] & Huv & Hin).
      apply elem_of_list_In, Hok in Hin. unfold triple_ok in Hin.
      rewrite !andb_true_iff in Hin. destruct Hin as [_ Hin].
      by apply (proj1 (entry_ok_edges n w c r) Hin).
  - intros [_ _ Hw Hk Hb Ht]. split; [|done]. intros [[w c] r] Hin.
    apply elem_of_list_In in Hin. rewrite Forall_forall in Hw, Hk.
    specialize (Hw _ Hin). specialize (Hk _ Hin). simpl in Hw, Hk. unfold triple_ok.
    rewrite !andb_true_iff, negb_true_iff, N.eqb_neq, !N.ltb_lt.
    split_and!; [apply Hw|apply Hk|apply Hk|].
    apply entry_ok_edges. intros u v Huv. apply Hb. apply elem_of_list_bind. eauto.
Qed.

Lemma good_cfile_u64 n level l : good_cfile n level l ->
  Forall (fun '(w, u, v) => w < two64 /\ u < two64 /\ v < two64) l.
Proof.
  intros [Hn _ Hw Hk _ _]. pose proof (cmd_bound n Hn) as Hc.
  change (2 ^ 61) with 2305843009213693952 in Hc.
  rewrite Forall_forall in Hw, Hk. apply Forall_forall. intros [[w c] r] Hin.
  specialize (Hw _ Hin). specialize (Hk _ Hin). simpl in Hw, Hk. unfold two64 in *. lia.
Qed.

Lemma cmd_u64 n : n < two64 -> compressed_matrix_dimension n < two64.
Proof.
  intros Hn. pose proof (cmd_bound n Hn) as Hc.
  change (2 ^ 61) with 2305843009213693952 in Hc. unfold two64. lia.
Qed.

Lemma cgraph_try_from_spec p bytes :
  wf_platform p -> is_slice p bytes ->
  (exists e, cgraph_try_from p bytes = Ret (Err e) /\
     forall und n level l, bytes = cfile_of und n level l -> ~ good_cfile n level l) \/
  (exists und n level l, bytes = cfile_of und n level l /\ good_cfile n level l /\
     cgraph_try_from p bytes = Ret (Ok (cdecoded und n level l))).
Proof.
  intros Hp Hs. destruct Hs as [Hbytes Hmax] eqn:Es. clear Es. fold (is_slice p bytes) in Hs.
  destruct (decide (42 <= length bytes)%nat) as [Hlen|Hlen].
  2:{ left. unfold cgraph_try_from, COMPRESSED_GRAPH_BYTES_HEADER_SIZE.
      destruct (N.ltb_spec (N.of_nat (length bytes)) 42); [|lia]. eexists. split; [done|].
      intros und n lv l ->. unfold cfile_of in Hlen.
      rewrite cgraph_file_hdr, app_length, length_cgraph_hdr in Hlen. lia. }
  destruct (split_cgraph_hdr bytes Hbytes Hlen)
    as (magic & ver & dim & cnt & ec & n & f & lv & rest & Heq & Hm & Hv & Hd & Hc & He & Hn & Hf
        & Hlv & Hrest).
  assert (length bytes = (42 + length rest)%nat) as Hl
    by (rewrite Heq, app_length, length_cgraph_hdr; lia).
  assert (forall und n' lv' l, bytes = cfile_of und n' lv' l -> good_cfile n' lv' l ->
    magic = COMPRESSED_GRAPH_BYTES_MAGIC_NUMBER /\ ver = COMPRESSED_GRAPH_BYTES_VERSION /\
    dim = compressed_matrix_dimension n' /\ cnt = N.of_nat (length l) /\ ec = ones_total l /\
    n = n' /\ f = (if und then 1 else 0) /\ lv = lv' /\ rest = enc_triples l)
    as Hdet.
  { intros und n' lv' l Hfile Hg. unfold cfile_of in Hfile. rewrite cgraph_file_hdr, Heq in Hfile.
    assert (N.of_nat (length l) < two64) as Hlt.
    { apply (f_equal length) in Hfile.
      rewrite !app_length, !length_cgraph_hdr, length_enc_triples in Hfile.
      pose proof (wf_usize_max p Hp). unfold two64 in *. lia. }
    apply app_inj_len in Hfile as [Hh ->]; [|by rewrite !length_cgraph_hdr].
    pose proof (cmd_u64 n' (gc_n _ _ _ Hg)) as Hd'.
    pose proof (gc_total _ _ _ Hg) as Ht'. pose proof (gc_n _ _ _ Hg) as Hn'.
    apply cgraph_hdr_inj in Hh; [|done..].
    destruct Hh as (? & ? & ? & ? & ? & ? & ? & ?). done. }
  rewrite Heq, (cgraph_try_from_eq p) by (try done; by rewrite <- Heq).
  rewrite <- Heq. unfold cgraph_decode.
  destruct (N.eqb_spec magic COMPRESSED_GRAPH_BYTES_MAGIC_NUMBER) as [->|Hne]; cbn [negb];
    [|left; eexists; split; [done|]; intros ???? H Hg; apply Hdet in H as (? & _); done].
  destruct (N.ltb_spec ver COMPRESSED_GRAPH_BYTES_VERSION) as [Hlt|_];
    [left; eexists; split; [done|]; intros ???? H Hg; apply Hdet in H as (_ & ? & _); [|done]; lia|].
  destruct (N.eqb_spec ver COMPRESSED_GRAPH_BYTES_VERSION) as [->|Hne]; cbn [negb];
    [|left; eexists; split; [done|]; intros ???? H Hg; apply Hdet in H as (_ & ? & _); done].
  destruct (N.ltb_spec 1 f) as [Hf1|Hf1];
    [left; eexists; split; [done|]; intros und ??? H Hg;
     apply Hdet in H as (_ & _ & _ & _ & _ & _ & ? & _); [|done]; destruct und; lia|].
  destruct (N.leb_spec 1 lv) as [Hlv1|Hlv1]; cbn [negb andb];
    [|left; eexists; split; [done|]; intros und ??? H Hg; assert (Hg' := Hg); destruct Hg' as [_ ? _ _ _ _];
     apply Hdet in H as (_ & _ & _ & _ & _ & _ & _ & ? & _); [|done]; lia].
  destruct (N.leb_spec lv 64) as [Hlv64|Hlv64]; cbn [negb andb];
    [|left; eexists; split; [done|]; intros und ??? H Hg; assert (Hg' := Hg); destruct Hg' as [_ ? _ _ _ _];
     apply Hdet in H as (_ & _ & _ & _ & _ & _ & _ & ? & _); [|done]; lia].
  destruct (N.eqb_spec dim (compressed_matrix_dimension n)) as [->|Hne]; cbn [negb];
    [|left; eexists; split; [done|]; intros ???? H Hg;
      apply Hdet in H as (_ & _ & ? & _ & _ & ? & _); [|done]; congruence].
  pose proof (cmd_bound n Hn) as Hcmd.
  destruct (N.eqb_spec (compressed_matrix_dimension n) 0); [lia|]. cbn [andb].
  rewrite cgraph_expected_size_eq by done.
  destruct (N.leb_spec (24 * cnt + 42) (usize_max p)) as [Hsz|Hsz]; cbn [orbind].
  2:{ left. eexists. split; [done|]. intros und n' lv' l H Hg.
      apply Hdet in H as (_ & _ & _ & Hcc & _ & _ & _ & _ & ->); [|done].
      rewrite length_enc_triples in Hl. lia. }
  destruct (N.ltb_spec (42 + N.of_nat (length rest)) (24 * cnt + 42)).
  { left. eexists. split; [done|]. intros und n' lv' l H' Hg.
    apply Hdet in H' as (_ & _ & _ & Hcc & _ & _ & _ & _ & ->); [|done].
    rewrite length_enc_triples in *. lia. }
  destruct (N.ltb_spec (24 * cnt + 42) (42 + N.of_nat (length rest))).
  { left. eexists. split; [done|]. intros und n' lv' l H' Hg.
    apply Hdet in H' as (_ & _ & _ & Hcc & _ & _ & _ & _ & ->); [|done].
    rewrite length_enc_triples in *. lia. }
  destruct (split_triples (N.to_nat cnt) rest Hrest) as (l & -> & Hll & Hall); [lia|].
  pose proof (cgraph_read_loop_spec p (42 + length (enc_triples l))
    (cgraph_hdr COMPRESSED_GRAPH_BYTES_MAGIC_NUMBER COMPRESSED_GRAPH_BYTES_VERSION
       (compressed_matrix_dimension n) cnt ec n f lv)
    l (compressed_matrix_dimension n) n (builder_new (f =? 1) n lv) 0
    (42 + N.of_nat (length (enc_triples l)))) as Hloop.
  rewrite <- Heq, length_cgraph_hdr in Hloop.
  specialize (Hloop Hs Hn eq_refl Hall). change (N.of_nat 42) with 42 in Hloop.
  specialize (Hloop ltac:(lia) ltac:(rewrite length_enc_triples; lia)).
  set (und := f =? 1) in *.
  assert (f = if und then 1 else 0) as Hfu
    by (unfold und; destruct (N.eqb_spec f 1); simpl; lia).
  assert (forall und' n' lv' l', bytes = cfile_of und' n' lv' l' ->
    good_cfile n' lv' l' -> n' = n /\ lv' = lv /\ l' = l /\ ec = ones_total l) as Huniq.
  { intros und' n' lv' l' H' Hg. assert (Hg' := Hg).
    apply Hdet in H' as (_ & _ & _ & Hcc & -> & <- & Hff & -> & Henc); [|done].
    assert (l' = l) as ->; [|done].
    symmetry. apply enc_triples_inj; [done|by eapply good_cfile_u64|done]. }
  pose proof (triples_good n lv l Hn ltac:(lia) Hall) as Hgood.
  destruct (forallb _ l && _).
  2:{ destruct Hloop as [e ->]. cbn [orbind]. left. eexists. split; [done|].
      intros und' n' lv' l' H' Hg. destruct (Huniq _ _ _ _ H' Hg) as (-> & -> & -> & _).
      by apply Hgood in Hg. }
  rewrite Hloop. cbn [orbind]. destruct Hgood as [Hgood _]. specialize (Hgood eq_refl).
  rewrite N.add_0_l.
  destruct (N.eqb_spec (ones_total l) ec) as [Hec|Hec]; cbn [negb].
  - right. exists und, n, lv, l. split; [|done].
    unfold cfile_of. rewrite Heq, cgraph_file_hdr, <- Hfu, Hec. repeat f_equal. lia.
  - left. eexists. split; [done|]. intros und' n' lv' l' H' Hg.
    destruct (Huniq _ _ _ _ H' Hg) as (-> & -> & -> & Hx). congruence.
Qed.

(** ** Consequences *)

Lemma cgraph_try_from_total p bytes : wf_platform p -> is_slice p bytes ->
  exists r, cgraph_try_from p bytes = Ret r.
Proof.
  intros Hp Hs.
  destruct (cgraph_try_from_spec p bytes Hp Hs) as [(e & He & _)|(und & n & lv & l & _ & _ & H)];
    eauto.
Qed.

Lemma cgraph_try_from_ok_inv p bytes g : wf_platform p -> is_slice p bytes ->
  cgraph_try_from p bytes = Ret (Ok g) ->
  exists und n level l, bytes = cfile_of und n level l /\ good_cfile n level l /\
    g = cdecoded und n level l.
Proof.
  intros Hp Hs Hok.
  destruct (cgraph_try_from_spec p bytes Hp Hs) as [(e & He & _)|(und & n & lv & l & ? & ? & H)].
  - congruence.
  - exists und, n, lv, l. split_and!; [done|done|]. congruence.
Qed.

Lemma cfile_inj und n level l und' n' level' l' :
  good_cfile n level l -> good_cfile n' level' l' ->
  N.of_nat (length l) < two64 -> N.of_nat (length l') < two64 ->
  cfile_of und n level l = cfile_of und' n' level' l' ->
  und = und' /\ n = n' /\ level = level' /\ l = l'.
Proof.
  intros Hg Hg' Hl Hl'. unfold cfile_of. rewrite !cgraph_file_hdr. intros H.
  apply app_inj_len in H as [Hh Henc]; [|by rewrite !length_cgraph_hdr].
  apply enc_triples_inj in Henc; [|by eapply good_cfile_u64..].
  apply cgraph_hdr_inj in Hh;
    [|try done; try apply cmd_u64; try apply Hg; try apply Hg'..].
  destruct Hh as (_ & _ & _ & _ & _ & -> & Hf & ->). split_and!; [|done..].
  by destruct und, und'.
Qed.

Lemma cfile_len und n level l p : wf_platform p ->
  is_slice p (cfile_of und n level l) -> N.of_nat (length l) < two64.
Proof.
  intros Hp [_ Hs]. unfold cfile_of in Hs.
  rewrite cgraph_file_hdr, app_length, length_enc_triples in Hs.
  pose proof (wf_usize_max p Hp). lia.
Qed.

Lemma cgraph_try_from_good p und n level l : wf_platform p ->
  is_slice p (cfile_of und n level l) -> good_cfile n level l ->
  cgraph_try_from p (cfile_of und n level l) = Ret (Ok (cdecoded und n level l)).
Proof.
  intros Hp Hs Hg.
  destruct (cgraph_try_from_spec p _ Hp Hs)
    as [(e & He & Hno)|(und' & n' & lv' & l' & Heq & Hg' & Hok)].
  - exfalso. by eapply Hno.
  - rewrite Hok. assert (Hs' := Hs). rewrite Heq in Hs'.
    apply cfile_inj in Heq as (-> & -> & -> & ->); [done|done|done|by eapply cfile_len..].
Qed.

Lemma cgraph_file_bytes und dim cnt ec n level l : is_byte level ->
  Forall is_byte (cgraph_file und dim cnt ec n level l).
Proof.
  intros Hl. unfold cgraph_file. repeat (apply Forall_app; split); try apply be64_bytes;
    try (repeat constructor; fail).
  - repeat constructor. destruct und; done.
  - by repeat constructor.
  - apply enc_triples_bytes.
Qed.

Lemma length_cgraph_file und dim cnt ec n level l :
  length (cgraph_file und dim cnt ec n level l) = (42 + 24 * length l)%nat.
Proof. by rewrite cgraph_file_hdr, app_length, length_cgraph_hdr, length_enc_triples. Qed.

(** *** The decoded graph *)

(** The last entry for a key. *)
Lemma last_write_in (es : list (N * N * N)) c r acc w :
  fold_left (fun acc '(w, c', r') => if decide (c = c' /\ r = r') then Some w else acc)
    es acc = Some w -> (w, c, r) ∈ es \/ acc = Some w.
Proof.
  revert acc. induction es as [|[[w0 c0] r0] es IH]; intros acc; simpl; [by right|].
  intros H. apply IH in H as [H|H]; [left; by right|]. case_decide as Hd; [|by right].
  destruct Hd as [-> ->]. injection H as ->. left. left.
Qed.

Lemma cdecoded_val und n level l c r w : good_cfile n level l ->
  sq_val (cg_mat (cdecoded und n level l)) c r = Some w -> (w, c, r) ∈ l.
Proof.
  intros Hg. unfold cdecoded. rewrite add_entries_val.
  - intros H. apply last_write_in in H as [H|H]; [done|]. by rewrite builder_new_val in H.
  - destruct Hg as [Hn _ Hw Hk _ _]. pose proof (cmd_bound n Hn) as Hc.
    change (2 ^ 61) with 2305843009213693952 in Hc.
    rewrite Forall_forall in Hw, Hk. intros w' c' r' Hin.
    specialize (Hw _ Hin). specialize (Hk _ Hin). simpl in Hw, Hk.
    split; [apply Hw|]. apply both_valid_lt. unfold u64_max. lia.
Qed.

Lemma cdecoded_facts und n level l : good_cfile n level l ->
  let cg := cdecoded und n level l in
  cg_inv cg /\ cg_und cg = und /\ cg_vertex_count cg = n /\ cg_level cg = level /\
  cg_edge_count cg = ones_total l.
Proof.
  intros Hg cg. destruct (add_entries_const l (builder_new und n level)) as (Hvc & Hund & Hlev).
  assert (Hg' := Hg). destruct Hg' as [Hn Hlv Hw Hk Hb Ht].
  simpl in Hvc, Hund, Hlev. fold (cdecoded und n level l) in Hvc, Hund, Hlev.
  fold cg in Hvc, Hund, Hlev.
  rewrite (clamp_level_id _ Hlv) in Hlev.
  assert (sq_inv (cg_mat cg)) as Hsq by apply add_entries_inv, builder_new_inv.
  assert (cg_edge_count cg = ones_total l) as Hec.
  { unfold cg, cdecoded. rewrite add_entries_count by done. simpl. rewrite N.add_0_l.
    unfold u64_max, two64 in *. lia. }
  split_and!; [|done..].
  constructor; [done| | | | | |].
  - intros c r w Hval. apply cdecoded_val in Hval; [|done].
    rewrite Forall_forall in Hw. apply (Hw _ Hval).
  - intros u v Hh. apply (c_has_items plain_order) in Hh; [|done].
    apply elem_of_list_bind in Hh as ([[w c] r] & Hin & Hit).
    apply elem_of_sq_items in Hit; [|done]. apply cdecoded_val in Hit; [|done].
    rewrite Hvc. apply Hb. apply elem_of_list_bind. eauto.
  - rewrite Hvc. apply add_entries_dim; [by apply builder_new_dim|by apply cmd_u64|].
    intros w c r Hin. rewrite Forall_forall in Hk. apply (Hk _ Hin).
  - by rewrite Hvc.
  - rewrite Hlev. done.
  - by rewrite Hec.
Qed.

(** *** Round trip *)

Lemma citems_good o cg : cg_inv cg -> cg_edge_count cg = ones_total (sq_items o (cg_mat cg)) ->
  good_cfile (cg_vertex_count cg) (cg_level cg) (sq_items o (cg_mat cg)).
Proof.
  intros Hi He. constructor.
  - apply Hi.
  - apply Hi.
  - apply Forall_forall. intros [[w c] r] Hin. apply elem_of_sq_items in Hin; [|apply Hi].
    by apply (ci_word cg Hi) in Hin.
  - apply Forall_forall. intros [[w c] r] Hin. apply elem_of_sq_items in Hin; [|apply Hi].
    rewrite <- (ci_dim cg Hi). apply (si_bound _ (ci_sq cg Hi)). eauto.
  - intros u v Hin. apply (ci_bits cg Hi). by apply (c_has_items o); [apply Hi|].
  - rewrite <- He. apply Hi.
Qed.

Lemma c_entry_count o cg : cg_inv cg -> N.of_nat (length (sq_items o (cg_mat cg))) < two64 ->
  sq_cnt (cg_mat cg) = N.of_nat (length (sq_items o (cg_mat cg))).
Proof.
  intros Hi Hl. rewrite (si_cnt _ (ci_sq cg Hi)). rewrite length_sq_items in * by apply Hi.
  by apply N.mod_small.
Qed.

Lemma sq_same_items (m m' : sq N) o o' : sq_inv m -> sq_inv m' ->
  sq_items o m ≡ₚ sq_items o' m' -> forall c r, sq_val m c r = sq_val m' c r.
Proof.
  intros Hi Hi' Hp c r.
  destruct (sq_val m c r) as [w|] eqn:E.
  - apply (elem_of_sq_items o) in E; [|done]. rewrite Hp in E.
    by apply elem_of_sq_items in E.
  - destruct (sq_val m' c r) as [w|] eqn:E'; [|done].
    apply (elem_of_sq_items o') in E'; [|done]. rewrite <- Hp in E'.
    apply elem_of_sq_items in E'; [|done]. congruence.
Qed.

Lemma same_cgraph_intro cg cg' :
  cg_und cg = cg_und cg' -> cg_vertex_count cg = cg_vertex_count cg' ->
  cg_edge_count cg = cg_edge_count cg' -> cg_level cg = cg_level cg' ->
  (forall c r, sq_val (cg_mat cg) c r = sq_val (cg_mat cg') c r) -> same_cgraph cg cg'.
Proof.
  intros Hu Hn He Hl Hv. unfold same_cgraph. split_and!; try done.
  - intros c r. unfold get_compressed_matrix_entry. rewrite !sq_get_val. by rewrite Hv.
  - intros u v. apply eq_true_iff_eq. rewrite !c_exists_has. unfold c_has. by rewrite Hv.
Qed.

Lemma cgraph_round_trip p o cg bytes : wf_platform p -> cg_inv cg ->
  N.of_nat (length (sq_items o (cg_mat cg))) < two64 ->
  cg_edge_count cg = ones_total (sq_items o (cg_mat cg)) ->
  cgraph_to_bytes p o cg = Ok bytes ->
  is_slice p bytes /\ forall p', wf_platform p' -> is_slice p' bytes ->
  exists cg', cgraph_try_from p' bytes = Ret (Ok cg') /\ cg_inv cg' /\ same_cgraph cg cg'.
Proof.
  intros Hp Hi Hl He Hb. pose proof (cgraph_to_bytes_alloc p o cg bytes Hp Hb) as Ha.
  apply cgraph_to_bytes_file in Hb.
  rewrite (c_entry_count o) in Hb, Ha by done. rewrite (ci_dim cg Hi), He in Hb.
  fold (cfile_of (cg_und cg) (cg_vertex_count cg) (cg_level cg) (sq_items o (cg_mat cg))) in Hb.
  pose proof (ci_level cg Hi) as Hlev.
  assert (is_slice p bytes) as Hs.
  { split.
    - rewrite Hb. apply cgraph_file_bytes. unfold is_byte. lia.
    - rewrite Hb. unfold cfile_of. rewrite length_cgraph_file.
      pose proof (wf_alloc p Hp _ Ha). lia. }
  split; [done|]. clear Hs. intros p' Hp' Hs. subst bytes.
  pose proof (citems_good o cg Hi He) as Hg.
  eexists. split; [by apply cgraph_try_from_good|].
  destruct (cdecoded_facts (cg_und cg) _ _ _ Hg) as (Hi' & Hu' & Hn' & Hl' & He').
  split; [done|]. apply same_cgraph_intro; try congruence.
  apply (sq_same_items _ _ o plain_order); [apply Hi|apply Hi'|]. symmetry.
  apply add_entries_cg.
  - apply Hi.
  - done.
  - by apply NoDup_sq_items_keys, Hi.
  - intros w c r Hin. destruct Hg as [_ _ Hw Hk Hbb _].
    rewrite Forall_forall in Hw, Hk. specialize (Hw _ Hin). specialize (Hk _ Hin).
    simpl in Hw, Hk. split_and!; try apply Hw; try apply Hk.
    intros u v Huv. apply Hbb. apply elem_of_list_bind. eauto.
Qed.

Lemma cgraph_no_extension p bytes rest g g' : wf_platform p ->
  is_slice p bytes -> is_slice p (bytes ++ rest) ->
  cgraph_try_from p bytes = Ret (Ok g) -> cgraph_try_from p (bytes ++ rest) = Ret (Ok g') ->
  rest = [].
Proof.
  intros Hp Hs Hs' H H'.
  apply cgraph_try_from_ok_inv in H as (und & n & lv & l & -> & Hg & _); [|done..].
  apply cgraph_try_from_ok_inv in H' as (und' & n' & lv' & l' & Heq & Hg' & _); [|done..].
  pose proof (cfile_len _ _ _ _ p Hp Hs) as Hl. assert (Hs2 := Hs'). rewrite Heq in Hs2.
  pose proof (cfile_len _ _ _ _ p Hp Hs2) as Hl'.
  assert (N.of_nat (length l) = N.of_nat (length l')) as Hll.
  { assert (Heq' := Heq). unfold cfile_of in Heq'. rewrite !cgraph_file_hdr, <- app_assoc in Heq'.
    apply app_inj_len in Heq' as [Hh _]; [|by rewrite !length_cgraph_hdr].
    apply cgraph_hdr_inj in Hh;
      [|try done; try apply cmd_u64; try apply Hg; try apply Hg'..].
    by destruct Hh as (_ & _ & _ & ? & _). }
  apply (f_equal length) in Heq. unfold cfile_of in Heq.
  rewrite app_length, !length_cgraph_file in Heq.
  destruct rest; [done|]. simpl in Heq. lia.
Qed.
