(** The in-place text buffer of the square matrix printer. *)
From Coq Require Import Ascii String.
From Verif Require Import Base HashIter F64 Numeric Adj Sq Spec Api AdjProofs GraphProofs
  SqProofs BitsProofs TextProofs.
Local Arguments N.mul : simpl never.
Local Arguments N.add : simpl never.

(** ** Writing texts into a buffer *)

Lemma put_app a b st :
  obind (ofold buf_put a st) (fun st => ofold buf_put b st) = ofold buf_put (a ++ b) st.
Proof.
  revert st. induction a as [|x a IH]; intros st; simpl; [done|].
  destruct (buf_put st x); simpl; auto.
Qed.

Lemma put_one x st : buf_put st x = ofold buf_put [x] st.
Proof. simpl. by destruct (buf_put st x). Qed.

Lemma put_loop {A} (g : A -> text) l st :
  ofold (fun st x => ofold buf_put (g x) st) l st = ofold buf_put (l ≫= g) st.
Proof.
  revert st. induction l as [|x l IH]; intros st; [done|].
  rewrite bind_cons, <- put_app. cbn [ofold].
  destruct (ofold buf_put (g x) st); simpl; auto.
Qed.

Lemma ofold_ext {A B} (f f' : B -> A -> outcome B) l b :
  (forall b a, a ∈ l -> f b a = f' b a) -> ofold f l b = ofold f' l b.
Proof.
  intros H. revert b. induction l as [|a l IH]; intros b; [done|]. cbn [ofold].
  rewrite (H b a) by left. destruct (f' b a); simpl; [|done|done].
  apply IH. intros b' a' Ha. apply H. by right.
Qed.

(** Writing [t] over an equally long part of the buffer. *)
Lemma put_text t pre mid post :
  length mid = length t ->
  ofold buf_put t (pre ++ mid ++ post, N.of_nat (length pre)) =
  Ret (pre ++ t ++ post, N.of_nat (length pre + length t)).
Proof.
  revert pre mid. induction t as [|x t IH]; intros pre mid Hlen.
  - destruct mid; [|done]. simpl. by rewrite Nat.add_0_r.
  - destruct mid as [|y mid]; [done|]. injection Hlen as Hlen.
    cbn [ofold buf_put].
    destruct (N.ltb_spec (N.of_nat (length pre)) (N.of_nat (length (pre ++ (y :: mid) ++ post)))) as [_|Hge].
    2:{ rewrite !app_length in Hge. simpl in Hge. lia. }
    cbn [obind]. rewrite Nat2N.id.
    replace (<[length pre := x]> (pre ++ (y :: mid) ++ post)) with ((pre ++ [x]) ++ mid ++ post).
    2:{ rewrite insert_app_r_alt by lia. rewrite Nat.sub_diag. simpl. by rewrite <- app_assoc. }
    replace (N.of_nat (length pre) + 1) with (N.of_nat (length (pre ++ [x])))
      by (rewrite app_length; simpl; lia).
    rewrite IH by done. rewrite app_length, <- app_assoc. simpl. f_equal. f_equal. lia.
Qed.

Lemma join_bind (x : N -> text) sep lst n : n <> 0 ->
  (range n ≫= fun i => x i ++ (if negb (i =? n - 1) then sep else lst)) =
  join sep (x <$> range n) ++ lst.
Proof.
  intros Hn. pose proof (fold_join x sep lst n [] Hn) as H. cbn [app] in H. rewrite <- H.
  pose proof (fold_append (fun i => x i ++ (if negb (i =? n - 1) then sep else lst)) (range n) [])
    as H2. cbn [app] in H2. rewrite <- H2.
  apply fold_left_ext. intros b i. destruct (negb _); by rewrite <- app_assoc.
Qed.

(** ** The template *)

(** A cell of the template. *)
Definition template_cell (entry_size left_padding : N) : text :=
  (fun i => if i <? left_padding then " "%char
            else if i =? left_padding + 1 then "."%char else "0"%char) <$> range entry_size.

Lemma bind_single {A B} (f : A -> B) l : (l ≫= fun x => [f x]) = f <$> l.
Proof. induction l as [|x l IH]; [done|]. rewrite bind_cons, IH. done. Qed.

Lemma template_cell_put p dim es lp col st : lp + 1 <= usize_max p ->
  sq_template_cell p dim es lp col st =
  ofold buf_put (template_cell es lp ++ (if negb (col =? dim - 1) then txt ", " else txt " ")) st.
Proof.
  intros Hlp. unfold sq_template_cell, usize_add.
  destruct (N.leb_spec (lp + 1) (usize_max p)); [|lia]. cbn [obind].
  rewrite <- put_app. unfold template_cell.
  match goal with |- context [ofold ?f (range es) st] =>
    replace (ofold f (range es) st) with
     (ofold buf_put ((fun i => if i <? lp then " "%char
            else if i =? lp + 1 then "."%char else "0"%char) <$> range es) st) end.
  2:{ rewrite <- bind_single, <- put_loop. apply ofold_ext. intros b i _. by rewrite <- put_one. }
  match goal with |- context [obind (ofold ?f ?l ?s) _] => destruct (ofold f l s) as [st'| |] end; cbn [obind]; [|done|done].
  destruct (negb _).
  - simpl. destruct (buf_put st' ","%char) as [st''| |]; cbn [obind]; [|done|done].
    by destruct (buf_put st'' " "%char).
  - cbn [obind]. simpl. by destruct (buf_put st' " "%char).
Qed.

Lemma template_row_put p dim es lp row st : dim <> 0 -> lp + 1 <= usize_max p ->
  sq_template_row p dim es lp row st =
  ofold buf_put (row_text dim (fun _ _ => template_cell es lp) row ++
    (if negb (row =? dim - 1) then [cr; lf] else [])) st.
Proof.
  intros Hn Hlp. unfold sq_template_row.
  rewrite (put_one "["%char). cbn [ofold].
  transitivity (obind (ofold buf_put (txt "[ ") st) (fun st =>
    obind (ofold buf_put (range dim ≫= fun col => template_cell es lp ++
            (if negb (col =? dim - 1) then txt ", " else txt " ")) st) (fun st =>
    obind (ofold buf_put (txt "]") st) (fun st =>
    ofold buf_put (if negb (row =? dim - 1) then [cr; lf] else []) st)))).
  - simpl. destruct (buf_put st "["%char) as [s1| |]; cbn [obind]; [|done|done].
    destruct (buf_put s1 " "%char) as [s2| |]; cbn [obind]; [|done|done].
    rewrite <- put_loop.
    match goal with |- obind (ofold ?f ?l ?s) _ = obind (ofold ?f' ?l ?s) _ =>
      replace (ofold f l s) with (ofold f' l s) end.
    2:{ apply ofold_ext. intros b col _. by rewrite template_cell_put. }
    match goal with |- context [obind (ofold ?f ?l ?s) _] => destruct (ofold f l s) as [s3| |] end; cbn [obind]; [|done|done].
    destruct (buf_put s3 "]"%char) as [s4| |]; cbn [obind]; [|done|done].
    destruct (negb _); [|done]. simpl.
    destruct (buf_put s4 cr) as [s5| |]; simpl; [|done|done]. by destruct (buf_put s5 lf).
  - assert (forall a b c st, obind (ofold buf_put a st) (fun st => obind (ofold buf_put b st)
        (fun st => ofold buf_put c st)) = ofold buf_put (a ++ b ++ c) st) as H3.
    { intros a b c s. rewrite <- put_app. destruct (ofold buf_put a s); simpl; [|done|done].
      by rewrite <- put_app. }
    rewrite (join_bind (fun _ => template_cell es lp)) by done.
    set (J := join _ _). set (E := if negb _ then _ else _).
    assert (row_text dim (fun _ _ => template_cell es lp) row ++ E =
      txt "[ " ++ (J ++ txt " ") ++ txt "]" ++ E) as ->.
    { unfold row_text. fold J. by rewrite <- !app_assoc. }
    rewrite <- (put_app (txt "[ ")).
    destruct (ofold buf_put (txt "[ ") st) as [s1| |]; cbn [obind]; [|done|done].
    by rewrite H3.
Qed.

(** The template loop fills a buffer of the right size with the template text. *)
Lemma template_fill p dim es lp (buf : list ascii) : dim <> 0 -> lp + 1 <= usize_max p ->
  length buf = length (matrix_text dim (fun _ _ => template_cell es lp)) ->
  ofold (fun st row => sq_template_row p dim es lp row st) (range dim) (buf, 0) =
  Ret (matrix_text dim (fun _ _ => template_cell es lp), N.of_nat (length buf)).
Proof.
  intros Hn Hlp Hlen.
  rewrite (ofold_ext _ (fun st row => ofold buf_put (row_text dim (fun _ _ => template_cell es lp) row ++
    (if negb (row =? dim - 1) then [cr; lf] else [])) st)).
  2:{ intros st row _. by apply template_row_put. }
  rewrite put_loop.
  rewrite (join_bind (fun row => row_text dim (fun _ _ => template_cell es lp) row)) by done.
  rewrite app_nil_r, <- matrix_text_rows.
  pose proof (put_text (matrix_text dim (fun _ _ => template_cell es lp)) [] buf []
    ltac:(done)) as H. cbn [app] in H. rewrite !app_nil_r in H. cbn [length] in H.
  change (N.of_nat 0) with 0 in H. rewrite H. f_equal. f_equal. lia.
Qed.

Lemma template_cell_length es lp : length (template_cell es lp) = N.to_nat es.
Proof. unfold template_cell. by rewrite fmap_length, length_range. Qed.

(** ** Locating one cell *)

Lemma range_split n i : i < n -> exists l, range n = range i ++ i :: l /\ (forall j, j ∈ l -> i < j).
Proof.
  intros Hi. exists ((fun k => N.of_nat k) <$> seq (S (N.to_nat i)) (N.to_nat n - S (N.to_nat i))).
  split.
  - unfold range.
    replace (N.to_nat n) with (N.to_nat i + S (N.to_nat n - S (N.to_nat i)))%nat at 1 by lia.
    rewrite seq_app, fmap_app. simpl. f_equal. f_equal. lia.
  - intros j Hj. apply elem_of_list_fmap in Hj as (k & -> & Hk). apply elem_of_seq in Hk. lia.
Qed.

Lemma join_split sep l l' : exists post, (post = [] \/ exists post', post = sep ++ post') /\
  forall y, join sep (l ++ y :: l') = (l ≫= fun t => t ++ sep) ++ y ++ post.
Proof.
  exists (match l' with [] => [] | _ => sep ++ join sep l' end).
  split; [destruct l'; [by left|right; by eexists]|]. intros y.
  induction l as [|z l IH].
  - simpl. destruct l'; [by rewrite app_nil_r|done].
  - assert (join sep ((z :: l) ++ y :: l') = z ++ sep ++ join sep (l ++ y :: l')) as ->.
    { destruct l; done. }
    rewrite IH, bind_cons. by rewrite <- !app_assoc.
Qed.

Lemma bind_length_const (l : list text) sep k : Forall (fun t => length t = k) l ->
  length (l ≫= fun t => t ++ sep) = (length l * (k + length sep))%nat.
Proof.
  induction 1 as [|x l Hx Hl IH]; [done|]. rewrite bind_cons, !app_length, IH, Hx. simpl. lia.
Qed.

(** A cell sits at a known position, and the rest of the text does not depend on it. *)
Lemma matrix_text_cell n cell w c r : c < n -> r < n ->
  (forall c r, c < n -> r < n -> length (cell c r) = w) ->
  exists pre post,
    N.of_nat (length pre) = r * (4 + n * (N.of_nat w + 2)) + 2 + (N.of_nat w + 2) * c /\
    ((2 <= length post)%nat /\ (head post = Some ","%char \/ head post = Some " "%char)) /\
    forall cell', (forall c' r', c' < n -> r' < n -> (c', r') <> (c, r) -> cell' c' r' = cell c' r') ->
    matrix_text n cell' = pre ++ cell' c r ++ post.
Proof.
  intros Hc Hr Hw.
  destruct (range_split n c Hc) as (lc & Hlc & Hclt).
  destruct (range_split n r Hr) as (lr & Hlr & Hrlt).
  destruct (join_split (txt ", ") ((fun c' => cell c' r) <$> range c)
    ((fun c' => cell c' r) <$> lc)) as (postc & Hhead & Hpostc).
  destruct (join_split [cr; lf] (row_text n cell <$> range r)
    (row_text n cell <$> lr)) as (postr & _ & Hpostr).
  exists (((row_text n cell <$> range r) ≫= fun t => t ++ [cr; lf]) ++ txt "[ " ++
     (((fun c' => cell c' r) <$> range c) ≫= fun t => t ++ txt ", ")),
   (postc ++ txt " ]" ++ postr). repeat split.
  - rewrite !app_length.
    rewrite (bind_length_const _ _ (4 + N.to_nat n * w + 2 * (N.to_nat n - 1))).
    2:{ apply Forall_forall. intros t Ht. apply elem_of_list_fmap in Ht as (r' & -> & Hr').
        apply elem_of_range in Hr'. apply row_text_length; [lia|done|lia]. }
    rewrite (bind_length_const _ _ w).
    2:{ apply Forall_forall. intros t Ht. apply elem_of_list_fmap in Ht as (c' & -> & Hc').
        apply elem_of_range in Hc'. apply Hw; lia. }
    rewrite !fmap_length, !length_range. simpl length. 
    assert (4 + N.to_nat n * w + 2 * (N.to_nat n - 1) + 2 = 4 + N.to_nat n * (w + 2))%nat as -> by nia.
    rewrite !Nat2N.inj_add, !Nat2N.inj_mul, !N2Nat.id.
    rewrite !Nat2N.inj_add, !Nat2N.inj_mul, !N2Nat.id, !Nat2N.inj_add.
    change (N.of_nat 2) with 2. change (N.of_nat 4) with 4. lia.
  - rewrite !app_length. simpl. lia.
  - destruct Hhead as [->|[post' ->]]; [by right|by left].
  - intros cell' Hcell'. rewrite matrix_text_rows, Hlr, fmap_app, fmap_cons.
    assert (row_text n cell' <$> range r = row_text n cell <$> range r) as ->.
    { apply list_fmap_ext. intros i r' Hr'. apply elem_of_list_lookup_2, elem_of_range in Hr'.
      unfold row_text. do 3 f_equal. apply list_fmap_ext. intros j c' Hc'.
      apply elem_of_list_lookup_2, elem_of_range in Hc'. apply Hcell'; [done|lia|].
      intros [= ? ?]. lia. }
    assert (row_text n cell' <$> lr = row_text n cell <$> lr) as ->.
    { apply list_fmap_ext. intros i r' Hr'. apply elem_of_list_lookup_2 in Hr'.
      assert (r' < n). { apply elem_of_range. rewrite Hlr. apply elem_of_app. right. by right. }
      apply Hrlt in Hr'.
      unfold row_text. do 3 f_equal. apply list_fmap_ext. intros j c' Hc'.
      apply elem_of_list_lookup_2, elem_of_range in Hc'. apply Hcell'; [done|done|].
      intros [= ? ?]. lia. }
    rewrite Hpostr.
    assert (row_text n cell' r = txt "[ " ++ ((((fun c' => cell c' r) <$> range c) ≫= fun t => t ++ txt ", ")
      ++ cell' c r ++ postc) ++ txt " ]") as ->.
    { unfold row_text. rewrite Hlc, fmap_app, fmap_cons. f_equal. f_equal.
      rewrite <- Hpostc. f_equal. f_equal; [|f_equal].
      - apply list_fmap_ext. intros j c' Hc'. apply elem_of_list_lookup_2, elem_of_range in Hc'.
        apply Hcell'; [lia|done|]. intros [= ?]. lia.
      - apply list_fmap_ext. intros j c' Hc'. apply elem_of_list_lookup_2 in Hc'.
        assert (c' < n). { apply elem_of_range. rewrite Hlc. apply elem_of_app. right. by right. }
        apply Hclt in Hc'. apply Hcell'; [done|done|]. intros [= ?]. lia. }
    by rewrite <- !app_assoc.
Qed.

(** ** Overwriting cells *)

Definition upd (cell : N -> N -> text) (c r : N) (t : text) (c' r' : N) : text :=
  if decide ((c', r') = (c, r)) then t else cell c' r'.

Lemma write_pos p n w c r :
  c < n -> r < n -> n <= usize_max p -> (w + 2) * (n * n) + 4 * n - 2 <= usize_max p ->
  r * (4 + n * (w + 2)) + 2 + (w + 2) * c + w + 2 <= (w + 2) * (n * n) + 4 * n - 2.
Proof.
  intros Hc Hr _ _.
  assert (r * (4 + n * (w + 2)) <= (n - 1) * (4 + n * (w + 2))) by (apply N.mul_le_mono_r; lia).
  assert ((w + 2) * c <= (w + 2) * (n - 1)) by (apply N.mul_le_mono_l; lia).
  assert ((n - 1) * (4 + n * (w + 2)) + 2 + (w + 2) * (n - 1) + w + 2 + 2 =
    (w + 2) * (n * n) + 4 * n); [|lia].
  assert (exists k, n = k + 1) as [k ->] by (exists (n - 1); lia).
  replace (k + 1 - 1) with k by lia. ring.
Qed.

Lemma write_cell_unfold {T} p (num : numeric T) hi lo w d n c r v buf :
  c < n -> r < n -> n <= usize_max p -> (w + 2) * (n * n) + 4 * n - 2 <= usize_max p ->
  sq_write_cell p num hi lo w d (w + 2) (4 + n * (w + 2)) buf (c, r, v) =
  obind (sq_cell_text num hi lo w d v) (fun t =>
  obind (ofold buf_put t (buf, r * (4 + n * (w + 2)) + 2 + (w + 2) * c)) (fun st => Ret st.1)).
Proof.
  intros Hc Hr Hn Hsz. pose proof (write_pos p n w c r Hc Hr Hn Hsz) as Hpos.
  unfold sq_write_cell, usize_mul, usize_add. rewrite !N.mod_small by lia.
  destruct (N.leb_spec (r * (4 + n * (w + 2))) (usize_max p)); [|lia]. cbn [obind].
  destruct (N.leb_spec (r * (4 + n * (w + 2)) + 2) (usize_max p)); [|lia]. cbn [obind].
  destruct (N.leb_spec ((w + 2) * c) (usize_max p)); [|lia]. cbn [obind].
  destruct (N.leb_spec (r * (4 + n * (w + 2)) + 2 + (w + 2) * c) (usize_max p)); [|lia].
  done.
Qed.

Lemma write_cell_text {T} p (num : numeric T) hi lo w d n c r v cell t :
  c < n -> r < n -> n <= usize_max p -> (w + 2) * (n * n) + 4 * n - 2 <= usize_max p ->
  (forall c r, c < n -> r < n -> length (cell c r) = N.to_nat w) ->
  sq_cell_text num hi lo w d v = Ret t -> length t = N.to_nat w ->
  sq_write_cell p num hi lo w d (w + 2) (4 + n * (w + 2)) (matrix_text n cell) (c, r, v) =
  Ret (matrix_text n (upd cell c r t)).
Proof.
  intros Hc Hr Hn Hsz Hw Ht Hlen. rewrite write_cell_unfold, Ht by done. cbn [obind].
  destruct (matrix_text_cell n cell (N.to_nat w) c r Hc Hr Hw) as (pre & post & Hpre & _ & Hsp).
  rewrite N2Nat.id in Hpre. rewrite <- Hpre.
  rewrite (Hsp cell) by done. rewrite put_text by (by rewrite Hw).
  cbn [obind fst]. rewrite (Hsp (upd cell c r t)).
  - unfold upd. by rewrite decide_True.
  - intros c' r' _ _ Hne. unfold upd. by rewrite decide_False.
Qed.

(** All stored values written: every stored cell shows its value. *)
Lemma write_cells_text {T} p (num : numeric T) hi lo w d n (txt_of : T -> text) l cell :
  n <= usize_max p -> (w + 2) * (n * n) + 4 * n - 2 <= usize_max p ->
  (forall c r, c < n -> r < n -> length (cell c r) = N.to_nat w) ->
  (forall c r v, (c, r, v) ∈ l -> c < n /\ r < n /\
     sq_cell_text num hi lo w d v = Ret (txt_of v) /\ length (txt_of v) = N.to_nat w) ->
  NoDup ((fun '(c, r, _) => (c, r)) <$> l) ->
  exists cell',
    ofold (sq_write_cell p num hi lo w d (w + 2) (4 + n * (w + 2))) l (matrix_text n cell) =
    Ret (matrix_text n cell') /\
    (forall c r v, (c, r, v) ∈ l -> cell' c r = txt_of v) /\
    (forall c r, (forall v, (c, r, v) ∉ l) -> cell' c r = cell c r).
Proof.
  intros Hn Hsz. revert cell. induction l as [|[[c r] v] l IH]; intros cell Hw Hl Hnd.
  - exists cell. repeat split; try done. intros c r v Hin. by apply elem_of_nil in Hin.
  - rewrite fmap_cons in Hnd. apply NoDup_cons in Hnd as [Hnin Hnd].
    destruct (Hl c r v ltac:(left)) as (Hc & Hr & Ht & Hlen).
    destruct (IH (upd cell c r (txt_of v))) as (cell' & Heq & Hin & Hout).
    + intros c' r' Hc' Hr'. unfold upd. case_decide; auto.
    + intros c' r' v' Hin. apply Hl. by right.
    + done.
    + exists cell'. repeat split.
      * cbn [ofold]. rewrite (write_cell_text _ _ _ _ _ _ _ _ _ _ _ (txt_of v)) by done.
        cbn [obind]. exact Heq.
      * intros c' r' v' Hv'. apply elem_of_cons in Hv' as [[= -> -> ->]|Hv']; [|eauto].
        rewrite Hout; [unfold upd; by rewrite decide_True|].
        intros v' Hv'. apply Hnin. apply elem_of_list_fmap. by exists (c, r, v').
      * intros c' r' Hv'. rewrite Hout.
        -- unfold upd. rewrite decide_False; [done|]. intros [= -> ->]. apply (Hv' v). left.
        -- intros v' Hv''. apply (Hv' v'). by right.
Qed.

(** Texts at most two characters too long stay inside the buffer. *)
Lemma write_cells_safe {T} p (num : numeric T) hi lo w d n l buf :
  n <= usize_max p -> (w + 2) * (n * n) + 4 * n - 2 <= usize_max p ->
  N.of_nat (length buf) = (w + 2) * (n * n) + 4 * n - 2 ->
  utf8_ok buf = true ->
  (forall c r v, (c, r, v) ∈ l -> c < n /\ r < n /\
     exists t, sq_cell_text num hi lo w d v = Ret t /\ N.of_nat (length t) <= w + 2 /\
       utf8_ok t = true) ->
  exists buf',
    ofold (sq_write_cell p num hi lo w d (w + 2) (4 + n * (w + 2))) l buf = Ret buf' /\
    length buf' = length buf /\ utf8_ok buf' = true.
Proof.
  intros Hn Hsz. revert buf. induction l as [|[[c r] v] l IH]; intros buf Hlen Hok Hl.
  - by exists buf.
  - destruct (Hl c r v ltac:(left)) as (Hc & Hr & t & Ht & Htl & Htok).
    pose proof (write_pos p n w c r Hc Hr Hn Hsz) as Hpos.
    cbn [ofold]. rewrite write_cell_unfold, Ht by done. cbn [obind].
    set (pos := r * (4 + n * (w + 2)) + 2 + (w + 2) * c) in *.
    assert (buf = take (N.to_nat pos) buf ++ take (length t) (drop (N.to_nat pos) buf) ++
      drop (length t) (drop (N.to_nat pos) buf)) as Hbuf by by rewrite !take_drop.
    assert (length (take (N.to_nat pos) buf) = N.to_nat pos) as Hl1.
    { rewrite take_length. lia. }
    assert (length (take (length t) (drop (N.to_nat pos) buf)) = length t) as Hl2.
    { rewrite take_length, drop_length. lia. }
    set (a := take (N.to_nat pos) buf) in *.
    set (b := take (length t) (drop (N.to_nat pos) buf)) in *.
    set (e := drop (length t) (drop (N.to_nat pos) buf)) in *.
    clearbody a b e. rewrite Hbuf. replace pos with (N.of_nat (length a)) by lia.
    rewrite put_text by done. cbn [obind fst]. rewrite <- Hbuf.
    assert (length (a ++ t ++ e) = length buf) as HL.
    { rewrite Hbuf, !app_length. lia. }
    destruct (IH (a ++ t ++ e)) as (buf' & Heq & Hl' & Hok').
    + by rewrite HL.
    + rewrite Hbuf in Hok. unfold utf8_ok in *. rewrite !forallb_app in *.
      apply andb_true_iff in Hok as [-> Hok]. apply andb_true_iff in Hok as [_ ->].
      by rewrite Htok.
    + intros c' r' v' Hin. apply Hl. by right.
    + exists buf'. rewrite Heq, Hl', HL. done.
Qed.

(** ** The whole printer *)

Definition sq_width0 {T} (num : numeric T) (hi lo : T) : N :=
  N.max (num_digits num hi) (num_digits num lo).

Definition sq_width {T} (num : numeric T) (hi lo : T) (d : N) : N :=
  if num_has_decimal num || (0 <? d) then sq_width0 num hi lo + 1 + d else sq_width0 num hi lo.

(** The number of bytes of the text. *)
Definition text_size (n w : N) : N := (w + 2) * (n * n) + 4 * n - 2.

Definition text_fits (p : platform) (n w : N) : bool :=
  ((w + 2) * (n * n) + 4 * n <=? usize_max p) && can_alloc p (text_size n w).

Definition template {T} (num : numeric T) (hi lo : T) (d : N) : text :=
  template_cell (sq_width num hi lo d) (sq_width0 num hi lo - 1).

Lemma text_size_eq p n cpe : n <> 0 -> 2 <= cpe ->
  if cpe * (n * n) + 4 * n <=? usize_max p
  then sq_text_size p n cpe = Ok (n, cpe * (n * n) + 4 * n - 2)
  else exists msg, sq_text_size p n cpe = Err (CapacityOverflow msg).
Proof.
  intros Hn Hcpe. unfold sq_text_size, usize_try_from, checked_mulU, checked_addU, checked_subU.
  destruct (N.leb_spec n (usize_max p)); cbn [ok_or rbind].
  2:{ destruct (N.leb_spec (cpe * (n * n) + 4 * n) (usize_max p)); [nia|]. eauto. }
  destruct (N.leb_spec (n * n) (usize_max p)); cbn [ok_or rbind].
  2:{ destruct (N.leb_spec (cpe * (n * n) + 4 * n) (usize_max p)); [nia|]. eauto. }
  destruct (N.leb_spec (4 * n) (usize_max p)); simpl.
  2:{ destruct (N.leb_spec (cpe * (n * n) + 4 * n) (usize_max p)); [nia|]. eauto. }
  destruct (N.leb_spec (cpe * (n * n)) (usize_max p)); simpl.
  2:{ destruct (N.leb_spec (cpe * (n * n) + 4 * n) (usize_max p)); [nia|]. eauto. }
  destruct (N.leb_spec (cpe * (n * n) + 4 * n) (usize_max p)); simpl; [|eauto].
  destruct (N.leb_spec 2 (cpe * (n * n) + 4 * n)); simpl; [done|nia].
Qed.

Lemma sq_string_unfold {T} p (num : numeric T) o m d hi lo :
  sq_dim m <> 0 -> sq_extremes num o m = (hi, lo) ->
  1 <= sq_width0 num hi lo -> sq_width0 num hi lo + d + 3 <= usize_max p ->
  if text_fits p (sq_dim m) (sq_width num hi lo d) then
    sq_to_string_with_precision p num o m d =
    obind (ofold (sq_write_cell p num hi lo (sq_width num hi lo d) d (sq_width num hi lo d + 2)
             (4 + sq_dim m * (sq_width num hi lo d + 2))) (sq_cells o m)
             (matrix_text (sq_dim m) (fun _ _ => template num hi lo d))) (fun buffer =>
    Ret (if utf8_ok buffer then Ok buffer
         else Err (InvalidFormat "Generated matrix string was not UTF-8")))
  else exists msg, sq_to_string_with_precision p num o m d = Ret (Err (CapacityOverflow msg)).
Proof.
  intros Hn Hext Hw0 Hw. unfold sq_to_string_with_precision.
  destruct (N.eqb_spec (sq_dim m) 0) as [?|_]; [done|]. rewrite Hext.
  assert ((if num_digits num lo <? num_digits num hi then num_digits num hi else num_digits num lo)
    = sq_width0 num hi lo) as ->.
  { unfold sq_width0. destruct (N.ltb_spec (num_digits num lo) (num_digits num hi)); lia. }
  set (w0 := sq_width0 num hi lo) in *. set (n := sq_dim m) in *.
  assert (HA : (if num_has_decimal num || (0 <? d) then obind (usize_add p 1 d) (usize_add p w0)
     else Ret w0) = Ret (sq_width num hi lo d)).
  { unfold sq_width, usize_add. fold w0. destruct (_ || _); [|done].
    destruct (N.leb_spec (1 + d) (usize_max p)); [|lia]. cbn [obind].
    destruct (N.leb_spec (w0 + (1 + d)) (usize_max p)); [|lia]. f_equal. lia. }
  assert (HB : (if num_has_decimal num || (0 <? d) then obind (usize_add p 1 d) (usize_add p 1)
     else Ret 1) = Ret (1 + (sq_width num hi lo d - w0))).
  { unfold sq_width, usize_add. fold w0. destruct (_ || _).
    - destruct (N.leb_spec (1 + d) (usize_max p)); [|lia]. cbn [obind].
      destruct (N.leb_spec (1 + (1 + d)) (usize_max p)); [|lia]. f_equal. lia.
    - f_equal. lia. }
  rewrite HA, HB. clear HA HB. cbn [obind].
  assert (w0 <= sq_width num hi lo d <= w0 + 1 + d) as Hwd.
  { unfold sq_width. fold w0. destruct (_ || _); lia. }
  unfold template. set (w := sq_width num hi lo d) in *.
  unfold usize_sub. destruct (N.leb_spec (1 + (w - w0)) w); [|lia]. cbn [obind].
  replace (w - (1 + (w - w0))) with (w0 - 1) by lia.
  assert (usize_add p w 2 = Ret (w + 2)) as ->.
  { unfold usize_add. destruct (N.leb_spec (w + 2) (usize_max p)); [done|lia]. }
  cbn [obind].
  unfold text_fits, text_size.
  pose proof (text_size_eq p n (w + 2) Hn ltac:(lia)) as Hs.
  destruct (N.leb_spec ((w + 2) * (n * n) + 4 * n) (usize_max p)) as [Hfit|Hfit].
  2:{ destruct Hs as [msg ->]. by exists msg. }
  rewrite Hs. cbn [andb]. destruct (can_alloc p _); cbn [negb]; [|by eexists].
  rewrite template_fill; [| done | lia |].
  2:{ rewrite replicate_length. apply Nat2N.inj. rewrite N2Nat.id.
      rewrite (matrix_text_length _ _ (N.to_nat w)); [by rewrite N2Nat.id|done|].
      intros. apply template_cell_length. }
  cbn [obind fst]. unfold usize_mul, usize_add.
  destruct (N.leb_spec (n * (w + 2)) (usize_max p)); [|nia]. cbn [obind].
  destruct (N.leb_spec (4 + n * (w + 2)) (usize_max p)); [|nia]. cbn [obind].
  done.
Qed.

Lemma text_fits_spec p n w : text_fits p n w = true ->
  (w + 2) * (n * n) + 4 * n <= usize_max p /\ can_alloc p (text_size n w) = true.
Proof. intros H. apply andb_true_iff in H as [H1 H2]. split; [by apply N.leb_le|done]. Qed.
