(** Property C79: the build script of the C library. *)
From Coq Require Import Ascii String.
From Verif Require Import Base Build.

(** Names of files: not empty, not "." or "..", without "/". *)
Fixpoint no_slash (s : string) : Prop :=
  match s with EmptyString => True | String c s => c <> "/"%char /\ no_slash s end.
Definition ordinary (n : string) : Prop :=
  n <> ""%string /\ n <> "."%string /\ n <> ".."%string /\ no_slash n.

(** The text of an absolute path. *)
Definition path_text (place : list string) : string :=
  match place with [] => "/" | _ => foldr (fun n s => String "/" (n ++ s)) "" place end%string.

Lemma split_name n s : no_slash n ->
  split_path (n ++ s) = match split_path s with x :: l => (n ++ x)%string :: l | [] => [n] end.
Proof.
  induction n as [|c n IH]; intros H.
  - simpl. by destruct (split_path s) as [|] eqn:E; [destruct s as [|a s]; simpl in E; [done|];
      destruct (Ascii.eqb a "/"); [done|]; destruct (split_path s)|].
  - destruct H as [Hc H]. change ((String c n ++ s)%string) with (String c (n ++ s)).
    cbn [split_path]. destruct (Ascii.eqb_spec c "/"); [done|]. rewrite (IH H).
    destruct (split_path s) as [|x l]; done.
Qed.

Lemma string_app_nil n : (n ++ "")%string = n.
Proof.
  induction n as [|c n IH]; [done|].
  change ((String c n ++ "")%string) with (String c (n ++ "")). by rewrite IH.
Qed.

Lemma split_places place : Forall ordinary place ->
  split_path (foldr (fun n s => String "/" (n ++ s)) "" place)%string = ""%string :: place.
Proof.
  induction 1 as [|n place Hn _ IH]; [done|]. cbn [foldr split_path]. f_equal.
  change (Ascii.eqb "/" "/") with true. cbn match. f_equal.
  rewrite split_name by apply Hn. rewrite IH. by rewrite string_app_nil.
Qed.

Lemma pieces place : Forall ordinary place -> mbind piece place = map Normal place.
Proof.
  induction 1 as [|n place Hn _ IH]; [done|]. rewrite bind_cons, IH.
  destruct Hn as (H1 & H2 & H3 & _). unfold piece.
  destruct (String.eqb_spec n ""), (String.eqb_spec n "."), (String.eqb_spec n ".."); done.
Qed.

Lemma components_text place : Forall ordinary place ->
  components (path_text place) = RootDir :: map Normal place.
Proof.
  intros H. destruct place as [|n place]; [done|].
  unfold components, path_text. rewrite split_places by done. simpl String.eqb.
  cbn match. rewrite pieces by done. done.
Qed.

(** In a file system every file and directory is in a directory. *)
Definition tree (fs : filesystem) : Prop :=
  fs !! [] = Some Dir /\ forall place n, fs !! (place ++ [n]) <> None -> fs !! place = Some Dir.

Lemma resolve_app fs place p q : resolve fs place (p ++ q) =
  match resolve fs place p with Some place' => resolve fs place' q | None => None end.
Proof.
  revert place. induction p as [|c p IH]; intros place; [done|]. cbn [app resolve].
  destruct (enter fs place c) as [place'|]; [|done]. simpl. apply IH.
Qed.

Lemma locate_join fs cwd p n :
  locate fs cwd (path_join p n) = place ← resolve fs cwd p; Some (place ++ [n]).
Proof. unfold locate, path_join. by rewrite last_snoc, removelast_last. Qed.

Lemma resolve_text fs cwd place : tree fs ->
  resolve fs cwd (RootDir :: map Normal place) =
  match fs !! place with Some Dir => Some place | _ => None end.
Proof.
  intros [Hroot Hup]. cbn [resolve enter]. simpl. induction place as [|n place IH] using rev_ind.
  - simpl. by rewrite Hroot.
  - rewrite map_app, resolve_app, IH. destruct (fs !! place) as [[?|]|] eqn:E.
    2: { simpl. by destruct (fs !! (place ++ [n])) as [[|]|]. }
    all: destruct (fs !! (place ++ [n])) as [x|] eqn:E'; [|done];
      specialize (Hup place n); rewrite E' in Hup; specialize (Hup ltac:(done)); congruence.
Qed.

Lemma pop_text place : path_pop (RootDir :: map Normal place) = RootDir :: map Normal (removelast place).
Proof.
  destruct place as [|n place _] using rev_ind; [done|].
  unfold path_pop. rewrite map_app. change (map Normal [n]) with [Normal n]. rewrite app_comm_cons, last_snoc.
  by rewrite !removelast_last.
Qed.

Lemma named_text place n : is_named (RootDir :: map Normal place) n = true <-> last place = Some n.
Proof.
  destruct place as [|x place _] using rev_ind; [done|].
  unfold is_named, file_name. rewrite map_app. change (map Normal [x]) with [Normal x]. rewrite app_comm_cons, !last_snoc.
  rewrite String.eqb_eq. naive_solver.
Qed.

(** What the script does, for absolute paths in their usual form: without CARGO_TARGET_DIR the
    header goes three levels up from OUT_DIR if one or two levels further up there is a directory
    "target", otherwise it panics; with CARGO_TARGET_DIR it goes into that directory. *)
Definition copies (fs : filesystem) (crate to : list string) (o : outcome filesystem) : Prop :=
  match fs !! (crate ++ ["gphrx.h"%string]), fs !! to, fs !! (to ++ ["gphrx.h"%string]) with
  | Some (File bytes), Some Dir, (None | Some (File _)) =>
    exists fs', o = Ret fs' /\
      fs' !! (to ++ ["gphrx.h"%string]) = Some (File (if decide (crate = to) then [] else bytes)) /\
      forall place, place <> to ++ ["gphrx.h"%string] -> fs' !! place = fs !! place
  | _, _, _ => o = Panic
  end.

Lemma fs_copy_copies fs crate to :
  copies fs crate to (fs_copy fs (crate ++ [header_name]) (to ++ [header_name])).
Proof.
  unfold copies, fs_copy, header_name. rewrite removelast_last.
  destruct (fs !! (crate ++ _)) as [[bytes|]|]; [|done|done].
  destruct (fs !! to) as [[?|]|]; [done| |done].
  assert (forall b, exists fs', Ret (<[to ++ ["gphrx.h"%string] := File
    (if decide (crate ++ ["gphrx.h"%string] = to ++ ["gphrx.h"%string]) then [] else bytes)]> fs) = Ret fs' /\
    fs' !! (to ++ ["gphrx.h"%string]) = Some (File (if decide (crate = to) then [] else bytes)) /\
    forall place, place <> b -> place <> to ++ ["gphrx.h"%string] -> fs' !! place = fs !! place) as H.
  { intros b. eexists. split; [done|]. split.
    - rewrite lookup_insert. destruct (decide (crate = to)) as [->|Hne].
      + by rewrite decide_True.
      + rewrite decide_False; [done|]. intros E. by apply app_inj_2 in E as [-> _].
    - intros place _ Hp. by rewrite lookup_insert_ne. }
  destruct (fs !! (to ++ _)) as [[?|]|]; [|done|];
    (destruct (H []) as (fs' & E & H1 & _); exists fs'; split; [done|split; [done|]];
     intros place Hp; injection E as <-; by rewrite lookup_insert_ne).
Qed.

Lemma text_copies fs cwd crate to : tree fs -> Forall ordinary crate ->
  copies fs crate to
    match locate fs cwd (path_join (components (path_text crate)) header_name),
          locate fs cwd (path_join (RootDir :: map Normal to) header_name) with
    | Some from, Some to => fs_copy fs from to
    | _, _ => Panic
    end.
Proof.
  intros Hfs Hc. rewrite components_text, !locate_join, !resolve_text by done.
  assert (forall d, fs !! d <> Some Dir -> fs !! (d ++ ["gphrx.h"%string]) = None) as Hno.
  { intros d Hd. destruct Hfs as [_ Hup].
    destruct (fs !! (d ++ _)) eqn:E; [|done]. destruct Hd. apply (Hup d "gphrx.h"%string). by rewrite E. }
  assert (forall d, fs !! d = Some Dir \/ fs !! d <> Some Dir) as Hdec
    by (intros d; destruct (fs !! d) as [[|]|]; auto).
  destruct (Hdec crate) as [Ec|Ec].
  2: { unfold copies. rewrite (Hno crate Ec). by destruct (fs !! crate) as [[|]|]. }
  destruct (Hdec to) as [Et|Et].
  - rewrite Ec, Et. simpl. apply fs_copy_copies.
  - unfold copies. rewrite Ec, (Hno to Et). simpl.
    destruct (fs !! (crate ++ _)) as [[|]|], (fs !! to) as [[|]|]; done.
Qed.

Theorem C79_exact v fs crate : tree fs ->
  cargo_manifest_dir v = Some (path_text crate) -> Forall ordinary crate ->
  (forall target, cargo_target_dir v = Some (path_text target) -> Forall ordinary target ->
     copies fs crate target (build_script v fs)) /\
  (forall out, cargo_target_dir v = None -> out_dir v = Some (path_text out) -> Forall ordinary out ->
     let at_level k := last (Nat.iter k (@removelast string) out) in
     (at_level 4%nat = Some "target"%string \/ at_level 5%nat = Some "target"%string ->
        copies fs crate (Nat.iter 3 (@removelast string) out) (build_script v fs)) /\
     (at_level 4%nat <> Some "target"%string -> at_level 5%nat <> Some "target"%string ->
        build_script v fs = Panic)).
Proof.
  intros Hfs Ecrate Hcrate. unfold build_script. rewrite Ecrate. split.
  - intros target Et Ht. unfold find_target_dir. rewrite Et. cbv beta iota delta [obind].
    rewrite (components_text target) by done. by apply text_copies.
  - intros out Et Eo Ho. unfold find_target_dir. rewrite Et, Eo, (components_text out) by done.
    simpl Nat.iter. rewrite !pop_text. cbn zeta.
    set (d3 := removelast (removelast (removelast out))).
    destruct (is_named (RootDir :: map Normal (removelast d3)) "target") eqn:E1;
    [|destruct (is_named (RootDir :: map Normal (removelast (removelast d3))) "target") eqn:E2].
    + apply named_text in E1. split; [|done]. intros _. cbv beta iota delta [obind]. by apply text_copies.
    + apply named_text in E2. split; [|done]. intros _. cbv beta iota delta [obind]. by apply text_copies.
    + split; [|done]. intros [H|H]; apply named_text in H; congruence.
Qed.
Print Assumptions C79_exact.

(** Where Cargo puts the library: directory [profile] of the target directory, or of the
    directory of the target triple in it; OUT_DIR is build/<package>/out below. *)
Definition artifacts (target : list string) (triple : option string) (profile : string) : list string :=
  target ++ match triple with Some t => [t] | None => [] end ++ [profile].
Definition cargo_out (target : list string) (triple : option string) (profile pkg : string) : list string :=
  artifacts target triple profile ++ ["build"; pkg; "out"]%string.

Lemma out_ordinary target triple profile pkg : Forall ordinary target ->
  (match triple with Some t => ordinary t | None => True end) -> ordinary profile -> ordinary pkg ->
  Forall ordinary (cargo_out target triple profile pkg).
Proof.
  intros H1 H2 H3 H4. unfold cargo_out, artifacts. rewrite !Forall_app. split_and!; try done.
  - destruct triple; [by constructor|done].
  - by constructor.
  - constructor; [unfold ordinary; simpl; naive_solver|]. constructor; [done|].
    constructor; [unfold ordinary; simpl; naive_solver|done].
Qed.

Lemma iter_4 {A} (f : A -> A) x : Nat.iter 4 f x = f (Nat.iter 3 f x).
Proof. done. Qed.
Lemma iter_5 {A} (f : A -> A) x : Nat.iter 5 f x = f (f (Nat.iter 3 f x)).
Proof. done. Qed.

Lemma out_up target triple profile pkg :
  Nat.iter 3 (@removelast string) (cargo_out target triple profile pkg) = artifacts target triple profile.
Proof.
  unfold cargo_out. generalize (artifacts target triple profile). intros l.
  replace (l ++ _) with (((l ++ ["build"%string]) ++ [pkg]) ++ ["out"%string]) by by rewrite <-!app_assoc.
  change (Nat.iter 3 ?f ?x) with (f (f (f x))). by rewrite !removelast_last.
Qed.

(** The header is put beside the library.
    Missing: CARGO_TARGET_DIR and target directories of another name than "target", see
    [C79_refuted]. *)
Theorem C79_partial v fs crate up triple profile pkg bytes :
  let target := up ++ ["target"%string] in
  let place := artifacts target triple profile in
  tree fs -> cargo_manifest_dir v = Some (path_text crate) -> cargo_target_dir v = None ->
  out_dir v = Some (path_text (cargo_out target triple profile pkg)) ->
  Forall ordinary crate -> Forall ordinary up ->
  (match triple with Some t => ordinary t | None => True end) -> ordinary profile -> ordinary pkg ->
  fs !! (crate ++ ["gphrx.h"%string]) = Some (File bytes) -> fs !! place = Some Dir ->
  fs !! (place ++ ["gphrx.h"%string]) <> Some Dir -> crate <> place ->
  exists fs', build_script v fs = Ret fs' /\ fs' !! (place ++ ["gphrx.h"%string]) = Some (File bytes) /\
    forall other, other <> place ++ ["gphrx.h"%string] -> fs' !! other = fs !! other.
Proof.
  intros target place Hfs Ec Et Eo Hc Hu Ht Hpr Hpk Hh Hd Hn Hne.
  destruct (C79_exact v fs crate Hfs Ec Hc) as [_ H].
  assert (ordinary "target") as Hot by (unfold ordinary; simpl; naive_solver).
  destruct (H _ Et Eo) as [H' _].
  { apply out_ordinary; try done. apply Forall_app; split; [done|by constructor]. }
  rewrite out_up in H'. fold place in H'.
  assert (copies fs crate place (build_script v fs)) as Hk.
  { apply H'. clear H H'. rewrite iter_4, iter_5, out_up. unfold artifacts, target.
    destruct triple as [t|].
    - right. rewrite app_assoc, !removelast_last.
      apply last_snoc.
    - left. rewrite app_nil_l, removelast_last. apply last_snoc. }
  unfold copies in Hk. rewrite Hh, Hd in Hk. rewrite decide_False in Hk by done.
  destruct (fs !! (place ++ _)) as [[?|]|]; done.
Qed.
Print Assumptions C79_partial.

(** Elsewhere it is not: with CARGO_TARGET_DIR the header misses the directory of the library;
    a target directory of another name panics; a target directory that is the directory of the
    crate empties the header. *)
Theorem C79_refuted fs crate target triple profile pkg bytes : tree fs -> crate <> target ->
  Forall ordinary crate -> Forall ordinary target ->
  (match triple with Some t => ordinary t | None => True end) -> ordinary profile -> ordinary pkg ->
  fs !! (crate ++ ["gphrx.h"%string]) = Some (File bytes) -> fs !! target = Some Dir ->
  fs !! (target ++ ["gphrx.h"%string]) = None ->
  let place := artifacts target triple profile in
  fs !! (place ++ ["gphrx.h"%string]) = None ->
  let out := Some (path_text (cargo_out target triple profile pkg)) in
  (exists fs', build_script (BuildEnv (Some (path_text crate)) (Some (path_text target)) out crate) fs = Ret fs' /\
     fs' !! (target ++ ["gphrx.h"%string]) = Some (File bytes) /\ fs' !! (place ++ ["gphrx.h"%string]) = None) /\
  (last target <> Some "target"%string -> triple <> Some "target"%string ->
   last (removelast target) <> Some "target"%string ->
     build_script (BuildEnv (Some (path_text crate)) None out crate) fs = Panic) /\
  (exists fs', build_script (BuildEnv (Some (path_text crate)) (Some (path_text crate)) out crate) fs = Ret fs' /\
     fs' !! (crate ++ ["gphrx.h"%string]) = Some (File [])).
Proof.
  intros Hfs Hne Hc Ht Htr Hpr Hpk Hh Hd Hno place Hpl out.
  assert (fs !! crate = Some Dir) as Hcd by (eapply Hfs; by rewrite Hh). split_and!.
  - destruct (C79_exact (BuildEnv (Some (path_text crate)) (Some (path_text target)) out crate) fs crate) as [H _]; try done.
    specialize (H target eq_refl Ht). unfold copies in H. rewrite Hh, Hd, Hno, decide_False in H by done.
    destruct H as (fs' & E & H1 & H2). exists fs'. split_and!; [done|done|]. rewrite H2; [done|].
    unfold place, artifacts. rewrite <-app_assoc. intros Hq. apply app_inv_head in Hq. by destruct triple.
  - intros H1 H2 H3.
    destruct (C79_exact (BuildEnv (Some (path_text crate)) None out crate) fs crate) as [_ H]; try done.
    destruct (H _ eq_refl eq_refl) as [_ H']; [by apply out_ordinary|]. apply H'; clear H H'.
    + rewrite iter_4, out_up. unfold artifacts.
      rewrite app_assoc, removelast_last. destruct triple as [t|]; [|by rewrite app_nil_r].
      rewrite last_snoc. naive_solver.
    + rewrite iter_5, out_up. unfold artifacts.
      rewrite app_assoc, removelast_last. destruct triple as [t|]; [by rewrite removelast_last|].
      by rewrite app_nil_r.
  - destruct (C79_exact (BuildEnv (Some (path_text crate)) (Some (path_text crate)) out crate) fs crate) as [H _]; try done.
    specialize (H crate eq_refl Hc). unfold copies in H. rewrite Hh, Hcd, decide_True in H by done.
    destruct H as (fs' & E & H1 & _). by exists fs'.
Qed.
Print Assumptions C79_refuted.

(** A file system with the root, some directories and one file. *)
Definition file_tree (dirs : list (list string)) (file : list string) (bytes : list N) : filesystem :=
  <[file := File bytes]> (list_to_map ((fun d => (d, Dir)) <$> [] :: dirs)).
Lemma file_tree_tree dirs file bytes : file <> [] ->
  forallb (fun d => bool_decide (removelast d ∈ [] :: dirs)) (file :: dirs) = true ->
  file ∉ dirs -> tree (file_tree dirs file bytes).
Proof.
  intros Hne Hup Hno. unfold file_tree.
  assert (forall d, d ∈ [] :: dirs -> <[file := File bytes]> (list_to_map
    ((fun d => (d, Dir)) <$> [] :: dirs) : filesystem) !! d = Some Dir) as Hdir.
  { intros d Hd. rewrite lookup_insert_ne by (intros <-; apply elem_of_cons in Hd as [|]; done).
    revert Hd. generalize ([] :: dirs). clear. intros l Hl. induction Hl as [d l|d d' l Hl IH].
    - apply lookup_insert.
    - rewrite fmap_cons. cbn [list_to_map foldr]. destruct (decide (d' = d)) as [->|Hne].
      + apply lookup_insert.
      + by rewrite lookup_insert_ne. }
  split; [apply Hdir; by left|]. intros place n Hn. apply Hdir.
  assert (place ++ [n] ∈ file :: dirs) as Hin.
  { destruct (decide (file = place ++ [n])) as [->|Hf]; [by left|].
    rewrite lookup_insert_ne in Hn by done.
    destruct (list_to_map _ !! (place ++ [n])) as [x|] eqn:E in Hn; [|done].
    apply elem_of_list_to_map_2, elem_of_list_fmap in E as (d & [= <- _] & Hd).
    apply elem_of_cons in Hd as [Hd|Hd]; [by destruct place|by right]. }
  rewrite forallb_forall in Hup. apply elem_of_list_In in Hin. specialize (Hup _ Hin).
  apply bool_decide_eq_true in Hup. by rewrite removelast_last in Hup.
Qed.

(** A workspace with a cross-compiled release build. *)
Example C79_case :
  let fs := file_tree [["w"]; ["w"; "graphrox-c"]; ["w"; "target"]; ["w"; "target"; "aarch64-apple-darwin"];
    ["w"; "target"; "aarch64-apple-darwin"; "release"]]%string
    ["w"; "graphrox-c"; "gphrx.h"]%string [35; 105] in
  tree fs /\
  path_text (cargo_out ["w"; "target"] (Some "aarch64-apple-darwin") "release" "graphrox-c-0b")%string =
    "/w/target/aarch64-apple-darwin/release/build/graphrox-c-0b/out"%string /\
  components "./a//b/../c/."%string = [CurDir; Normal "a"; Normal "b"; ParentDir; Normal "c"]%string /\
  match build_script (BuildEnv (Some "/w/graphrox-c"%string) None
    (Some "/w/target/aarch64-apple-darwin/release/build/graphrox-c-0b/out"%string) ["w"; "graphrox-c"]%string) fs with
  | Ret fs' => fs' !! ["w"; "target"; "aarch64-apple-darwin"; "release"; "gphrx.h"]%string = Some (File [35; 105])
  | _ => False
  end /\
  build_script (BuildEnv (Some "/w/graphrox-c"%string) None
    (Some "/w/out/aarch64-apple-darwin/release/build/graphrox-c-0b/out"%string) ["w"; "graphrox-c"]%string) fs = Panic.
Proof.
  split; [|split_and!; by vm_compute]. apply file_tree_tree; [done|by vm_compute|].
  by apply (bool_decide_eq_true_1 (_ ∉ _)).
Qed.

(** ** Any text as a path *)

Definition slashed (pieces : list string) : string := String.concat "/" pieces.

(** The pieces between the slashes lead from one directory to another: empty pieces and "."
    stay, ".." goes up, and a name goes down. *)
Inductive leads (fs : filesystem) : list string -> list string -> list string -> Prop :=
| leads_here place : leads fs place [] place
| leads_stay place n ns to : n = ""%string \/ n = "."%string -> leads fs place ns to ->
    leads fs place (n :: ns) to
| leads_up place ns to : leads fs (removelast place) ns to -> leads fs place (".."%string :: ns) to
| leads_down place n ns to : n <> ""%string -> n <> "."%string -> n <> ".."%string ->
    fs !! (place ++ [n]) = Some Dir -> leads fs (place ++ [n]) ns to -> leads fs place (n :: ns) to.

(** A path that begins with a slash starts at the root. *)
Definition start (cwd pieces : list string) : list string :=
  match pieces with ""%string :: _ :: _ => [] | _ => cwd end.

(** [from] and [to] are the directories that the pieces lead to. *)
Definition copies_between (fs : filesystem) (cwd crate target : list string) (o : outcome filesystem)
    (cwd' : list string) : Prop :=
  (forall from to, leads fs (start cwd crate) crate from -> leads fs cwd' target to ->
     copies fs from to o) /\
  ((forall from, ~ leads fs (start cwd crate) crate from) \/ (forall to, ~ leads fs cwd' target to) ->
   o = Panic).

Lemma split_slashed pieces : pieces <> [] -> Forall no_slash pieces ->
  split_path (slashed pieces) = pieces.
Proof.
  unfold slashed. intros Hne H. induction H as [|n pieces Hn H IH]; [done|]. destruct pieces as [|n' pieces].
  - simpl. rewrite <-(string_app_nil n) at 1. rewrite split_name by done. simpl. by rewrite string_app_nil.
  - change (String.concat "/" (n :: n' :: pieces))%string
      with (n ++ ("/" ++ String.concat "/" (n' :: pieces)))%string.
    rewrite split_name by done.
    change (("/" ++ String.concat "/" (n' :: pieces))%string)
      with (String "/" (String.concat "/" (n' :: pieces))).
    cbn [split_path]. change (Ascii.eqb "/" "/") with true. cbv iota. rewrite IH by done.
    by rewrite string_app_nil.
Qed.

Lemma leads_pieces fs place pieces to :
  leads fs place pieces to <-> resolve fs place (mbind piece pieces) = Some to.
Proof.
  revert place. induction pieces as [|n pieces IH]; intros place.
  - simpl. split; [inversion 1; by subst|]. intros [= ->]. constructor.
  - rewrite bind_cons, resolve_app. unfold piece at 1.
    destruct (String.eqb_spec n "") as [->|H1];
      [|destruct (String.eqb_spec n ".") as [->|H2];
        [|destruct (String.eqb_spec n "..") as [->|H3]]].
    + simpl. rewrite <-IH. split; [inversion 1; by subst|]. intros. apply leads_stay; [by left|done].
    + simpl. rewrite <-IH. split; [inversion 1; by subst|]. intros. apply leads_stay; [by right|done].
    + simpl. rewrite <-IH. split; [inversion 1; subst; naive_solver|]. apply leads_up.
    + cbn [resolve enter]. destruct (fs !! (place ++ [n])) as [[?|]|] eqn:E.
      2: { simpl. rewrite <-IH. split; [inversion 1; subst; naive_solver|]. by apply leads_down. }
      all: simpl; split; [inversion 1; subst; naive_solver|done].
Qed.

(** The pieces that are not skipped. *)
Definition kept (pieces : list string) : list string :=
  filter (fun n => n <> ""%string /\ n <> "."%string) pieces.

Lemma kept_idem pieces : kept (kept pieces) = kept pieces.
Proof.
  unfold kept. rewrite list_filter_filter. apply list_filter_iff. tauto.
Qed.
Lemma pieces_kept pieces : mbind piece (kept pieces) = mbind piece pieces.
Proof.
  induction pieces as [|n pieces IH]; [done|]. unfold kept. rewrite filter_cons, bind_cons.
  fold (kept pieces). case_decide as H.
  - by rewrite bind_cons, IH.
  - rewrite IH. unfold piece at 2. destruct (String.eqb_spec n ""); [done|].
    destruct (String.eqb_spec n "."); [done|]. tauto.
Qed.
Definition as_component (n : string) : component :=
  if String.eqb n ".." then ParentDir else Normal n.
Lemma kept_components pieces : kept pieces = pieces -> mbind piece pieces = map as_component pieces.
Proof.
  intros <-. induction pieces as [|n pieces IH]; [done|]. unfold kept. rewrite filter_cons.
  fold (kept pieces). case_decide as H; [|done]. rewrite bind_cons, IH. unfold piece, as_component. simpl.
  destruct H as [H1 H2]. destruct (String.eqb_spec n ""); [done|]. destruct (String.eqb_spec n "."); [done|].
  by destruct (String.eqb n "..").
Qed.

(** A path that means the same as its pieces, from the root if [r]. *)
Definition means (r : bool) (p : path) (pieces : list string) : Prop :=
  exists first, p = first ++ map as_component pieces /\
    (if r then first = [RootDir] else first = [] \/ first = [CurDir]).
Definition rooted (pieces : list string) : bool :=
  match pieces with ""%string :: _ :: _ => true | _ => false end.

Lemma means_components pieces : pieces <> [] -> Forall no_slash pieces ->
  means (rooted pieces) (components (slashed pieces)) (kept pieces).
Proof.
  intros Hne Hs. unfold components. rewrite split_slashed by done.
  unfold means. rewrite <-kept_components by apply kept_idem. rewrite pieces_kept.
  destruct pieces as [|n pieces]; [done|]. rewrite bind_cons.
  destruct (String.eqb_spec n "") as [->|H1].
  - destruct pieces as [|n' pieces]; [exists []; split; [done|by left]|].
    exists [RootDir]. split; [|done].
    destruct (String.eqb_spec (slashed (""%string :: n' :: pieces)) "") as [E|E]; [done|]. done.
  - assert (rooted (n :: pieces) = false) as -> by (destruct n; [done|]; by destruct pieces).
    destruct (String.eqb_spec (slashed (n :: pieces)) "") as [E|E].
    { unfold slashed in E. destruct n; [done|]. by destruct pieces. }
    destruct (String.eqb_spec n ".") as [->|H2].
    + exists [CurDir]. split; [done|by right].
    + exists []. split; [done|by left].
Qed.

Lemma means_pop r p pieces : means r p pieces -> means r (path_pop p) (removelast pieces).
Proof.
  intros (first & -> & Hf). destruct pieces as [|n pieces _] using rev_ind.
  - cbn [map removelast]. rewrite app_nil_r. destruct r.
    + subst. by exists [RootDir].
    + exists []. destruct Hf as [-> | ->]; split; try done; by left.
  - rewrite removelast_last, map_app. change (map as_component [n]) with [as_component n].
    rewrite app_assoc. unfold path_pop. rewrite last_snoc, removelast_last.
    exists first. split; [|done]. unfold as_component at 1. by destruct (String.eqb n "..").
Qed.
Lemma means_named r p pieces n : n <> ".."%string -> means r p pieces ->
  is_named p n = true <-> last pieces = Some n.
Proof.
  intros Hn (first & -> & Hf). destruct pieces as [|x pieces _] using rev_ind.
  - cbn [map last]. rewrite app_nil_r. destruct r; [by subst|]. by destruct Hf as [-> | ->].
  - rewrite map_app, app_assoc. change (map as_component [x]) with [as_component x].
    unfold is_named, file_name. rewrite !last_snoc. unfold as_component.
    destruct (String.eqb_spec x "..") as [->|Hx].
    + split; [done|]. by intros [= <-].
    + rewrite String.eqb_eq. naive_solver.
Qed.
Lemma means_resolve fs cwd r p pieces to : kept pieces = pieces -> means r p pieces ->
  resolve fs cwd p = Some to <-> leads fs (if r then [] else cwd) pieces to.
Proof.
  intros Hk (first & -> & Hf). rewrite leads_pieces, (kept_components pieces Hk). destruct r.
  - subst. done.
  - by destruct Hf as [-> | ->].
Qed.
Lemma leads_kept fs place pieces to : leads fs place (kept pieces) to <-> leads fs place pieces to.
Proof. by rewrite !leads_pieces, pieces_kept. Qed.

Lemma start_rooted cwd pieces : (if rooted pieces then [] else cwd) = start cwd pieces.
Proof. by destruct pieces as [|[|] [|]]. Qed.

Lemma kept_removelast pieces : kept pieces = pieces -> kept (removelast pieces) = removelast pieces.
Proof.
  destruct pieces as [|n pieces _] using rev_ind; [done|]. rewrite removelast_last.
  unfold kept. rewrite filter_app. intros E.
  apply (f_equal length) in E as El. rewrite !app_length in El.
  pose proof (filter_length (fun n => n <> ""%string /\ n <> "."%string) pieces).
  pose proof (filter_length (fun n => n <> ""%string /\ n <> "."%string) [n]).
  apply app_inj_1 in E as [E _]; [done|]. simpl length in *. lia.
Qed.

(** The directory of the crate, and the pieces of the path of the target. *)
Lemma build_between v fs crate dir r pieces :
  crate <> [] -> Forall no_slash crate -> cargo_manifest_dir v = Some (slashed crate) ->
  find_target_dir v = Ret dir -> kept pieces = pieces -> means r dir pieces ->
  copies_between fs (work_dir v) crate pieces (build_script v fs) (if r then [] else work_dir v).
Proof.
  intros Hne Hs Em Et Hk Hd. unfold build_script. rewrite Em, Et. cbv beta iota delta [obind].
  rewrite !locate_join.
  pose proof (means_components crate Hne Hs) as Hc.
  assert (forall from, resolve fs (work_dir v) (components (slashed crate)) = Some from <->
    leads fs (start (work_dir v) crate) crate from) as Hfrom.
  { intros from. rewrite (means_resolve fs (work_dir v) _ _ _ from (kept_idem crate) Hc).
    by rewrite leads_kept, start_rooted. }
  pose proof (fun to => means_resolve fs (work_dir v) r dir pieces to Hk Hd) as Hto.
  split.
  - intros from to E1 E2. apply Hfrom in E1. apply Hto in E2. rewrite E1, E2. apply fs_copy_copies.
  - intros H. destruct (resolve fs (work_dir v) (components (slashed crate))) as [from|]; [|done].
    destruct (resolve fs (work_dir v) dir) as [to|]; [|done].
    destruct H as [H|H]; [destruct (H from); by apply Hfrom|destruct (H to); by apply Hto].
Qed.

(** What the script does, whatever the texts in the environment: CARGO_TARGET_DIR names the
    directory of the header; without it the last three pieces of OUT_DIR are dropped, and one or
    two pieces further up there must be "target". *)
Theorem C79_any_path v fs crate : crate <> [] -> Forall no_slash crate ->
  cargo_manifest_dir v = Some (slashed crate) ->
  (forall target, target <> [] -> Forall no_slash target -> cargo_target_dir v = Some (slashed target) ->
     copies_between fs (work_dir v) crate target (build_script v fs) (start (work_dir v) target)) /\
  (forall out, out <> [] -> Forall no_slash out -> cargo_target_dir v = None ->
     out_dir v = Some (slashed out) ->
     let at_level k := last (Nat.iter k (@removelast string) (kept out)) in
     (at_level 4%nat = Some "target"%string \/ at_level 5%nat = Some "target"%string ->
        copies_between fs (work_dir v) crate (Nat.iter 3 (@removelast string) (kept out))
          (build_script v fs) (start (work_dir v) out)) /\
     (at_level 4%nat <> Some "target"%string -> at_level 5%nat <> Some "target"%string ->
        build_script v fs = Panic)).
Proof.
  intros Hne Hs Em. split.
  - intros target Ht Hts Et.
    assert (copies_between fs (work_dir v) crate (kept target) (build_script v fs)
      (start (work_dir v) target)) as [H1 H2].
    { rewrite <-start_rooted. eapply build_between; [done..| |apply kept_idem|by apply means_components].
      unfold find_target_dir. by rewrite Et. }
    split.
    + intros from to Hf Hto. apply H1; [done|]. by apply leads_kept.
    + intros [H|H]; apply H2; [by left|right]. intros to Hto. apply (H to). by apply leads_kept.
  - intros out Ho Hos Et Eo. cbv zeta.
    pose proof (means_components out Ho Hos) as Hm.
    set (k3 := Nat.iter 3 (@removelast string) (kept out)).
    set (d3 := Nat.iter 3 path_pop (components (slashed out))).
    assert (means (rooted out) d3 k3) as H3 by by do 3 apply means_pop.
    pose proof (means_pop _ _ _ H3) as H4. pose proof (means_pop _ _ _ H4) as H5.
    assert (kept k3 = k3) as Hk by (do 3 apply kept_removelast; apply kept_idem).
    change (Nat.iter 4 (@removelast string) (kept out)) with (removelast k3).
    change (Nat.iter 5 (@removelast string) (kept out)) with (removelast (removelast k3)).
    assert (find_target_dir v =
      if is_named (path_pop d3) "target" then Ret d3
      else if is_named (path_pop (path_pop d3)) "target" then Ret d3 else Panic) as Ef.
    { unfold find_target_dir. by rewrite Et, Eo. }
    pose proof (means_named _ _ _ "target"%string ltac:(done) H4) as N4.
    pose proof (means_named _ _ _ "target"%string ltac:(done) H5) as N5. split.
    + intros H. rewrite <-start_rooted. apply (build_between v fs crate d3); try done.
      rewrite Ef. destruct H as [H|H].
      * by rewrite (proj2 N4 H).
      * rewrite (proj2 N5 H). by destruct (is_named (path_pop d3) "target").
    + intros H H'. unfold build_script. rewrite Em, Ef.
      destruct (is_named (path_pop d3) "target"); [by destruct H; apply N4|].
      by destruct (is_named (path_pop (path_pop d3)) "target"); [destruct H'; apply N5|].
Qed.
Print Assumptions C79_any_path.

(** Every text is made of pieces without slashes. *)
Theorem C79_texts t : exists pieces, pieces <> [] /\ Forall no_slash pieces /\ t = slashed pieces.
Proof.
  induction t as [|c t (pieces & Hne & Hs & ->)]; [exists [""%string]; split_and!; [done|by repeat constructor|done]|].
  destruct pieces as [|n pieces]; [done|]. destruct (decide (c = "/"%char)) as [->|Hc].
  - exists (""%string :: n :: pieces). split_and!; [done|by constructor|done].
  - exists (String c n :: pieces). split_and!; [done| |].
    + inversion Hs; subst. by constructor.
    + unfold slashed. by destruct pieces.
Qed.
Print Assumptions C79_texts.

(** Relative paths, and a directory that is missing on the way. *)
Example C79_any_path_case :
  let fs := file_tree [["w"]; ["w"; "c"]; ["w"; "t"]]%string ["w"; "c"; "gphrx.h"]%string [35; 105] in
  match build_script (BuildEnv (Some "."%string) (Some "..//t/."%string) None ["w"; "c"]%string) fs with
  | Ret fs' => fs' !! ["w"; "t"; "gphrx.h"]%string = Some (File [35; 105])
  | _ => False
  end /\
  leads fs ["w"; "c"]%string [".."; ""; "t"; "."]%string ["w"; "t"]%string /\
  slashed [".."; ""; "t"; "."]%string = "..//t/."%string /\
  build_script (BuildEnv (Some "."%string) (Some "x/../../t"%string) None ["w"; "c"]%string) fs = Panic.
Proof.
  cbv zeta. split; [by vm_compute|]. split; [|split; by vm_compute].
  apply leads_up. apply leads_stay; [by left|]. apply leads_down; [done..|by vm_compute|].
  apply leads_stay; [by right|]. constructor.
Qed.
