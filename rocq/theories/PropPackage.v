(** Property C98: from the build script to the library that is loaded. *)
From Coq Require Import Ascii String.
From Verif Require Import Base F64 Numeric Sq Standard Compressed CApi Py Script ScriptSpec ScriptProofs
  Package PropCommon PropScript.

(** ** Lemmas *)

Lemma string_app_assoc (a b c : string) : ((a ++ b) ++ c = a ++ (b ++ c))%string.
Proof.
  induction a as [|x a IH]; [done|].
  change (String x ((a ++ b) ++ c) = String x (a ++ (b ++ c)))%string. by rewrite IH.
Qed.

(** A pattern without stars. *)
Fixpoint plain (s : string) : bool :=
  match s with EmptyString => true | String c s' => negb (N_of_ascii c =? 42)%N && plain s' end.

Lemma glob_plain pat s : plain pat = true -> glob pat s = true <-> s = pat.
Proof.
  revert s. induction pat as [|c pat IH]; intros s H; simpl in *.
  - by rewrite String.eqb_eq.
  - apply andb_true_iff in H as [Hc H]. apply negb_true_iff in Hc. rewrite Hc.
    destruct s as [|d s]; [done|]. rewrite andb_true_iff, IH, Ascii.eqb_eq by done.
    split; [intros [-> ->]; done|by intros [= -> ->]].
Qed.

Lemma glob_star pat s : plain pat = true ->
  glob (String "*" pat) s = true <-> exists base, s = (base ++ pat)%string.
Proof.
  intros H. induction s as [|c s IH].
  - change (glob (String "*" pat) "") with (glob pat "" || false). rewrite orb_false_r.
    rewrite glob_plain by done. split.
    + intros <-. by exists ""%string.
    + intros [[|d base] E]; [done|]. done.
  - change (glob (String "*" pat) (String c s)) with (glob pat (String c s) || glob (String "*" pat) s).
    rewrite orb_true_iff, IH, glob_plain by done. split.
    + intros [<-|[base ->]]; [by exists ""%string|by exists (String c base)].
    + intros [[|d base] E]; [by left|]. right. injection E as -> ->. eauto.
Qed.

(** A command is run exactly when all before it have succeeded. *)
Lemma and_list_run ok cs c : c ∈ (and_list ok cs).1 <->
  exists before after, cs = before ++ c :: after /\ Forall (fun d => ok d = true) before.
Proof.
  induction cs as [|d cs IH]; simpl.
  - split; [by intros ?%elem_of_nil|]. intros ([|] & after & [=] & _).
  - destruct (ok d) eqn:E.
    + destruct (and_list ok cs) as [ran status]. simpl in *. rewrite elem_of_cons, IH. split.
      * intros [->|(before & after & -> & Hb)]; [exists [], cs; split; [done|constructor]|].
        exists (d :: before), after. split; [done|by constructor].
      * intros ([|d' before] & after & [= -> Ecs] & Hb); [by left|]. right.
        apply Forall_cons_1 in Hb as [_ Hb]. eauto.
    + simpl. rewrite elem_of_list_singleton. split.
      * intros ->. exists [], cs. split; [done|constructor].
      * intros ([|d' before] & after & [= -> Ecs] & Hb); [done|].
        apply Forall_cons_1 in Hb as [Hd _]. congruence.
Qed.

(** ** C98 *)

(** What is packaged: the files with the three endings. *)
Theorem C98_packaged file : packaged file = true <->
  exists base ending, file = (base ++ ending)%string /\ ending ∈ [".dylib"; ".dll"; ".so"]%string.
Proof.
  change (packaged file) with (glob (String "*" ".dylib") file || (glob (String "*" ".dll") file ||
    (glob (String "*" ".so") file || false))).
  rewrite !orb_true_iff.
  rewrite !glob_star by done. split.
  - intros [[base ->]|[[base ->]|[[base ->]|[=]]]]; eexists base, _; (split; [done|]);
      repeat first [left|right].
  - intros (base & ending & -> & Hin). rewrite !elem_of_cons in Hin.
    destruct Hin as [->|[->|[->|[]%elem_of_nil]]]; eauto.
Qed.
Print Assumptions C98_packaged.

(** Every library the loader asks for, on whatever system, is packaged if it is in the package. *)
Theorem C98_loaded_is_packaged os machine file : dll_name os machine = Some file -> packaged file = true.
Proof.
  intros H. apply (C75_partial os machine (str_lower machine)) in H; [|by apply str_lower_cased].
  destruct H as (part & Hin & H). apply C98_packaged. unfold os_table in Hin.
  rewrite !elem_of_cons in Hin.
  destruct Hin as [[= -> ->]|[[= -> ->]|[[= -> ->]|[]%elem_of_nil]]];
    destruct H as [[_ ->]|[_ ->]].
  - exists "graphrox-x86_64-unknown-linux-gnu"%string, ".so"%string. split; [done|]. repeat first [left|right].
  - exists "graphrox-aarch64-unknown-linux-gnu"%string, ".so"%string. split; [done|]. repeat first [left|right].
  - exists "graphrox-x86_64-w64"%string, ".dll"%string. split; [done|]. repeat first [left|right].
  - exists "graphrox-aarch64-w64"%string, ".dll"%string. split; [done|]. repeat first [left|right].
  - exists "graphrox-x86_64-apple-darwin"%string, ".dylib"%string. split; [done|]. repeat first [left|right].
  - exists "graphrox-aarch64-apple-darwin"%string, ".dylib"%string. split; [done|]. repeat first [left|right].
Qed.
Print Assumptions C98_loaded_is_packaged.

(** The library of a target is built exactly when the tests, the builds the script does before it
    and its own succeed. *)
Theorem C98_built ok cd_ok target : target ∈ (build_dlls ok cd_ok).1 <->
  exists before after, dll_commands = before ++ CargoBuild target :: after /\
    Forall (fun c => ok c = true) (before ++ [CargoBuild target]).
Proof.
  unfold build_dlls. pose proof (and_list_run ok dll_commands) as H.
  destruct (and_list ok dll_commands) as [ran status]. simpl in *.
  unfold built. rewrite elem_of_list_omap. split.
  - intros ([|t] & Hin & E); [done|]. destruct (ok (CargoBuild t)) eqn:Eo; [|done]. injection E as ->.
    apply H in Hin as (before & after & Ec & Hb). exists before, after. split; [done|].
    apply Forall_app. split; [done|]. by constructor.
  - intros (before & after & Ec & Hb). apply Forall_app in Hb as [Hb Ho].
    apply Forall_cons_1 in Ho as [Ho _]. exists (CargoBuild target). rewrite Ho. split; [|done].
    apply H. eauto.
Qed.
Print Assumptions C98_built.

(** Nothing is built unless the tests pass. *)
Theorem C98_tested ok cd_ok : ok CargoTest = false -> (build_dlls ok cd_ok).1 = [].
Proof. intros H. unfold build_dlls, dll_commands. simpl. by rewrite H. Qed.
Print Assumptions C98_tested.

(** The status of the script does not tell: it is the same for failed tests and builds. *)
Theorem C98_status ok cd_ok : (build_dlls ok cd_ok).2 = cd_ok.
Proof. unfold build_dlls. by destruct (and_list ok dll_commands). Qed.
Print Assumptions C98_status.

(** The targets the script can build are exactly those whose libraries are asked for on Linux and
    macOS: their names are the target and the ending of the system. *)
Theorem C98_targets target : (exists ok cd_ok, target ∈ (build_dlls ok cd_ok).1) <->
  exists os machine ending, (os, ending) ∈ [("Linux", ".so"); ("Darwin", ".dylib")]%string /\
    dll_name os machine = Some ("graphrox-" ++ target ++ ending)%string.
Proof.
  assert ((exists ok cd_ok, target ∈ (build_dlls ok cd_ok).1) <->
    target ∈ ["aarch64-apple-darwin"; "aarch64-unknown-linux-gnu"; "x86_64-apple-darwin";
              "x86_64-unknown-linux-gnu"]%string) as ->.
  { split.
    - intros (ok & cd_ok & H). apply C98_built in H as (before & after & E & _).
      assert (CargoBuild target ∈ dll_commands) as Hin by (rewrite E; apply elem_of_app; right; left).
      unfold dll_commands in Hin. rewrite !elem_of_cons in Hin.
      destruct Hin as [[=]|[[= ->]|[[= ->]|[[= ->]|[[= ->]|[]%elem_of_nil]]]]]; repeat first [left|right].
    - intros H. exists (fun _ => true), true. exact H. }
  split.
  - intros H. rewrite !elem_of_cons in H. destruct H as [->|[->|[->|[->|[]%elem_of_nil]]]].
    + exists "Darwin"%string, "arm64"%string, ".dylib"%string. split; [right; left|done].
    + exists "Linux"%string, "aarch64"%string, ".so"%string. split; [left|done].
    + exists "Darwin"%string, "x86_64"%string, ".dylib"%string. split; [right; left|done].
    + exists "Linux"%string, "x86_64"%string, ".so"%string. split; [left|done].
  - intros (os & machine & ending & Hin & H).
    apply (C75_partial os machine (str_lower machine)) in H; [|by apply str_lower_cased].
    destruct H as (part & Hp & H). unfold os_table in Hp. rewrite !elem_of_cons in Hp.
    assert (forall a b e : string, (a ++ e = b ++ e)%string -> a = b) as Hinj.
    { clear. intros a b e E. apply (f_equal list_ascii_of_string) in E.
      assert (forall x y, list_ascii_of_string (x ++ y) = list_ascii_of_string x ++ list_ascii_of_string y) as Ha.
      { clear. induction x as [|c x IH]; intros y; [done|].
        change (c :: list_ascii_of_string (x ++ y) = c :: list_ascii_of_string x ++ list_ascii_of_string y).
        by rewrite IH. }
      rewrite !Ha in E. apply app_inv_tail in E.
      apply (f_equal string_of_list_ascii) in E. by rewrite !string_of_list_ascii_of_string in E. }
    assert (forall a b e : string, ("graphrox-" ++ a ++ e = b ++ e)%string -> ("graphrox-" ++ a = b)%string) as Hinj'.
    { intros a b e E. rewrite <- string_app_assoc in E. by apply Hinj in E. }
    rewrite !elem_of_cons in Hin.
    destruct Hin as [[= -> ->]|[[= -> ->]|[]%elem_of_nil]];
    destruct Hp as [Hp|[Hp|[Hp|[]%elem_of_nil]]]; try discriminate Hp; injection Hp as ->;
    destruct H as [[_ E]|[_ E]].
    + apply (Hinj' _ "graphrox-x86_64-unknown-linux-gnu"%string ".so"%string) in E. injection E as ->. repeat first [left|right].
    + apply (Hinj' _ "graphrox-aarch64-unknown-linux-gnu"%string ".so"%string) in E. injection E as ->. repeat first [left|right].
    + apply (Hinj' _ "graphrox-x86_64-apple-darwin"%string ".dylib"%string) in E. injection E as ->. repeat first [left|right].
    + apply (Hinj' _ "graphrox-aarch64-apple-darwin"%string ".dylib"%string) in E. injection E as ->. repeat first [left|right].
Qed.
Print Assumptions C98_targets.

(** No library that is asked for on Windows is one of a target the script builds. *)
Theorem C98_windows ok cd_ok machine target ending : target ∈ (build_dlls ok cd_ok).1 ->
  dll_name "Windows" machine <> Some ("graphrox-" ++ target ++ ending)%string.
Proof.
  intros H E. apply C98_built in H as (before & after & Ec & _).
  assert (CargoBuild target ∈ dll_commands) as Hin by (rewrite Ec; apply elem_of_app; right; left).
  unfold dll_commands in Hin. rewrite !elem_of_cons in Hin.
  unfold dll_name in E. simpl in E.
  destruct Hin as [[=]|[[= ->]|[[= ->]|[[= ->]|[[= ->]|[]%elem_of_nil]]]]];
    (destruct (_ || _) in E; [discriminate E|]; destruct (_ || _) in E; discriminate E).
Qed.
Print Assumptions C98_windows.

(** The script: everything succeeds; the second build fails, and the script does not say so. *)
Example C98_case :
  build_dlls (fun _ => true) true =
    (["aarch64-apple-darwin"; "aarch64-unknown-linux-gnu"; "x86_64-apple-darwin";
      "x86_64-unknown-linux-gnu"]%string, true) /\
  build_dlls (fun c => match c with CargoBuild t => negb (String.eqb t "aarch64-unknown-linux-gnu") | _ => true end)
    true = (["aarch64-apple-darwin"]%string, true) /\
  dll_name "Windows" "AMD64" = Some "graphrox-x86_64-w64.dll"%string /\
  packaged "graphrox-x86_64-w64.dll" = true /\ packaged "libgraphrox.a" = false /\ packaged "x.so.1" = false.
Proof. split_and!; done. Qed.
