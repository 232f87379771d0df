(** Model of graphrox-py/build-dlls.sh and of the list of packaged files in
    graphrox-py/pyproject.toml.

    Simplifications: what cargo does is given by whether each of its runs succeeds; the library of
    a target is there once its build has succeeded. Copying the libraries to the package, under
    the names of __init__.py:10-30, is not part of any script. Of the patterns of setuptools only
    the star is modelled, for names without a slash that do not begin with a dot. *)
From Coq Require Import Ascii String.
From Verif Require Import Base.

(** ** build-dlls.sh *)

Inductive command : Type :=
| CargoTest                      (* cargo test --release *)
| CargoBuild (target : string).  (* cargo build --release --target ... *)

(** 14-18 (19-21 are comments). *)
Definition dll_commands : list command :=
  [CargoTest; CargoBuild "aarch64-apple-darwin"; CargoBuild "aarch64-unknown-linux-gnu";
   CargoBuild "x86_64-apple-darwin"; CargoBuild "x86_64-unknown-linux-gnu"].

(** Commands joined by [&&]: which are run, and whether the last one run succeeds. *)
Fixpoint and_list (ok : command -> bool) (cs : list command) : list command * bool :=
  match cs with
  | [] => ([], true)
  | c :: cs =>
      if ok c then let '(ran, status) := and_list ok cs in (c :: ran, status) else ([c], false)
  end.

(** The targets whose libraries are there after running commands. *)
Definition built (ok : command -> bool) (ran : list command) : list string :=
  omap (fun c => match c with CargoBuild t => if ok c then Some t else None | CargoTest => None end) ran.

(** 1-23: [cd_ok] says whether the last line, [cd graphrox-py], succeeds. The status of the script
    is that of its last command; the shell does not stop at line 18. *)
Definition build_dlls (ok : command -> bool) (cd_ok : bool) : list string * bool :=
  let '(ran, _) := and_list ok dll_commands in (built ok ran, cd_ok).

(** ** pyproject.toml *)

(** 29 *)
Definition package_data : list string := ["*.dylib"; "*.dll"; "*.so"]%string.

(** Matching a file name against a pattern. *)
Fixpoint glob (pattern : string) : string -> bool :=
  match pattern with
  | EmptyString => fun s => String.eqb s ""
  | String c pattern' =>
      if (N_of_ascii c =? 42)%N (* a star *) then
        fix star (s : string) : bool :=
          glob pattern' s || match s with EmptyString => false | String _ s' => star s' end
      else fun s =>
        match s with
        | EmptyString => false
        | String d s' => Ascii.eqb c d && glob pattern' s'
        end
  end.

Definition packaged (file : string) : bool := existsb (fun pattern => glob pattern file) package_data.
