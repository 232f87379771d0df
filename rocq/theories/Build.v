(** Model of the build script graphrox-c/build.rs.

    Paths are those of Unix.  A file system is a finite map from absolute places to files and
    directories; there are no symbolic links and every file can be read and written. *)
From Coq Require Import Ascii String.
From Verif Require Import Base.

(** std::path::Component *)
Inductive component := RootDir | CurDir | ParentDir | Normal (n : string).
Notation path := (list component).

Fixpoint split_path (s : string) : list string :=
  match s with
  | EmptyString => [EmptyString]
  | String c s =>
    if Ascii.eqb c "/" then EmptyString :: split_path s
    else match split_path s with
         | x :: l => String c x :: l
         | [] => [String c EmptyString]
         end
  end.

(** Path::components: empty pieces vanish, "." too, except at the beginning. *)
Definition piece (s : string) : list component :=
  if String.eqb s "" then [] else if String.eqb s "." then []
  else if String.eqb s ".." then [ParentDir] else [Normal s].
Definition components (s : string) : path :=
  match split_path s with
  | [] => []
  | first :: rest =>
    (if String.eqb s "" then []
     else if String.eqb first "" then [RootDir]
     else if String.eqb first "." then [CurDir] else piece first) ++ mbind piece rest
  end.

(** PathBuf::pop: the root and the empty path stay. *)
Definition path_pop (p : path) : path :=
  match last p with None | Some RootDir => p | Some _ => removelast p end.

(** Path::file_name *)
Definition file_name (p : path) : option string :=
  match last p with Some (Normal n) => Some n | _ => None end.

(** Path::join, for the name of a file. *)
Definition path_join (p : path) (n : string) : path := p ++ [Normal n].

(** build.rs:6 *)
Definition header_name : string := "gphrx.h".

Record build_env := BuildEnv
  { cargo_manifest_dir : option string;
    cargo_target_dir : option string;
    out_dir : option string;
    work_dir : list string }.

Definition is_named (p : path) (n : string) : bool :=
  match file_name p with Some x => String.eqb x n | None => false end.

(** 13-46; [None] stands for a variable that is not set or not Unicode. *)
Definition find_target_dir (v : build_env) : outcome path :=
  match cargo_target_dir v with
  | Some d => Ret (components d)
  | None =>
    match out_dir v with
    | None => Panic
    | Some d =>
      let dir := Nat.iter 3 path_pop (components d) in
      let top_target_dir := path_pop dir in
      if is_named top_target_dir "target" then Ret dir else
      let top_target_dir := path_pop top_target_dir in
      if is_named top_target_dir "target" then Ret dir else Panic
    end
  end.

Inductive node := File (bytes : list N) | Dir.
Notation filesystem := (gmap (list string) node).

(** The directory a path leads to, from the directory [place]. *)
Definition enter (fs : filesystem) (place : list string) (c : component) : option (list string) :=
  match c with
  | RootDir => Some []
  | CurDir => Some place
  | ParentDir => Some (removelast place)
  | Normal n => match fs !! (place ++ [n]) with Some Dir => Some (place ++ [n]) | _ => None end
  end.
Fixpoint resolve (fs : filesystem) (place : list string) (p : path) : option (list string) :=
  match p with
  | [] => Some place
  | c :: p => place ← enter fs place c; resolve fs place p
  end.
(** The place of the file with a path. *)
Definition locate (fs : filesystem) (cwd : list string) (p : path) : option (list string) :=
  match last p with
  | Some (Normal n) => place ← resolve fs cwd (removelast p); Some (place ++ [n])
  | _ => None
  end.

(** fs::copy(from, to).unwrap(): the file [to] is emptied first, also if it is [from]. *)
Definition fs_copy (fs : filesystem) (from to : list string) : outcome filesystem :=
  match fs !! from with
  | Some (File bytes) =>
    match fs !! removelast to, fs !! to with
    | Some Dir, (None | Some (File _)) =>
      Ret (<[to := File (if decide (from = to) then [] else bytes)]> fs)
    | _, _ => Panic
    end
  | _ => Panic
  end.

(** build.rs:5-52 *)
Definition build_script (v : build_env) (fs : filesystem) : outcome filesystem :=
  match cargo_manifest_dir v with
  | None => Panic
  | Some d =>
    obind (find_target_dir v) (fun target_dir =>
    match locate fs (work_dir v) (path_join (components d) header_name),
          locate fs (work_dir v) (path_join target_dir header_name) with
    | Some from, Some to => fs_copy fs from to
    | _, _ => Panic
    end)
  end.
