(** Model of scripts/generate_graph.py, run on the Python binding, and of the choice of the
    library file in graphrox-py/graphrox/__init__.py:5-35.

    Simplifications: files are given by their contents (opening, reading and writing
    succeed); text files contain ASCII only; numpy integers are passed to the library like
    Python integers and have no bound; when numpy cannot make an array the exception is MemoryError whatever
    the reason (numpy distinguishes sizes it cannot represent). *)
From Coq Require Import ZArith Ascii String.
From stdpp Require Import sorting.
From Verif Require Import Base F64 Numeric Sq Standard Compressed CApi Py.

(** [sc_env]: see CApi.v.  [sc_digits]: sys.int_info.default_max_str_digits, the longest
    numeral [int] accepts, if there is a limit.  [sc_array n]: numpy can make an array of
    [n] integers. *)
Record scenv : Type := ScEnv {
  sc_env : cenv;
  sc_digits : option N;
  sc_array : N -> bool;
}.

(** ** Python's text functions *)

Definition is_char (n : N) (c : ascii) : bool := N_of_ascii c =? n.

(** Iterating over a file opened in text mode (without the line ends): LF, CR and CR LF end
    a line. *)
Fixpoint file_lines (s : text) : list text :=
  match s with
  | [] => []
  | c :: s' =>
      if is_char 10 c then [] :: file_lines s'
      else if is_char 13 c then
        [] :: match s' with
              | c' :: s'' => if is_char 10 c' then file_lines s'' else file_lines s'
              | [] => []
              end
      else match file_lines s' with
           | [] => [[c]]
           | l :: ls => (c :: l) :: ls
           end
  end.

(** [str.isspace] on ASCII: tab, LF, VT, FF, CR, the separators 28 to 31 and the space. *)
Definition is_space (c : ascii) : bool :=
  let n := N_of_ascii c in
  ((9 <=? n) && (n <=? 13)) || ((28 <=? n) && (n <=? 32)).

(** [str.split()]. *)
Fixpoint str_split (s : text) : list text :=
  match s with
  | [] => []
  | c :: s' =>
      if is_space c then str_split s'
      else match s' with
           | [] => [[c]]
           | c' :: _ =>
               if is_space c' then [c] :: str_split s'
               else match str_split s' with
                    | [] => [[c]]
                    | w :: ws => (c :: w) :: ws
                    end
           end
  end.

Definition digit_of (c : ascii) : option Z :=
  let n := N_of_ascii c in
  if (48 <=? n) && (n <=? 57) then Some (Z.of_N (n - 48)) else None.

(** The digits after the first one; an underscore may stand between two digits. *)
Fixpoint int_digits (acc : Z) (s : text) : option Z :=
  match s with
  | [] => Some acc
  | c :: s' =>
      if is_char 95 c then
        match s' with
        | [] => None
        | d :: s'' => match digit_of d with
                      | Some k => int_digits (10 * acc + k) s''
                      | None => None
                      end
        end
      else match digit_of c with
           | Some k => int_digits (10 * acc + k) s'
           | None => None
           end
  end.

Definition int_unsigned (limit : option N) (s : text) : option Z :=
  match s with
  | [] => None
  | c :: s' =>
      match digit_of c with
      | None => None
      | Some k =>
          let digits := N.of_nat (length (List.filter (fun c => negb (is_char 95 c)) s)) in
          match limit with
          | Some n => if n <? digits then None else int_digits k s'
          | None => int_digits k s'
          end
      end
  end.

(** [int(s)] on a word without spaces; None stands for ValueError. *)
Definition str_int (limit : option N) (s : text) : option Z :=
  match s with
  | c :: s' =>
      if is_char 45 c then Z.opp <$> int_unsigned limit s'
      else if is_char 43 c then int_unsigned limit s'
      else int_unsigned limit s
  | [] => None
  end.

(** ** numpy *)

(** The position [a[i]] refers to in an array of length [n]; None stands for IndexError. *)
Definition np_index (n : nat) (i : Z) : option nat :=
  if ((0 <=? i) && (i <? Z.of_nat n))%Z then Some (Z.to_nat i)
  else if ((- Z.of_nat n <=? i) && (i <? 0))%Z then Some (Z.to_nat (Z.of_nat n + i))
  else None.
Definition np_get (a : list Z) (i : Z) : pm Z :=
  match (k ← np_index (length a) i; a !! k) with
  | Some z => pret z
  | None => praise IndexError
  end.
Definition np_set (a : list Z) (i z : Z) : pm (list Z) :=
  match np_index (length a) i with
  | Some k => pret (<[k := z]> a)
  | None => praise IndexError
  end.
(** np.full(n, -1, dtype=int) *)
Definition np_full (s : scenv) (n : Z) : pm (list Z) :=
  if (n <? 0)%Z then praise ValueError
  else if sc_array s (Z.to_N n) then pret (replicate (Z.to_nat n) (-1)%Z)
  else praise MemoryError.

(** ** generate_graph.py *)

(** The local variables of the reading loop; None: not assigned yet. *)
Record ids : Type := Ids {
  id_pairs : list (Z * Z);
  id0 : option Z;
  id1 : option Z;
}.

(** 13-28 and 58-73: one line.  A failing second [int] leaves the new [id0]. *)
Definition read_line (limit : option N) (v : ids) (line : text) : ids :=
  match line with
  | c :: _ =>
      if is_char 35 c then v
      else match str_split line with
           | [w0; w1] =>
               match str_int limit w0 with
               | None => v
               | Some i0 =>
                   match str_int limit w1 with
                   | None => Ids (id_pairs v) (Some i0) (id1 v)
                   | Some i1 => Ids (id_pairs v ++ [(i0, i1)]) (Some i0) (Some i1)
                   end
               end
           | _ => v
           end
  | [] => v
  end.
(** 11-28 and 56-73. *)
Definition read_ids (limit : option N) (file : text) : ids :=
  fold_left (read_line limit) (file_lines file) (Ids [] None None).

(** 30, 75: sort.  Tuples are ordered by their first, then by their second component. *)
Definition pair_le (x y : Z * Z) : Prop := (x.1 < y.1 \/ x.1 = y.1 /\ x.2 <= y.2)%Z.
Global Instance pair_le_dec x y : Decision (pair_le x y) := ltac:(unfold pair_le; apply _).
Definition sort_pairs (l : list (Z * Z)) : list (Z * Z) := merge_sort pair_le l.

(** 35-39, 80-84. *)
Fixpoint number_ids (pairs : list (Z * Z)) (id_map : list Z) (new_id : Z) : pm (list Z) :=
  match pairs with
  | [] => pret id_map
  | (i, _) :: pairs =>
      pbind (np_get id_map i) (fun old =>
      if (old =? -1)%Z
      then pbind (np_set id_map i new_id) (fun id_map => number_ids pairs id_map (new_id + 1))
      else number_ids pairs id_map new_id)
  end.

(** 30-39 and 75-84; [spare] is 2 in the first function and 1 in the second. *)
Definition make_map (s : scenv) (spare : Z) (pairs : list (Z * Z)) : pm (list Z) :=
  match last pairs with
  | None => praise IndexError
  | Some (id_max, _) =>
      pbind (np_full s (id_max + spare)) (fun id_map => number_ids pairs id_map 0)
  end.

(** 43-49. *)
Fixpoint add_pairs (e : cenv) (graph : addr) (id_map : list Z) (pairs : list (Z * Z)) : pm unit :=
  match pairs with
  | [] => pret tt
  | (from_id, to_id) :: pairs =>
      pbind (np_get id_map from_id) (fun new_from_id =>
      pbind (np_get id_map to_id) (fun new_to_id =>
      pbind (pyexec e (PAddEdge graph new_from_id new_to_id)) (fun _ =>
      add_pairs e graph id_map pairs)))
  end.

(** The results of the methods the scripts call have the classes the scripts expect. *)
Definition as_graph (v : pyval) : pm addr :=
  match v with PyGraph a => pret a | _ => praise TypeError end.
Definition as_compressed (v : pyval) : pm addr :=
  match v with PyCompressed a => pret a | _ => praise TypeError end.
Definition as_bytes (v : pyval) : pm (list N) :=
  match v with PyBytes l => pret l | _ => praise TypeError end.
Definition as_bool (v : pyval) : pm bool :=
  match v with PyBool b => pret b | _ => praise TypeError end.

(** 10-52, graph_from_text_file: from the contents of the text file to the bytes written.
    The graph is deleted when the function returns. *)
Definition graph_from_text_file (s : scenv) (file : text) : pm (list N) :=
  let e := sc_env s in
  let pairs := sort_pairs (id_pairs (read_ids (sc_digits s) file)) in
  pbind (make_map s 2 pairs) (fun id_map =>
  pbind (pbind (pyexec e (PNew (Some true))) as_graph) (fun graph =>
  pbind (add_pairs e graph id_map pairs) (fun _ =>
  pbind (pbind (pyexec e (PBytes graph)) as_bytes) (fun bytes =>
  pbind (pyexec e (PDel graph)) (fun _ => pret bytes))))).

(** 89-91: the loop looks at the variables left by the reading loop. *)
Fixpoint check_edges (e : cenv) (graph : addr) (id_map : list Z) (i0 i1 : Z)
    (pairs : list (Z * Z)) : pm (list text) :=
  match pairs with
  | [] => pret []
  | _ :: pairs =>
      pbind (np_get id_map i0) (fun n0 =>
      pbind (np_get id_map i1) (fun n1 =>
      pbind (pbind (pyexec e (PDoesEdgeExist graph n0 n1)) as_bool) (fun found =>
      pbind (check_edges e graph id_map i0 i1 pairs) (fun messages =>
      pret (if found then messages
            else (txt "Missing edge " ++ Z_text i0 ++ txt "-" ++ Z_text i1) :: messages)))))
  end.

(** 55-91, validate_graph: from the contents of the two files to the lines printed. *)
Definition validate_graph (s : scenv) (file : text) (gphrx : list N) : pm (list text) :=
  let e := sc_env s in
  let v := read_ids (sc_digits s) file in
  let pairs := sort_pairs (id_pairs v) in
  pbind (make_map s 1 pairs) (fun id_map =>
  pbind (pbind (pyexec e (PFromBytes gphrx)) as_graph) (fun graph =>
  pbind (match id0 v, id1 v with
         | Some i0, Some i1 => check_edges e graph id_map i0 i1 pairs
         | _, _ => pret []  (* cannot be: there is a pair *)
         end) (fun messages =>
  pbind (pyexec e (PDel graph)) (fun _ => pret messages)))).

(** 94-99, compress_gphrx_file: from the contents of the file to the bytes written. *)
Definition compress_gphrx_file (s : scenv) (threshold : Z) (gphrx : list N) : pm (list N) :=
  let e := sc_env s in
  pbind (pbind (pyexec e (PFromBytes gphrx)) as_graph) (fun graph =>
  pbind (pbind (pyexec e (PCompress graph threshold)) as_compressed) (fun compressed =>
  pbind (pbind (pyexec e (PCBytes compressed)) as_bytes) (fun bytes =>
  pbind (pyexec e (PCDel compressed)) (fun _ =>
  pbind (pyexec e (PDel graph)) (fun _ => pret bytes))))).

(** ** __init__.py:5-35 *)

(** [str.lower] on ASCII. *)
Definition lower_char (c : ascii) : ascii :=
  let n := N_of_ascii c in
  if (65 <=? n) && (n <=? 90) then ascii_of_N (n + 32) else c.
Fixpoint str_lower (s : string) : string :=
  match s with
  | EmptyString => EmptyString
  | String c s => String (lower_char c) (str_lower s)
  end.
(** [sub in s] *)
Definition str_in (sub s : string) : bool :=
  match index 0 sub s with Some _ => true | None => false end.

(** 10-30: the file name, from platform.system() and platform.uname().machine; None stands
    for ImportError. *)
Definition dll_name (os_name machine : string) : option string :=
  let machine := str_lower machine in
  let x86_64 := (String.eqb "x86_64" machine || String.eqb "amd64" machine)%bool in
  let arm := (str_in "arm" machine || str_in "aarch64" machine)%bool in
  if String.eqb os_name "Linux" then
    if x86_64 then Some "graphrox-x86_64-unknown-linux-gnu.so"%string
    else if arm then Some "graphrox-aarch64-unknown-linux-gnu.so"%string else None
  else if String.eqb os_name "Windows" then
    if x86_64 then Some "graphrox-x86_64-w64.dll"%string
    else if arm then Some "graphrox-aarch64-w64.dll"%string else None
  else if String.eqb os_name "Darwin" then
    if x86_64 then Some "graphrox-x86_64-apple-darwin.dylib"%string
    else if arm then Some "graphrox-aarch64-apple-darwin.dylib"%string else None
  else None.
