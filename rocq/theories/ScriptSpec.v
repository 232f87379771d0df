(** Vocabulary of the statements about the scripts.  Nothing here refers to the model of the
    code. *)
From Coq Require Import ZArith Ascii String.
From Verif Require Import Base Spec TextSpec.

(** ** Text files with one edge per line *)

(** A decimal numeral of at most [limit] digits, possibly with a sign. *)
Definition numeral (limit : option N) (t : text) (z : Z) : Prop :=
  exists sign ds, t = sign ++ ds /\ ds <> [] /\ forallb is_digit ds = true /\
    (forall n, limit = Some n -> N.of_nat (length ds) <= n) /\
    (sign = [] /\ z = Z.of_N (digits_value ds) \/
     sign = ["+"%char] /\ z = Z.of_N (digits_value ds) \/
     sign = ["-"%char] /\ z = (- Z.of_N (digits_value ds))%Z).

(** Spaces and tabs. *)
Definition blanks (t : text) : Prop := Forall (fun c => c = " "%char \/ c = ascii_of_N 9) t.
Definition no_line_end (t : text) : Prop :=
  Forall (fun c => c <> ascii_of_N 10 /\ c <> ascii_of_N 13) t.

(** A line: a comment, nothing, or two numbers. *)
Inductive shows_line (limit : option N) : text -> list (Z * Z) -> Prop :=
| line_comment t : no_line_end t -> shows_line limit ("#"%char :: t) []
| line_blank t : blanks t -> shows_line limit t []
| line_pair b0 t0 b1 t1 b2 a b : blanks b0 -> numeral limit t0 a -> blanks b1 -> b1 <> [] ->
    numeral limit t1 b -> blanks b2 ->
    shows_line limit (b0 ++ t0 ++ b1 ++ t1 ++ b2) [(a, b)].

Definition line_end (t : text) : Prop :=
  t = [ascii_of_N 10] \/ t = [ascii_of_N 13; ascii_of_N 10].

(** The pairs a text file lists; the last line need not be ended. *)
Inductive shows_pairs (limit : option N) : text -> list (Z * Z) -> Prop :=
| pairs_last t l : shows_line limit t l -> shows_pairs limit t l
| pairs_line t nl rest l l' : shows_line limit t l -> line_end nl -> shows_pairs limit rest l' ->
    shows_pairs limit (t ++ nl ++ rest) (l ++ l').

(** *** Any text file *)

(** The lines: LF, CR and CR LF end a line; the last line need not be ended. *)
Inductive lines_of : text -> list text -> Prop :=
| lines_none : lines_of [] []
| lines_last t : t <> [] -> no_line_end t -> lines_of t [t]
| lines_lf t rest ls : no_line_end t -> lines_of rest ls ->
    lines_of (t ++ ascii_of_N 10 :: rest) (t :: ls)
| lines_crlf t rest ls : no_line_end t -> lines_of rest ls ->
    lines_of (t ++ ascii_of_N 13 :: ascii_of_N 10 :: rest) (t :: ls)
| lines_cr t rest ls : no_line_end t -> head rest <> Some (ascii_of_N 10) -> lines_of rest ls ->
    lines_of (t ++ ascii_of_N 13 :: rest) (t :: ls).

(** The white space of ASCII: tab, LF, VT, FF, CR, the four separators and the space. *)
Definition white (c : ascii) : Prop :=
  N_of_ascii c ∈ [9; 10; 11; 12; 13; 28; 29; 30; 31; 32].

(** The words of a line. *)
Inductive words_of : text -> list text -> Prop :=
| words_none t : Forall white t -> words_of t []
| words_word b w t ws : Forall white b -> w <> [] -> Forall (fun c => ~ white c) w ->
    (forall c, head t = Some c -> white c) -> words_of t ws ->
    words_of (b ++ w ++ t) (w :: ws).

(** What [int] accepts: groups of digits with an underscore between them, possibly after a
    sign. *)
Fixpoint underscored (groups : list text) : text :=
  match groups with
  | [] => []
  | [g] => g
  | g :: groups => g ++ "_"%char :: underscored groups
  end.
Definition integer_text (limit : option N) (t : text) (z : Z) : Prop :=
  exists sign groups, t = sign ++ underscored groups /\ groups <> [] /\
    Forall (fun g => g <> [] /\ forallb is_digit g = true) groups /\
    (forall n, limit = Some n -> N.of_nat (length (concat groups)) <= n) /\
    ((sign = [] \/ sign = ["+"%char]) /\ z = Z.of_N (digits_value (concat groups)) \/
     sign = ["-"%char] /\ z = (- Z.of_N (digits_value (concat groups)))%Z).

(** What a line says: two numbers, one number and a word that is none, or nothing.  (The
    first word of a comment is no number.) *)
Inductive item : Type :=
| IPair (a b : Z)
| IHalf (a : Z)
| INothing.
Inductive line_says (limit : option N) (t : text) : item -> Prop :=
| says_pair w0 w1 a b : words_of t [w0; w1] -> integer_text limit w0 a -> integer_text limit w1 b ->
    line_says limit t (IPair a b)
| says_half w0 w1 a : words_of t [w0; w1] -> integer_text limit w0 a ->
    (forall b, ~ integer_text limit w1 b) -> line_says limit t (IHalf a)
| says_word w0 w1 : words_of t [w0; w1] -> (forall a, ~ integer_text limit w0 a) ->
    line_says limit t INothing
| says_other ws : words_of t ws -> length ws <> 2%nat -> line_says limit t INothing.
Definition file_says (limit : option N) (file : text) (items : list item) : Prop :=
  exists ls, lines_of file ls /\ Forall2 (line_says limit) ls items.

Definition item_pairs (items : list item) : list (Z * Z) :=
  omap (fun i => match i with IPair a b => Some (a, b) | _ => None end) items.
(** The first numbers. *)
Definition item_firsts (items : list item) : list Z :=
  omap (fun i => match i with IPair a _ | IHalf a => Some a | INothing => None end) items.

(** ** Renumbering *)

(** The vertices that edges start from, and how many of them are below [x]. *)
Definition sources (pairs : list (Z * Z)) : gset Z := list_to_set pairs.*1.
Definition rank (D : gset Z) (x : Z) : N := N.of_nat (size (filter (fun a => a < x)%Z D)).

(** The largest source. *)
Definition largest_source (pairs : list (Z * Z)) (m : Z) : Prop :=
  m ∈ sources pairs /\ forall a, a ∈ sources pairs -> (a <= m)%Z.

(** ** Names *)

(** [c'] is [c] in lower case. *)
Definition lower_case (c c' : ascii) : Prop :=
  (exists k, k < 26 /\ c = ascii_of_N (65 + k) /\ c' = ascii_of_N (97 + k)) \/
  (~ (exists k, k < 26 /\ c = ascii_of_N (65 + k)) /\ c' = c).
Definition lower_cased (s s' : string) : Prop :=
  Forall2 lower_case (list_ascii_of_string s) (list_ascii_of_string s').
Definition contains (sub s : string) : Prop := exists a b, s = (a ++ sub ++ b)%string.

(** The operating systems and the last part of the library's name. *)
Definition os_table : list (string * string) :=
  [("Linux", "unknown-linux-gnu.so"); ("Windows", "w64.dll"); ("Darwin", "apple-darwin.dylib")]%string.
