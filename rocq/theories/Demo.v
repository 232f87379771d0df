(** Model of scripts/demo.py, run on the Python binding.

    Simplifications: the output is the list of the printed texts; a file is missing or has
    contents that can be read; objects are deleted as soon as nothing refers to them, except
    those that live until the interpreter ends. *)
From Coq Require Import ZArith Ascii String.
From Verif Require Import Base F64 Numeric Sq Standard Compressed CApi Py Script.

(** A program that prints: the texts printed so far go in, and come out whatever happens. *)
Definition dm (A : Type) : Type := list text -> cheap -> list text * pyresult A.
Definition dret {A} (a : A) : dm A := fun out h => (out, PyDone a h).
Definition dbind {A B} (x : dm A) (f : A -> dm B) : dm B := fun out h =>
  match x out h with
  | (out', PyDone a h') => f a out' h'
  | (out', PyRaise exc h') => (out', PyRaise exc h')
  | (out', PyAbort) => (out', PyAbort)
  | (out', PyUB) => (out', PyUB)
  end.
Definition dcall {A} (x : pm A) : dm A := fun out h => (out, x h).
Definition dprint (s : text) : dm unit := fun out h => (out ++ [s], PyDone tt h).
Fixpoint dprints (l : list string) : dm unit :=
  match l with
  | [] => dret tt
  | s :: l => dbind (dprint (txt s)) (fun _ => dprints l)
  end.

Definition as_matrix (v : pyval) : pm addr :=
  match v with PyMatrix a => pret a | _ => praise TypeError end.
Definition as_str (v : pyval) : pm text :=
  match v with PyStr s => pret s | _ => praise TypeError end.
Definition as_int (v : pyval) : pm Z :=
  match v with PyInt z => pret z | _ => praise TypeError end.

(** print(graph.matrix_string()) *)
Definition print_matrix (e : cenv) (graph : addr) : dm unit :=
  dbind (dcall (pbind (pyexec e (PMatrixString graph)) as_str)) (fun s => dprint s).

(** print(graph.find_avg_pool_matrix(b)): [print] calls [__str__], __init__.py:693-694. *)
Definition print_pool (e : cenv) (graph : addr) (b : Z) : dm unit :=
  dbind (dcall (pbind (pyexec e (PFindAvgPool graph b)) as_matrix)) (fun m =>
  dbind (dcall (pbind (pyexec e (PMToString m None)) as_str)) (fun s =>
  dbind (dprint s) (fun _ => dbind (dcall (pyexec e (PMDel m))) (fun _ => dret tt)))).

(** print(graph.approximate(b, t).matrix_string()): the approximation is deleted once the
    text is made. *)
Definition print_approximation (e : cenv) (graph : addr) (b : Z) (t : spec_float) : dm unit :=
  dbind (dcall (pbind (pyexec e (PApproximate graph b t)) as_graph)) (fun a =>
  dbind (dcall (pbind (pyexec e (PMatrixString a)) as_str)) (fun s =>
  dbind (dcall (pyexec e (PDel a))) (fun _ => dprint s))).

(** Literals 0.3, 0.2, 0.0017 and 0.00115. *)
Definition literal (n d : N) : spec_float := f64_div (f64_of_N n) (f64_of_N d).

(** 5-42; the graph stays. *)
Definition demo_example (e : cenv) : dm addr :=
  dbind (dprints ["GraphRox Demo"; "";
    "GraphRox is a C library (with a Python wrapper) for generating approximations";
    "of graphs for the purpose of fast graph calculations."; ""]%string) (fun _ =>
  dbind (dcall (pbind (pyexec e (PNew (Some true))) as_graph)) (fun graph =>
  dbind (dcall (pyexec e (PAddEdge graph 7 8))) (fun _ =>
  dbind (dcall (pyexec e (PAddEdge graph 5 5))) (fun _ =>
  dbind (dcall (pyexec e (PAddEdge graph 5 4))) (fun _ =>
  dbind (dcall (pyexec e (PAddVertex graph 1 (Some [0; 2; 4; 7; 3]%Z)))) (fun _ =>
  dbind (dcall (pyexec e (PAddVertex graph 5 (Some [6; 8; 0; 1; 5; 4; 2]%Z)))) (fun _ =>
  dbind (dcall (pbind (pyexec e (PVertexCount graph)) as_int)) (fun n =>
  dbind (dprint (txt "Adjacency matrix of an example graph with dimension of " ++ Z_text n)) (fun _ =>
  dbind (print_matrix e graph) (fun _ =>
  dbind (dprints [""; "2x2-block Average Pool Matrix"]%string) (fun _ =>
  dbind (print_pool e graph 2) (fun _ =>
  dbind (dprints [""; "Approximation using 2x2 blocks and a threshold of 0.3"]%string) (fun _ =>
  dbind (print_approximation e graph 2 (literal 3 10)) (fun _ =>
  dbind (dprints [""; "3x3-block Average Pool Matrix"]%string) (fun _ =>
  dbind (print_pool e graph 3) (fun _ =>
  dbind (dprints [""; "Approximation using 3x3 blocks and a threshold of 0.2"]%string) (fun _ =>
  dbind (print_approximation e graph 3 (literal 2 10)) (fun _ =>
  dbind (dprints [""; "--------------------------------------------------------------------------------";
    ""]%string) (fun _ => dret graph))))))))))))))))))).

(** 51-58, 70-77: the new graph replaces the old one, which is deleted then. *)
Definition demo_file (e : cenv) (files : string -> option (list N)) (old : addr)
    (name title : string) (b : Z) (t : spec_float) : dm addr :=
  dbind (dcall (match files name with Some bytes => pret bytes | None => praise FileNotFoundError end)) (fun bytes =>
  dbind (dcall (pbind (pyexec e (PFromBytes bytes)) as_graph)) (fun graph =>
  dbind (dcall (pyexec e (PDel old))) (fun _ =>
  dbind (dcall (pbind (pyexec e (PVertexCount graph)) as_int)) (fun n =>
  dbind (dcall (pbind (pyexec e (PEdgeCount graph)) as_int)) (fun m =>
  dbind (dprint (txt "This graph has " ++ Z_text n ++ txt " nodes and " ++ Z_text m ++ txt " edges")) (fun _ =>
  dbind (dprints [""; title]%string) (fun _ =>
  dbind (print_approximation e graph b t) (fun _ => dret graph)))))))).

Definition demo (e : cenv) (files : string -> option (list N)) : dm addr :=
  dbind (demo_example e) (fun graph =>
  (* 44-49 *)
  dbind (dprints ["Loading graph from ca-HepPh.gphrx..."; "";
    "This graph represents the co-author network from Arxiv in the HEP-PH (High";
    "Energy Physics - Phenomenology) category for papers published between January";
    "1993 and April 2003"; ""]%string) (fun _ =>
  dbind (demo_file e files graph "./sample-graphs/ca-HepPh.gphrx"
    "Approximation using 1500x1500 blocks and a threshold of 0.0017" 1500 (literal 17 10000)) (fun graph =>
  (* 59-68 *)
  dbind (dprints [""; "--------------------------------------------------------------------------------"; "";
    "Loading graph from ca-AstroPh.gphrx..."; "";
    "This graph represents the co-author network from Arxiv in the ASTRO-PH (Astro";
    "Physics) category for papers published between January 1993 and April 2003"; ""]%string) (fun _ =>
  dbind (demo_file e files graph "./sample-graphs/ca-AstroPh.gphrx"
    "Approximation using 2000x2000 blocks and a threshold of 0.00115" 2000 (literal 115 100000)) (fun graph =>
  (* 78-88 *)
  dbind (dprints [""; ""; "";
    "Co-author network graphs are provied courtesy of Stanford University and can";
    "be found at the following web address: http://snap.stanford.edu/data/"; "";
    "Citation for co-author network graphs:";
    "J. Leskovec, J. Kleinberg and C. Faloutsos. Graph Evolution: Densification and";
    "Shrinking Diameters. ACM Transactions on Knowledge Discovery from Data (ACM";
    "TKDD), 1(1), 2007."]%string) (fun _ => dret graph)))))).
