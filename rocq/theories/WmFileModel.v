(** The files, nodes and sources of the Windmil reader.
    Models ditto/readers/windmil_ascii/wm_reader.py lines 21-67 and 70-108 (which files are
    read, and how) and ditto/readers/windmil_ascii/read.py lines 48-68 ([filter_edges_by_class],
    [get_file_content]), 87-97 ([parse_nodes]) and 600-618 ([parse_feeder_metadata]).
    Simplifications: the listing of the folder is a list of names, or None when it fails; a file
    is its name, without the folder; [read_csv] stands for pandas.read_csv with the rows to skip
    and whether the first row is a header, None when it fails; [build] stands for the making of
    the graph from the tables; [num] is [float] of a cell, exact rationals. *)
From Coq Require Import QArith.
From Verif Require Import Base TextModel ConvModel.
Local Open Scope string_scope.
Local Open Scope list_scope.

(** wm_reader.py 28-47 *)
Definition kinds : list (string * string) :=
  [(".asm", "Assemblies"); (".cld", "Archieved Load"); (".lcp", "Load Control Points"); (".sld", "Billing Load Data");
   (".csv", "External Tables"); (".seq", "Equipment Data"); (".std", "Circuit Elements"); (".rsl", "Results");
   (".gps", "Structure Locations"); (".mpt", "Map Points")].
Definition add_file (d : dict string) (f : string) : dict string :=
  match find (fun k => ends_with (fst k) (lower f)) kinds with
  | Some k => dset d (snd k) f
  | None => d
  end.

(** wm_reader.py 24-51 *)
Definition select (listing : option (list string)) : res (dict string) :=
  match listing with
  | None => Err EValue
  | Some l => match fold_left add_file l [] with [] => Err EValue | d => Ok d end
  end.

(** wm_reader.py 53-54 *)
Definition no_header := ["Map Points"; "Archieved Load"; "Billing Load Data"; "Equipment Data"; "Circuit Elements"].
Definition skip_line := ["Circuit Elements"; "Equipment Data"].

Section Graph.
Context {T G : Type}.
Variable read_csv : string -> nat -> bool -> option T.
Variable build : dict T -> res G.

(** wm_reader.py 55-67: a table that cannot be read is left out. *)
Definition read_tables (files : dict string) : dict T :=
  fold_left (fun tables tf =>
      match read_csv (snd tf) (if smem (fst tf) skip_line then 1%nat else 0%nat) (negb (smem (fst tf) no_header)) with
      | Some x => dset tables (fst tf) x
      | None => tables
      end) files [].

(** wm_reader.py 21-108 *)
Definition wm2graph (listing : option (list string)) : res G :=
  do files <- select listing;
  let tables := read_tables files in
  if dmem tables "Circuit Elements" then build tables else Err EValue.

(** read.py 56-68: every exception becomes a ValueError. *)
Definition get_file_content (listing : option (list string)) : res G :=
  match wm2graph listing with Ok g => Ok g | Err _ => Err EValue end.
End Graph.

Section Cells.
Variable num : string -> res Q.

Record wmnode := mkWmnode { wn_name : string; wn_positions : list (Q * Q) }.

(** read.py 90-97 *)
Definition make_wmnode (n : string * dict string) : res wmnode :=
  if dmem (snd n) "x" then
    do tx <- of_opt EKey (dget (snd n) "x"); do x <- num tx;
    do ty <- of_opt EKey (dget (snd n) "y"); do y <- num ty;
    Ok (mkWmnode (fst n) [(x, y)])
  else Ok (mkWmnode (fst n) []).
Definition parse_wmnodes (nodes : list (string * dict string)) : res (list wmnode) := mapM make_wmnode nodes.

Record wmsource := mkWmsource
  { so_name : string; so_element : string; so_nominal : Q; so_operating : Q; so_conn : string }.

Definition edge := (string * string * dict string)%type.
Definition edge_class (e : edge) : res string := of_opt EKey (dget (snd e) "class").

(** read.py 605-618 *)
Definition make_source (e : edge) : res wmsource :=
  do name <- of_opt EKey (dget (snd e) "name");
  do tk <- of_opt EKey (dget (snd e) "kv"); do kv <- num tk;
  do tv <- of_opt EKey (dget (snd e) "Vpu"); do v <- num tv;
  do c <- of_opt EKey (dget (snd e) "conn");
  Ok (mkWmsource name (fst (fst e)) ((1732 # 1000) * kv * 1000) v (if String.eqb c "W" then "Y" else "D")).

(** read.py 48-54, 600-618: the edges come one by one. *)
Fixpoint parse_sources (edges : list edge) : res (list wmsource) :=
  match edges with
  | [] => Ok []
  | e :: es =>
      do c <- edge_class e;
      if String.eqb c "substation" then do s <- make_source e; do ss <- parse_sources es; Ok (s :: ss)
      else parse_sources es
  end.
End Cells.
