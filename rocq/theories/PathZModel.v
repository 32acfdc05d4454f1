(** Impedances between two nodes.
    Models ditto/metrics/network_analysis.py 2119-2176 (compute_node_line_mapping, get_impedance_list_between_nodes,
    list_lines_betweeen_nodes).

    Simplifications:
    - An object is its class (Line or not), its ends, its name and its matrix; only lines have a matrix
      (models/line.py 89).
    - nx.shortest_path is the parameter [route].
    - [model[name]]: the last object with that name (store.py 69, 116-120).
    - Impedances are exact complex numbers (ImpedModel.v). *)
From Coq Require Import Reals.
From Verif Require Import Base MatrixModel ImpedModel.
Local Open Scope string_scope.
Local Open Scope nat_scope.
Local Open Scope list_scope.

Record zobj := mkZ { z_line : bool; z_from : option string; z_to : option string; z_name : option string; z_matrix : option cmat }.
Definition pair_eqb (a b : string * string) : bool := String.eqb (fst a) (fst b) && String.eqb (snd a) (snd b).
Definition mapping := list ((string * string) * option string).
Fixpoint mset (m : mapping) (k : string * string) (v : option string) : mapping :=
  match m with [] => [(k, v)] | e :: r => if pair_eqb (fst e) k then (fst e, v) :: r else e :: mset r k v end.
Definition mget (m : mapping) (k : string * string) : option (option string) :=
  match find (fun e => pair_eqb (fst e) k) m with Some e => Some (snd e) | None => None end.

(** Lines 2124-2135 *)
Definition map_line (m : mapping) (o : zobj) : mapping :=
  if z_line o then match z_from o, z_to o with Some a, Some b => mset m (a, b) (z_name o) | _, _ => m end else m.
Definition node_line_mapping (objs : list zobj) : mapping := fold_left map_line objs [].

Section Path.
Context {net : Type}.
Variable route : net -> string -> string -> res (list string).
Variable objs : list zobj.

(** Line 2166 *)
Fixpoint zip_edges (p : list string) : list (string * string) :=
  match p with a :: ((b :: _) as r) => (a, b) :: zip_edges r | _ => [] end.
(** Lines 2169-2174 *)
Definition line_at (m : mapping) (e : string * string) : list (option string) :=
  match mget m e with
  | Some n => [n]
  | None => match mget m (snd e, fst e) with Some n => [n] | None => [] end
  end.
(** Lines 2158-2175 *)
Definition lines_between (g : net) (a b : string) : res (list (option string)) :=
  do p <- route g a b; Ok (flat_map (line_at (node_line_mapping objs)) (zip_edges p)).

Definition oname_eqb (a b : option string) : bool :=
  match a, b with None, None => true | Some x, Some y => String.eqb x y | _, _ => false end.
Definition by_name (n : option string) : res zobj := of_opt EKey (find (fun o => oname_eqb (z_name o) n) (rev objs)).
(** Lines 2142-2155 *)
Definition add_impedance (zs : list C) (n : option string) : res (list C) :=
  do o <- by_name n;
  match z_matrix o with
  | None | Some [] => Ok zs
  | Some m =>
    if shape_is m 1 then do z <- of_opt EIndex (get2 m 0 0); Ok (zs ++ [z])
    else do z <- get_seq_entry 1 (get_sequence_impedance_matrix m); Ok (zs ++ [z])
  end.
(** Lines 2137-2156 *)
Definition impedances_between (g : net) (a b : string) : res (list C) :=
  do ls <- lines_between g a b; foldM add_impedance ls [].
End Path.
