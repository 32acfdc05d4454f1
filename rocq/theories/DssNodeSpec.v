(** The nodes that a circuit of OpenDSS should give. *)
From Verif Require Import Base TextModel DssTextSpec DssNodeModel.
From Coq Require Import QArith.
Local Open Scope string_scope.
Local Open Scope list_scope.

Inductive node_letter : string -> string -> Prop := nl_1 : node_letter "1" "A" | nl_2 : node_letter "2" "B" | nl_3 : node_letter "3" "C".
Definition reads_nodes (int_ : string -> option Z) : Prop := int_ "1" = Some 1%Z /\ int_ "2" = Some 2%Z /\ int_ "3" = Some 3%Z.

(** A terminal stands at bus [b] with phases [ps]; without nodes it is one of an element with three phases. *)
Definition stands (t phases : string) (b : string) (ps : list string) : Prop :=
  exists b0 ns, terminal t = (b0, ns) /\ b = strip b0 /\
    ((ns <> [] /\ Forall2 node_letter ns ps) \/ (ns = [] /\ phases = "3" /\ ps = ["A"; "B"; "C"])).
(** the terminals of a circuit, with the number of phases of the element *)
Definition line_ends (l : cline) : list (string * string) := [(cl_bus1 l, cl_phases l); (cl_bus2 l, cl_phases l)].
Definition trafo_ends (t : ctrafo) : list (string * string) := map (fun b => (b, ct_phases t)) (ct_buses t).
Definition load_ends (l : cload) : list (string * string) := [(co_bus1 l, co_phases l)].
Definition ends (c : circuit) : list (string * string) := flat_map line_ends (c_lines c) ++ flat_map trafo_ends (c_trafos c) ++ flat_map load_ends (c_loads c).
Definition good_ends (l : list (string * string)) : Prop := forall t n, In (t, n) l -> exists b ps, stands t n b ps.
Definition used (c : circuit) (b : string) : Prop := exists t n ps, In (t, n) (ends c) /\ stands t n b ps.
Definition at_bus (c : circuit) (b p : string) : Prop := exists t n ps, In (t, n) (ends c) /\ stands t n b ps /\ In p ps.
Definition once (c : circuit) : Prop := forall t n b ps, In (t, n) (ends c) -> stands t n b ps -> NoDup ps.

(** ** Coordinates *)
Definition blank_row (r : string) : Prop := strip r = "".
Definition row_says (num : string -> option Q) (delim : ascii) (r b : string) (x y : Q) : Prop :=
  ~ blank_row r /\ exists n xs ys, pieces (Ascii.eqb delim) r = [n; xs; ys] /\ b = lower (strip n) /\ num (strip xs) = Some x /\ num (strip ys) = Some y.
Definition good_rows num delim (rows : list string) : Prop := forall r, In r rows -> blank_row r \/ exists b x y, row_says num delim r b x y.
(** the last row of a bus *)
Definition placed num delim (rows : list string) (b : string) (x y : Q) : Prop :=
  exists a r z, rows = a ++ r :: z /\ row_says num delim r b x y /\ forall r' x' y', In r' z -> ~ row_says num delim r' b x' y'.
Definition located num delim (rows : list string) (b : string) : Prop := exists r x y, In r rows /\ row_says num delim r b x y.
