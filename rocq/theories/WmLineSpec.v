(** What the lines of a Windmil file are to become. *)
From Coq Require Import QArith.
From Verif Require Import Base WmLineModel.
Local Open Scope string_scope.
Local Open Scope list_scope.

(** The combinations of phases that Windmil knows. *)
Definition known (phases : string) : Prop :=
  In phases ["A"; "B"; "C"; "AB"; "AC"; "BC"; "ABC"].

(** Which of the four conductors of a line is for a phase. *)
Definition place (p : string) : nat :=
  if String.eqb p "A" then 0 else if String.eqb p "B" then 1
  else if String.eqb p "C" then 2 else 3.

(** The phases of a line: its letters and then its neutrals. *)
Definition wires_of (e : edge) : list string :=
  letters (e_phases e) ++ repeat "N" (e_neutrals e).

(** The conductor of a phase: named in the file, or the default one. *)
Definition conductor (e : edge) (p name : string) : Prop :=
  nth_error (e_conductors e) (place p) = Some (Some name)
  \/ nth_error (e_conductors e) (place p) = Some None
     /\ name = (if String.eqb p "N" then "default_nt_cond" else "default_ph_cond").

(** [t] is [s] with the characters of [bad] replaced by an underscore. *)
Definition replaced (bad : list ascii) (s t : string) : Prop :=
  Forall2 (fun c d => In c bad /\ d = "_"%char \/ ~ In c bad /\ d = c)
          (list_ascii_of_string s) (list_ascii_of_string t).

(** A name in the file, or the empty name. *)
Definition named (o : option string) (s : string) : Prop :=
  match o with Some n => s = n | None => s = "" end.

(** [q] is the number of cell [c] times [f]. *)
Definition cell (r : row) (c : string) (f : Q) (q : option Q) : Prop :=
  exists x y, r_cell r c = Ok x /\ q = Some y /\ (y == f * x)%Q.

(** The same, a zero being replaced by 1. *)
Definition cell1 (r : row) (c : string) (f : Q) (q : option Q) : Prop :=
  exists x y, r_cell r c = Ok x /\ q = Some y
    /\ ((~ (f * x == 0))%Q /\ (y == f * x)%Q \/ (f * x == 0)%Q /\ (y == 1)%Q).

(** The data of the conductor, in metres and ohms per metre. *)
Definition data_of (oh ug : list row) (e : edge) (name : string) (w : wire) : Prop :=
  match (if String.eqb (e_type e) "overhead" then first_row oh name
         else if String.eqb (e_type e) "underground" then first_row ug name else None) with
  | None => w_gmr w = Some 1%Q /\ w_resistance w = Some 0%Q /\ w_diameter w = None
            /\ w_ampacity w = None
  | Some r =>
      if String.eqb (e_type e) "overhead" then
        cell1 r "Geometric Mean Radius" (3048 # 10000) (w_gmr w)
        /\ cell r "Diameter" (254 # 10000) (w_diameter w)
        /\ cell r "Carrying Capacity" 1 (w_ampacity w)
        /\ cell r "Resistance @ 50" (621371 # 1000000000) (w_resistance w)
      else
        cell1 r "Geometric Mean Radius In Feet" (3048 # 10000) (w_gmr w)
        /\ cell r "Diameter of Conductor In Feet" (3048 # 10000) (w_diameter w)
        /\ cell r "Carrying Capacity In Amps" 1 (w_ampacity w)
        /\ cell r "Phase Conductor Resistance Ohms/Mile" (621371 # 1000000000) (w_resistance w)
        /\ cell r "GMR (Neutral) In Feed" (3048 # 10000) (w_cn_gmr w)
        /\ cell r "OD of Cable Including Neutral In Fee" (3048 # 10000) (w_cn_diameter w)
  end.

(** The wire of phase [p] of a line. *)
Definition wire_ok (oh ug : list row) (e : edge) (p : string) (w : wire) : Prop :=
  w_phase w = p /\ w_switch w = false /\ w_open w = false
  /\ w_X w = Some (if String.eqb p "A" then -1 else if String.eqb p "C" then 1 else 0)%Z
  /\ w_Y w = Some (if String.eqb p "N" then 8 else 10)%Z
  /\ exists name, conductor e p name
       /\ (exists c, w_class w = Some c /\ replaced [" "%char; "."%char] name c)
       /\ data_of oh ug e name w.

(** The ends, names and positions of any edge. *)
Definition ends_ok {M} (v : env M) (e : edge) (l : line M) : Prop :=
  l_from l = e_from e /\ l_to l = e_to e /\ named (e_feeder e) (l_feeder l)
  /\ named (e_substation e) (l_substation l)
  /\ l_positions l = match v_pos v (e_from e) with Some p => [p] | None => [] end
                     ++ match v_pos v (e_to e) with Some p => [p] | None => [] end
  /\ (forall x, e_to e = "node_" ++ x -> (forall a b, x <> a ++ "node_" ++ b) -> l_name l = x)%string.

(** The Line of an edge. *)
Definition line_ok {M} (v : env M) (e : edge) (l : line M) : Prop :=
  ends_ok v e l
  /\ (e_class e = "line" ->
        l_fuse l = false /\ l_switch l = false /\ l_type l = Some (e_type e)
        /\ (exists x y, e_length e = Ok x /\ l_length l = Some y /\ (y == (3048 # 10000) * x)%Q)
        /\ Forall2 (wire_ok (v_oh v) (v_ug v) e) (wires_of e) (l_wires l)
        /\ exists m, l_matrix l = Some m
             /\ v_matrix v (negb (Nat.eqb (e_neutrals e) 0)) (l_wires l) = Ok m)
  /\ (e_class e = "switch" ->
        l_fuse l = false /\ l_switch l = true
        /\ Forall2 (fun p w => w_phase w = p /\ w_switch w = true
                               /\ (w_open w = true <-> e_state e = "O"))
                   (letters (e_phases e)) (l_wires l))
  /\ (e_class e = "device" ->
        l_fuse l = true /\ l_switch l = false
        /\ Forall2 (fun p w => w_phase w = p /\ w_switch w = true
             /\ exists name r, nth_error (e_equipment e) (place p) = Some (Some name)
                  /\ first_row (v_dev v) name = Some r
                  /\ (exists c, w_class w = Some c /\ replaced [" "%char] name c)
                  /\ cell r "Current Rating" 1 (w_ampacity w)
                  /\ cell r "Max Asymmetrical Fault" 1 (w_limit w))
             (letters (e_phases e)) (l_wires l)).

(** The edges that become Lines. *)
Definition is_line (e : edge) : bool :=
  String.eqb (e_class e) "line" || String.eqb (e_class e) "switch"
  || String.eqb (e_class e) "device".

(** An edge whose data are complete: the reader can read it. *)
Definition readable {M} (v : env M) (e : edge) : Prop :=
  known (e_phases e)
  /\ (e_class e = "line" -> (exists q, e_length e = Ok q) /\ length (e_conductors e) = 4%nat
        /\ (e_neutrals e <= 1)%nat)
  /\ (e_class e = "device" -> forall k, (k < 3)%nat ->
        exists name r c, nth_error (e_equipment e) k = Some (Some name)
          /\ first_row (v_dev v) name = Some r /\ nth_error (e_closed e) k = Some c
          /\ (exists a, r_cell r "Current Rating" = Ok a)
          /\ (exists a, r_cell r "Max Asymmetrical Fault" = Ok a)).

(** The cells of the conductors are numbers and the wires have a matrix. *)
Definition good {M} (v : env M) : Prop :=
  (forall r c, In r (v_oh v ++ v_ug v) -> exists q, r_cell r c = Ok q)
  /\ (forall b ws, exists m, v_matrix v b ws = Ok m).
