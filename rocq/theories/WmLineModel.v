(** The lines, switches and devices of the Windmil reader.
    Models ditto/readers/windmil_ascii/read.py lines 99-359 ([parse_lines],
    [create_device], [create_switch], [create_line]) on the graph that
    wm_reader.py builds.
    Simplifications: the graph is the list of its edges in order and the
    positions of its nodes; a cell is a string or missing (a float NaN in
    pandas); floats are exact rationals; the number of neutrals is a natural
    number; the impedance matrix is a parameter applied to the wires (its parts
    are modelled in ImpedModel); the dictionary of phases keeps its lists by
    value, as no other name refers to them. *)
From Coq Require Import QArith.
From Verif Require Import Base UnitsModel.
Local Open Scope string_scope.
Local Open Scope list_scope.

(** [for c in s] *)
Definition letters (s : string) : list string := map (fun c => String c "") (list_ascii_of_string s).

(** [s.replace("node_", "")]; [skip] characters of a match remain to be dropped. *)
Fixpoint drop_node (skip : nat) (s : string) : string :=
  match s with
  | "" => ""
  | String c t =>
      match skip with
      | S k => drop_node k t
      | O => if prefix "node_" s then drop_node 4 t else String c (drop_node 0 t)
      end
  end.

(** [s.replace(c, "_")] for one character. *)
Fixpoint underscore (c : ascii) (s : string) : string :=
  match s with
  | "" => ""
  | String d t => String (if Ascii.eqb d c then "_"%char else d) (underscore c t)
  end.

(** One row of a library table: its "Equipment Identifier" and [float] of its
    other cells. *)
Record row := mkRow { r_id : string; r_cell : string -> res Q }.

(** read.py 290-291, 303-304: the rows of an equipment; the first is used. *)
Definition first_row (t : list row) (name : string) : option row :=
  find (fun r => String.eqb (r_id r) name) t.

(** An edge of the graph with the attributes read. *)
Record edge := mkEdge {
  e_from : string; e_to : string; e_class : string; e_phases : string;
  e_neutrals : nat; e_conductors : list (option string); e_type : string;
  e_length : res Q; e_feeder : option string; e_substation : option string;
  e_state : string; e_equipment : list (option string); e_closed : list bool }.

(** A Wire of the model, with the fields that this reader sets. *)
Record wire := mkWire {
  w_phase : string; w_class : option string; w_switch : bool; w_open : bool;
  w_X : option Z; w_Y : option Z; w_gmr : option Q; w_diameter : option Q;
  w_ampacity : option Q; w_resistance : option Q; w_limit : option Q;
  w_cn_gmr : option Q; w_insulation : option Q; w_cn_diameter : option Q;
  w_cn_resistance : option Q }.

Section Reader.
Context {M : Type}.

(** A Line of the model. *)
Record line := mkLine {
  l_name : string; l_from : string; l_to : string; l_fuse : bool; l_switch : bool;
  l_length : option Q; l_type : option string; l_feeder : string; l_substation : string;
  l_positions : list (Q * Q); l_wires : list wire; l_matrix : option M }.

(** The library tables, the positions of nodes, and the matrix of wires: its
    first argument tells if neutrals are to be reduced. *)
Record env := mkEnv {
  v_oh : list row; v_ug : list row; v_dev : list row;
  v_pos : string -> option (Q * Q);
  v_matrix : bool -> list wire -> res M }.

(** read.py 100-108: the dictionary at the start. *)
Definition phase_2_index : @dict (list nat) :=
  [("A", [0%nat]); ("B", [1%nat]); ("C", [2%nat]); ("AB", [0%nat; 1%nat]); ("AC", [0%nat; 2%nat]);
   ("BC", [1%nat; 2%nat]); ("ABC", [0%nat; 1%nat; 2%nat])].

(** read.py 140-149, 193-202, 243-252: a missing cell gives an empty name. *)
Definition text (o : option string) : string := match o with Some s => s | None => "" end.

(** read.py 171-176, 218-223, 254-259: the positions of both ends. *)
Definition positions (v : env) (e : edge) : list (Q * Q) :=
  flat_map (fun n => match v_pos v n with Some p => [p] | None => [] end) [e_from e; e_to e].

(** read.py 270-277: the conductor at a place of the list. *)
Definition conductor_name (e : edge) (k : nat) : res string :=
  match nth_error (e_conductors e) k with
  | None => Err EIndex
  | Some (Some s) => Ok s
  | Some None => Ok (if Nat.ltb k 3 then "default_ph_cond" else "default_nt_cond")
  end.

Definition to_m (q : Q) (u : string) : option Q := convert_to_meters (Some q) (PStr u) KwAbsent.
Definition from_m (q : Q) (u : string) : option Q := convert_from_meters (Some q) (PStr u) KwAbsent.

(** read.py 289-301: an overhead conductor's data are put on the wire. *)
Definition overhead (r : row) (w : wire) : res wire :=
  do g <- r_cell r "Geometric Mean Radius";
  do d <- r_cell r "Diameter";
  do a <- r_cell r "Carrying Capacity";
  do z <- r_cell r "Resistance @ 50";
  Ok (mkWire (w_phase w) (w_class w) (w_switch w) (w_open w) (w_X w) (w_Y w)
             (to_m g "ft") (to_m d "in") (Some a) (from_m z "mi") (w_limit w)
             (w_cn_gmr w) (w_insulation w) (w_cn_diameter w) (w_cn_resistance w)).

(** read.py 302-335: an underground cable's data are put on the wire. *)
Definition underground (r : row) (w : wire) : res wire :=
  do g <- r_cell r "Geometric Mean Radius In Feet";
  do cg <- r_cell r "GMR (Neutral) In Feed";
  do d <- r_cell r "Diameter of Conductor In Feet";
  do ins <- r_cell r "OD of Cable Insulation In Feet";
  do cd <- r_cell r "OD of Cable Including Neutral In Fee";
  do a <- r_cell r "Carrying Capacity In Amps";
  do z <- r_cell r "Phase Conductor Resistance Ohms/Mile";
  do cz <- r_cell r "Concentric Neutral Resist Ohms/Mile";
  Ok (mkWire (w_phase w) (w_class w) (w_switch w) (w_open w) (w_X w) (w_Y w)
             (to_m g "ft") (to_m d "ft") (Some a) (from_m z "mi") (w_limit w)
             (to_m cg "ft") (to_m ins "ft") (to_m cd "ft") (from_m cz "ft")).

(** read.py 337-340: no resistance is 0, no
    GMR or a GMR of 0 is 1. *)
Definition defaults (w : wire) : wire :=
  let r := match w_resistance w with None => Some 0%Q | r => r end in
  let g := match w_gmr w with
           | None => Some 1%Q
           | Some g => if Qeq_bool g 0 then Some 1%Q else Some g
           end in
  mkWire (w_phase w) (w_class w) (w_switch w) (w_open w) (w_X w) (w_Y w)
         g (w_diameter w) (w_ampacity w) r (w_limit w)
         (w_cn_gmr w) (w_insulation w) (w_cn_diameter w) (w_cn_resistance w).

(** read.py 269-340: the wire of one phase of a line. *)
Definition line_wire (v : env) (e : edge) (phase : string) (k : nat) : res wire :=
  do name <- conductor_name e k;
  let w := mkWire phase (Some (underscore "."%char (underscore " "%char name))) false false
             (Some (if String.eqb phase "A" then -1 else if String.eqb phase "C" then 1 else 0)%Z)
             (Some (if String.eqb phase "N" then 8 else 10)%Z)
             None None None None None None None None None in
  do w1 <- (if String.eqb (e_type e) "overhead" then
              match first_row (v_oh v) name with Some r => overhead r w | None => Ok w end
            else Ok w);
  do w2 <- (if String.eqb (e_type e) "underground" then
              match first_row (v_ug v) name with Some r => underground r w1 | None => Ok w1 end
            else Ok w1);
  Ok (defaults w2).

(** read.py 268-359, one round: the wire is appended and the matrix is computed anew after each wire. *)
Definition line_step (v : env) (e : edge) (s : list wire * option M) (pk : string * nat)
  : res (list wire * option M) :=
  do w <- line_wire v e (fst pk) (snd pk);
  do m <- v_matrix v (negb (Nat.eqb (e_neutrals e) 0)) (fst s ++ [w]);
  Ok (fst s ++ [w], Some m).

(** read.py 226-359 [create_line]. The list of the dictionary itself is
    extended by the places of the neutrals. *)
Definition create_line (v : env) (tab : @dict (list nat)) (e : edge)
  : res (@dict (list nat) * line) :=
  do len <- e_length e;
  do l0 <- of_opt EKey (dget tab (e_phases e));
  let n := e_neutrals e in
  let phases := letters (e_phases e) ++ repeat "N" n in
  let l := l0 ++ seq 3 n in
  do wm <- foldM (line_step v e) (combine phases l) ([], None);
  Ok (dset tab (e_phases e) l,
      mkLine (drop_node 0 (e_to e)) (e_from e) (e_to e) false false (to_m len "ft")
             (Some (e_type e)) (text (e_feeder e)) (text (e_substation e))
             (positions v e) (fst wm) (snd wm)).

(** read.py 206-216: the wire of one phase of a switch. *)
Definition switch_wire (e : edge) (phase : string) : wire :=
  mkWire phase None true (String.eqb (e_state e) "O") None None None None None None None
         None None None None.

(** read.py 179-224 [create_switch]. *)
Definition create_switch (v : env) (tab : @dict (list nat)) (e : edge) : res line :=
  do l0 <- of_opt EKey (dget tab (e_phases e));
  Ok (mkLine (drop_node 0 (e_to e)) (e_from e) (e_to e) false true (Some 1%Q) None
             (text (e_feeder e)) (text (e_substation e)) (positions v e)
             (map (fun pk => switch_wire e (fst pk)) (combine (letters (e_phases e)) l0)) None).

(** read.py 153-170: the wire of one phase of a device. *)
Definition device_wire (v : env) (e : edge) (pk : string * nat) : res wire :=
  do eq <- of_opt EIndex (nth_error (e_equipment e) (snd pk));
  do name <- of_opt EAttr eq;
  do closed <- of_opt EIndex (nth_error (e_closed e) (snd pk));
  do r <- of_opt EIndex (first_row (v_dev v) name);
  do a <- r_cell r "Current Rating";
  do f <- r_cell r "Max Asymmetrical Fault";
  Ok (mkWire (fst pk) (Some (underscore " "%char name)) true closed None None None None
             (Some a) None (Some f) None None None None).

(** read.py 125-177 [create_device]. *)
Definition create_device (v : env) (tab : @dict (list nat)) (e : edge) : res line :=
  do l0 <- of_opt EKey (dget tab (e_phases e));
  do ws <- mapM (device_wire v e) (combine (letters (e_phases e)) l0);
  Ok (mkLine (drop_node 0 (e_to e)) (e_from e) (e_to e) true false (Some 1%Q) None
             (text (e_feeder e)) (text (e_substation e)) (positions v e) ws None).

(** read.py 115-121: one edge. *)
Definition edge_step (v : env) (s : @dict (list nat) * list line) (e : edge)
  : res (@dict (list nat) * list line) :=
  if String.eqb (e_class e) "line" then
    do tl <- create_line v (fst s) e; Ok (fst tl, snd s ++ [snd tl])
  else if String.eqb (e_class e) "switch" then
    do l <- create_switch v (fst s) e; Ok (fst s, snd s ++ [l])
  else if String.eqb (e_class e) "device" then
    do l <- create_device v (fst s) e; Ok (fst s, snd s ++ [l])
  else Ok s.

(** read.py 99-123 [parse_lines] without the feeder metadata: the dictionary that
    it leaves and the lines of the model. *)
Definition parse_lines (v : env) (es : list edge) : res (@dict (list nat) * list line) :=
  foldM (edge_step v) es (phase_2_index, []).

End Reader.
Arguments env : clear implicits.
Arguments line : clear implicits.
