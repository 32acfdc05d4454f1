From Coq Require Import List String Ascii Bool Arith ZArith Reals.
From Verif Require Import Base CymeMapModel CymeParseModel CymeLoadModel CymeCapModel.
Import ListNotations.
Local Open Scope string_scope.
Local Open Scope nat_scope.
Local Open Scope list_scope.

(** The lines and switching devices of a CYME network.
    Models ditto/readers/cyme/read.py 1442-1551 (configure_wire) and 2397-3828 (the loop of parse_lines) from the tables
    that parser_helper yields: the settings of the network file, merged by update_dict, and the equipment.

    Simplifications:
    - Real numbers instead of floats; [num] is [float] of a text and never yields NaN or an infinity, [int_] is [int].
    - The lines are the list of those made, in order; [self.section_duplicates] is left out, and so is the attribute
      [position], which is not a trait of a line and which nothing reads.
    - The impedance matrix of a line that is given by conductors and a spacing (3514-3728) is a parameter.
    - The [type] entries of the equipment tables, which the reader writes itself (2175, 2215, 3025, 3029, 3044), are the
      constructors of [line_data].  The entry [nameclass] that is added to the equipment of a device has no effect,
      as line 1488 raises a NameError, which is swallowed.
    - Traits: X is a Float, which a text is not, and line 1547 raises a NameError; both errors are swallowed. *)
Inductive device := Switch | Sectionalizer | Fuse | Recloser | Breaker | Protector.
Record wire := mkWire {
  w_phase : string; w_class : option string; w_kind : option device; w_open : bool; w_diameter : option R; w_gmr : option R;
  w_ampacity : option R; w_interrupting : option R; w_emergency : option R; w_x : option R; w_y : option R
}.
Definition matrix := list (list (R * R)).
Record line := mkLine {
  l_name : string; l_from : option string; l_to : option string; l_from_index : option Z; l_to_index : option Z;
  l_length : option R; l_feeder : string; l_class : option string; l_kind : option device; l_type : option string;
  l_voltage : option R; l_wires : list wire; l_matrix : option matrix
}.
Inductive line_data := Balanced (d : record) | Unbalanced (d : record) | Spaced.
Record tables := mkTables {
  t_section_phase : list (string * record); t_section_feeder : list (string * string);
  t_devices : device -> list (string * record);
  t_balanced : list (string * record); t_unbalanced : list (string * record); t_concentric : list (string * record); t_cables : list (string * record);
  t_conductors : list (string * record); t_spacings : list (string * record)
}.

Section Lines.
Variable num : string -> option R.
Variable int_ : string -> option Z.
Variable T : tables.
(** Lines 3514-3728 *)
Variable spaced_matrix : record -> list string -> res (option matrix).

Definition cell (d : record) (k : string) : option R := attempt_ (float_of num d k).
(** Lines 1524-1549: the assignments of the positions *)
Definition assign_x (t : option string) (before : option R) : option R := before.
Definition assign_y (before : option R) : option R := before.
Definition x_column (p : string) : option string :=
  dget [("A", "posofcond1_x"); ("B", "posofcond2_x"); ("C", "posofcond3_x"); ("N", "posofneutralcond_x"); ("N2", "posofneutralcond_n2_x")] p.
(** Lines 1442-1551 *)
Definition configure_wire (c spacing : record) (p : string) (k : option device) (open : bool) : wire :=
  mkWire p (dget c "id") k open (cell c "diameter") (cell c "gmr") (cell c "amps")
    (match k with Some Switch | None => None | _ => cell c "interruptingrating" end) (cell c "withstandrating")
    (assign_x (match x_column p with Some k => dget spacing k | None => None end) None) (assign_y None).

(** Lines 1900-1926, for texts *)
Definition mapp_closed_phase : list (string * string) :=
  [("0", "none"); ("1", "A"); ("2", "B"); ("3", "C"); ("4", "AB"); ("5", "AC"); ("6", "BC"); ("7", "ABC"); ("none", "none"); ("NONE", "none");
   ("A", "A"); ("B", "B"); ("C", "C"); ("AB", "AB"); ("AC", "AC"); ("BC", "BC"); ("ABC", "ABC")].
(** Lines 2524-2569: the wires of a device; [n] is total_closed *)
Fixpoint device_wires (k : device) (c : record) (closed : string) (n : nat) (ps : list string) : list wire :=
  match ps with
  | [] => []
  | p :: r =>
    if substr_in p closed && negb (String.eqb (lower closed) "none") then configure_wire c [] p (Some k) false :: device_wires k c closed (S n) r
    else if String.eqb p "N" && Nat.leb 1 n then configure_wire c [] p (Some k) false :: device_wires k c closed n r
    else configure_wire c [] p (Some k) true :: device_wires k c closed n r
  end.

(** Lines 2487-2495, 2579, 2664, 2746, 2831, 2915: by the type of the settings *)
Inductive shape := Plain (t : option string) | Device (k : device).
Definition shape_of (d : record) : shape :=
  match dget d "type" with
  | None => Plain None
  | Some t =>
    if substr_in "overhead" t then Plain (Some "overhead")
    else if substr_in "underground" t then Plain (Some "underground")
    else if substr_in "switch" t then Device Switch
    else if substr_in "sectionalizer" t then Device Sectionalizer
    else if substr_in "fuse" t then Device Fuse
    else if substr_in "recloser" t then Device Recloser
    else if substr_in "breaker" t then Device Breaker
    else if substr_in "network_protector" t then Device Protector
    else Plain None
  end.

(** Lines 3009-3052 *)
Definition line_data_of (d : record) : option line_data :=
  match dget d "linecableid" with
  | Some i =>
    match dget (t_cables T) i, dget (t_concentric T) i, dget (t_unbalanced T) i, dget (t_balanced T) i with
    | Some x, _, _, _ => Some (Balanced x)
    | None, Some x, _, _ => Some (Balanced x)
    | None, None, Some x, _ => Some (Unbalanced x)
    | None, None, None, Some x => Some (Balanced x)
    | None, None, None, None => None
    end
  | None =>
    match dget d "devicenumber" with
    | Some i =>
      match dget (t_concentric T) i with
      | Some x => Some (Balanced x)
      | None => if dmem d "condid_a" && dmem d "condid_b" && dmem d "condid_c" && dmem d "spacingid" && (dmem d "condid_n" || dmem d "condid_n1")
                then Some Spaced else None
      end
    | None => None
    end
  end.

(** [complex(float(d[r]), float(d[x]))] *)
Definition complex_of (d : record) (r x : string) : res (R * R) := do a <- float_of num d r; do b <- float_of num d x; Ok (a, b).
Definition scale (k : R) (z : R * R) : R * R := (k * fst z, k * snd z)%R.
Definition coeff : R := (/ 1000)%R.
Definition attempt_matrix (r : res matrix) : option matrix := match r with Ok m => Some m | Err _ => None end.

(** Lines 3072-3131 *)
Definition balanced_matrix (d : record) (n : nat) : res matrix :=
  match n with
  | 1 => do z0 <- complex_of d "r0" "x0"; Ok [[scale (1 / 3 * coeff) z0]]
  | _ =>
    do z1 <- complex_of d "r1" "x1"; do z0 <- complex_of d "r0" "x0";
    let a := scale (1 / 3 * coeff) (2 * fst z1 + fst z0, 2 * snd z1 + snd z0)%R in
    let b := scale (1 / 3 * coeff) (fst z0 - fst z1, snd z0 - snd z1)%R in
    Ok (match n with 2 => [[a; b]; [b; a]] | _ => [[a; b; b]; [b; a; b]; [b; b; a]] end)
  end.
(** [sorted([p1, p2])] *)
Definition sorted2 (p q : string) : string * string := match String.compare p q with Gt => (q, p) | _ => (p, q) end.
Definition entry (d : record) (r x : string) : res (R * R) := do z <- complex_of d r x; Ok (scale coeff z).
(** Lines 3216-3369 *)
Definition unbalanced_matrix (d : record) (ps : list string) : res matrix :=
  match ps with
  | [p] =>
    do r <- float_of num d ("r" ++ lower p)%string; do x <- float_of num d ("x" ++ lower p)%string;
    Ok [[scale coeff (r, coeff * x)%R]]
  | [p; q] =>
    let '(p1, p2) := sorted2 (lower p) (lower q) in
    if String.eqb p1 "a" && String.eqb p2 "c" then
      do za <- entry d "ra" "xa"; do m <- entry d "mutualresistanceca" "mutualreactanceca"; do zc <- entry d "rc" "xc";
      Ok [[za; m]; [m; zc]]
    else
      do z1 <- entry d ("r" ++ p1)%string ("x" ++ p1)%string;
      do m <- entry d ("mutualresistance" ++ p1 ++ p2)%string ("mutualreactance" ++ p1 ++ p2)%string;
      do z2 <- entry d ("r" ++ p2)%string ("x" ++ p2)%string;
      Ok [[z1; m]; [m; z2]]
  | _ =>
    do za <- entry d "ra" "xa"; do ab <- entry d "mutualresistanceab" "mutualreactanceab"; do ca <- entry d "mutualresistanceca" "mutualreactanceca";
    do zb <- entry d "rb" "xb"; do bc <- entry d "mutualresistancebc" "mutualreactancebc"; do zc <- entry d "rc" "xc";
    Ok [[za; ab; ca]; [ab; zb; bc]; [ca; bc; zc]]
  end.

(** The equipment with the id in a cell. *)
Definition refers (table : list (string * record)) (d : record) (k : string) : option record :=
  match dget d k with Some i => dget table i | None => None end.
(** The same, unless the cell says none. *)
Definition refers_named (table : list (string * record)) (d : record) (k : string) : option record :=
  match dget d k with Some i => if String.eqb (lower i) "none" then None else dget table i | None => None end.
Definition or_empty (o : option record) : record := match o with Some d => d | None => [] end.

(** Lines 3133-3209 *)
Definition balanced_wires (d : record) (ps : list string) : res (list wire) :=
  let c := or_empty (refers (t_conductors T) d "phasecondid") in
  let s := or_empty (refers (t_spacings T) d "spacingid") in
  do c' <- match c, dget d "linecableid" with [], Some i => of_opt EKey (dget (t_conductors T) i) | _, _ => Ok c end;
  Ok (map (fun p => configure_wire c' s p None false) ps ++
      [configure_wire (or_empty (refers (t_conductors T) d "neutralcondid")) s "N" None false]).
(** Lines 3371-3512 *)
Definition unbalanced_wires (d : record) (ps : list string) : list wire :=
  let conductor k := refers_named (t_conductors T) d k in
  let s := or_empty (refers_named (t_spacings T) d "spacingid") in
  map (fun p => configure_wire (or_empty (conductor ("condid_" ++ lower p)%string)) s p None false) ps ++
  match conductor "condid_n1", conductor "condid_n2", conductor "condid_n" with
  | Some c1, Some c2, _ => [configure_wire c1 s "N1" None false; configure_wire c2 s "N2" None false]
  | _, _, Some c => [configure_wire c s "N" None false]
  | Some c, None, None => [configure_wire c s "N" None false]
  | None, _, None => []
  end.
(** Lines 3730-3811 *)
Definition refers_spaced (d : record) (k : string) : option record :=
  match dget d k with Some i => if String.eqb i "" || String.eqb i "NONE" then None else dget (t_conductors T) i | None => None end.
Definition spaced_wires (d : record) (ps : list string) : list wire :=
  let s := or_empty (refers (t_spacings T) d "spacingid") in
  map (fun p => configure_wire (or_empty (refers (t_conductors T) d ("condid_" ++ lower p)%string)) s p None false) ps ++
  match or_empty (match refers_spaced d "condid_n" with Some c => Some c | None => refers_spaced d "condid_n1" end) with
  | [] => []
  | c => [configure_wire c s "N" None false]
  end.

(** Lines 2397-3828: one section; the state is the variable [phases], None: not bound yet. *)
Definition one_line (bound : option (list string)) (e : string * record) : res (option line * option (list string)) :=
  let sid := lower (strip_star (fst e)) in
  let d := snd e in
  do skip <- match dget d "fromnodeid" with
             | Some f => if substr_in "load" (lower f) then Ok true
                         else do t <- of_opt EKey (dget d "tonodeid"); Ok (substr_in "load" (lower t))
             | None => Ok false
             end;
  if (skip : bool) then Ok (None, bound)
  else
    let sec := dget (t_section_phase T) sid in
    let of_section k := match sec with Some s => dget s k | None => None end in
    let index k := match of_section k with Some t => int_ t | None => None end in
    let bound' := match of_section "phase" with Some t => Some (letters t) | None => bound end in
    do feeder <- of_opt EKey (dget (t_section_feeder T) sid);
    let make k t v ws m := mkLine sid (of_section "fromnodeid") (of_section "tonodeid") (index "fromnodeindex") (index "tonodeindex")
                             (cell d "length") feeder (dget d "eqid") k t v ws m in
    match shape_of d with
    | Device k =>
      do closed <- match dget d "closedphase" with Some c => of_opt EKey (dget mapp_closed_phase c) | None => Ok "ABC" end;
      let data := or_empty (refers (t_devices T k) d "eqid") in
      do ps <- of_opt EName bound';
      Ok (Some (make (Some k) None (kilo num data "kvll" None) (device_wires k data closed 0 (ps ++ ["N"])) None), bound')
    | Plain t =>
      match line_data_of d with
      | None => Ok (None, bound')
      | Some (Balanced x) =>
        let m := match bound' with Some ps => attempt_matrix (balanced_matrix x (length ps)) | None => None end in
        do ps <- of_opt EName bound';
        do ws <- balanced_wires x ps;
        Ok (Some (make None t None ws m), bound')
      | Some (Unbalanced x) =>
        let m := match bound' with Some ps => attempt_matrix (unbalanced_matrix x ps) | None => None end in
        do ps <- of_opt EName bound';
        Ok (Some (make None t None (unbalanced_wires x ps) m), bound')
      | Some Spaced =>
        do ps <- of_opt EName bound';
        do m <- spaced_matrix d ps;
        Ok (Some (make None t None (spaced_wires d ps) m), bound')
      end
    end.
Definition line_step (st : list line * option (list string)) (e : string * record) : res (list line * option (list string)) :=
  do '(o, b) <- one_line (snd st) e;
  Ok (fst st ++ match o with Some l => [l] | None => [] end, b).
Definition parse_lines (settings : list (string * record)) : res (list line) :=
  do '(ls, _) <- foldM line_step settings ([], None); Ok ls.
End Lines.
