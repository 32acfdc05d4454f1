From Coq Require Import List String Ascii Bool Arith ZArith Reals.
From Verif Require Import Base CymeMapModel CymeParseModel CymeLoadModel.
Import ListNotations.
Local Open Scope string_scope.
Local Open Scope nat_scope.
Local Open Scope list_scope.

(** The capacitors of a CYME network.
    Models ditto/readers/cyme/read.py 3830-4164 (parse_capacitors) from the tables that parser_helper yields: the
    settings of the network file and the capacitors of the equipment file (read in 3864-3952, see CymeParseModel.v).

    Simplifications:
    - Real numbers instead of floats; [num] is [float] of a text and never yields NaN or an infinity.
    - The capacitors are the list of those made, in order; the [Position] objects that line 4002 leaves in the model are
      left out, and so are the lists of [self.section_duplicates].
    - Traits: [pt_phase] is a Unicode, which the list that [phase_mapping] yields is not, and a capacitor has no
      attribute [position]; both errors are swallowed (lines 3982-3987, 4001-4008). *)
Record capacitor := mkCap {
  c_name : string; c_element : option string; c_monitored : option string; c_feeder : string; c_connection : option string;
  c_positions : list (R * R); c_reactance : option R; c_voltage : option R; c_phases : list (string * option R)
}.

(** The assignment of a list to the attribute [pt_phase]. *)
Definition assign_text (r : res (list (option string))) (before : option string) : option string := before.
(** [capacitor.position.append(...)] *)
Definition append_position (r : res (R * R)) (before : list (R * R)) : list (R * R) := before.

Definition attempt_ (r : res R) : option R := match r with Ok x => Some x | Err _ => None end.

Section Capacitors.
Variable num : string -> option R.
(** section_phase_mapping, section_feeder_mapping and self.capacitors *)
Variable section_phase : list (string * record).
Variable section_feeder : list (string * string).
Variable equipment : list (string * record).

Definition float_of (d : record) (k : string) : res R := do t <- of_opt EKey (dget d k); of_opt EValue (num t).
(** [x = float(...) * 10 ** 3] under [try] *)
Definition kilo (d : record) (k : string) (before : option R) : option R :=
  match float_of d k with Ok x => Some (x * 1000)%R | Err _ => before end.
(** Lines 4048-4060 *)
Definition rated (conn : option string) (phases : list string) (d : record) (before : option R) : option R :=
  if dmem d "kv" then
    let wye := match conn with Some c => String.eqb c "Y" | None => false end || Nat.eqb (length phases) 1 in
    let delta := match conn with Some c => String.eqb c "D" | None => false end || Nat.eqb (length phases) 3 in
    match float_of d "kv" with
    | Ok x => if delta then Some (x * 1000 * sqrt 3)%R else if wye then Some (x * 1000)%R else before
    | Err _ => before
    end
  else before.

(** [max(float(a), max(float(b), float(c))) > 0] *)
Definition some_positive (d : record) (a b c : string) : res bool :=
  do x <- float_of d a; do y <- float_of d b; do z <- float_of d c;
  Ok (if Rlt_dec 0 (Rmax x (Rmax y z)) then true else false).
Definition given (d : record) (a b c : string) : res bool :=
  if dmem d a && dmem d b && dmem d c then some_positive d a b c else Ok false.
(** Lines 4104-4117 and 4132-4145 *)
Definition power_of_phase (d : record) (a b c p : string) : option R :=
  if String.eqb p "A" then kilo d a None
  else if String.eqb p "B" then kilo d b None
  else if String.eqb p "C" then kilo d c None
  else None.
(** Lines 4078-4157: one phase *)
Definition phase_capacitor (d : record) (eq : option record) (p : string) : res (string * option R) :=
  do fixed <- given d "fixedkvara" "fixedkvarb" "fixedkvarc";
  if (fixed : bool) then Ok (p, power_of_phase d "fixedkvara" "fixedkvarb" "fixedkvarc" p)
  else
    do switched <- given d "switchedkvara" "switchedkvarb" "switchedkvarc";
    if (switched : bool) then Ok (p, power_of_phase d "switchedkvara" "switchedkvarb" "switchedkvarc" p)
    else Ok (p, match eq with Some q => kilo q "kvar" None | None => None end).

(** Lines 3954-4162: one capacitor *)
Definition one_capacitor (e : string * record) : res capacitor :=
  let sid := lower (strip_star (fst e)) in
  let d := snd e in
  let element := match dget section_phase sid with Some s => dget s "fromnodeid" | None => None end in
  let monitored := assign_text (do t <- of_opt EKey (dget d "controllingphase"); phase_mapping (VStr t)) None in
  do feeder <- of_opt EKey (dget section_feeder sid);
  let conn := match dget d "connection" with
              | Some t => match capacitors_connection_mapping (VStr t) with Ok (VStr c) => Some c | _ => None end
              | None => None
              end in
  let positions := append_position (do x <- float_of d "coordx"; do y <- float_of d "coordy"; Ok (x, y)) [] in
  let device := match dget d "eqid" with Some i => Some i | None => dget d "shuntcapacitorid" end in
  let eq := match device with Some i => dget equipment i | None => None end in
  let reactance := match eq with Some q => attempt_ (float_of q "reactance") | None => None end in
  let voltage := match eq with Some q => kilo q "kv" None | None => None end in
  do s <- of_opt EKey (dget section_phase sid);
  do t <- of_opt EKey (dget s "phase");
  let phases := letters t in
  let voltage' := rated conn phases d voltage in
  do _ <- match monitored with Some m => if smem m phases then Ok tt else Err EName | None => Ok tt end;
  do pcs <- mapM (phase_capacitor d eq) phases;
  Ok (mkCap ("Cap_" ++ sid)%string element monitored feeder conn positions reactance voltage' pcs).
(** Lines 3954-4164 *)
Definition parse_capacitors (settings : list (string * record)) : res (list capacitor) := mapM one_capacitor settings.
End Capacitors.
