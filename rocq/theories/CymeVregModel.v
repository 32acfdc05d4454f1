From Coq Require Import List String Ascii Bool Arith ZArith Reals.
From Verif Require Import Base CymeMapModel CymeParseModel CymeLoadModel.
Import ListNotations.
Local Open Scope string_scope.
Local Open Scope nat_scope.
Local Open Scope list_scope.

(** The regulators of a CYME network.
    Models ditto/readers/cyme/read.py 4981-5297 (parse_regulators) from the tables that parser_helper yields: the
    settings of the network file and the regulators of the equipment file (read in 5036-5094, see CymeParseModel.v).

    Simplifications:
    - Real numbers instead of floats; [num] is [float] of a text and never yields NaN or an infinity.
    - The regulators are the list of those made, in order; the warning of lines 5122-5127, the [Position] objects that
      line 5160 leaves in the model and the lists of [self.section_duplicates] are left out.
    - The cells of a file are texts, hence [is not None] holds of each. *)
Record winding := mkWinding { w_power : option R; w_connection : option string; w_voltage : option R; w_phases : list string }.
Record regulator := mkReg {
  g_name : string; g_feeder : string; g_from : option string; g_to : option string; g_phase : string; g_positions : list (R * R);
  g_pt : option R; g_ct : option R; g_center : option R; g_bandwidth : option R; g_windings : list winding
}.

Section Regulators.
Variable num : string -> option R.
(** section_phase_mapping, section_feeder_mapping and self.regulators *)
Variable section_phase : list (string * record).
Variable section_feeder : list (string * string).
Variable equipment : list (string * record).

Definition float_of (d : record) (k : string) : res R := do t <- of_opt EKey (dget d k); of_opt EValue (num t).
(** An assignment under [try] *)
Definition attempt (r : res R) (before : option R) : option R := match r with Ok x => Some x | Err _ => before end.

(** Lines 5159-5166: the name reg_set is not bound. *)
Definition position_of (d : record) : res (R * R) := Err EName.

(** Lines 5178-5186 *)
Definition center_of (d : record) (p : string) : option R :=
  if String.eqb p "A" then attempt (float_of d "vseta") None
  else if String.eqb p "B" then attempt (float_of d "vsetb") None
  else if String.eqb p "C" then attempt (float_of d "vsetc") None
  else None.

(** Lines 5189-5234: three statements under one [try]; the first that raises an exception ends them. *)
Definition bandwidth_step (d q : record) (p letter cell : string) : res R :=
  if String.eqb p letter && dmem d cell then float_of d cell
  else if dmem q "forwardbandwidth" then float_of q "forwardbandwidth"
  else float_of q "bandwidth".
Fixpoint bandwidth_steps (d q : record) (p : string) (steps : list (string * string)) (before : option R) : option R :=
  match steps with
  | [] => before
  | (letter, cell) :: r => match bandwidth_step d q p letter cell with Ok x => bandwidth_steps d q p r (Some x) | Err _ => before end
  end.
Definition bandwidth_of (d q : record) (p : string) : option R :=
  bandwidth_steps d q p [("A", "bandwidtha"); ("B", "bandwidthb"); ("C", "bandwidthc")] None.

(** Lines 5238-5282 *)
Definition winding_of (d q : record) (p : string) : winding :=
  mkWinding (match float_of q "kva" with Ok x => Some (x * 1000)%R | Err _ => None end)
    (match dget d "conn" with Some t => match connection_configuration_mapping (VStr t) with Ok (Some c) => Some c | _ => None end | None => None end)
    (attempt (float_of q "kvln") None) [p].

(** Lines 5120-5295: one phase *)
Definition one_regulator (sid : string) (d q : record) (p : string) : res regulator :=
  do feeder <- of_opt EKey (dget section_feeder sid);
  let s := dget section_phase sid in
  Ok (mkReg ("Reg_" ++ sid ++ "_" ++ p)%string feeder
        (match s with Some s => dget s "fromnodeid" | None => None end) (match s with Some s => dget s "tonodeid" | None => None end) p
        (match position_of d with Ok xy => [xy] | Err _ => [] end)
        (attempt (float_of d "pt") None) (attempt (float_of d "ct") None) (center_of d p) (bandwidth_of d q p)
        [winding_of d q p; winding_of d q p]).
(** Lines 5096-5297: one setting *)
Definition one_setting (e : string * record) : res (list regulator) :=
  let sid := lower (strip_star (fst e)) in
  let d := snd e in
  do s <- of_opt EValue (dget section_phase sid);
  do _ <- of_opt EValue (dget s "phase");
  do t <- of_opt EValue (dget d "phaseon");
  do on <- phase_mapping (VStr t);
  let q := match dget d "eqid" with Some i => match dget equipment i with Some q => q | None => [] end | None => [] end in
  mapM (fun p => do p' <- of_opt EType p; one_regulator sid d q p') on.
Definition parse_regulators (settings : list (string * record)) : res (list regulator) :=
  do ls <- mapM one_setting settings; Ok (concat ls).
End Regulators.
