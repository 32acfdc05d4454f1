From Coq Require Import List String Ascii Bool Arith ZArith Reals.
From Verif Require Import Base CymeMapModel CymeParseModel CymeLoadModel.
Import ListNotations.
Local Open Scope string_scope.
Local Open Scope nat_scope.
Local Open Scope list_scope.

(** The photovoltaics and batteries of a CYME network.
    Models ditto/readers/cyme/read.py 5908-6446 (parse_dg) from the tables that parser_helper yields: the settings, the
    generation models, the converters and their controls of the network file and the batteries of the equipment file
    (read in 6009-6154, see CymeParseModel.v; long_term_dynamics is read and not used).

    Simplifications:
    - Real numbers instead of floats; [num] is [float] of a text and never yields NaN or an infinity.
    - The objects are the lists of those made, in order.  An object in one of the dictionaries api_photovoltaics and
      api_bessi is its position in the list.
    - Attributes that the classes do not declare are left out: min_powerfactor and watt_powerfactor_curve of a
      photovoltaic (declared are min_power_factor and wattpowerfactor_curve), chargeefficiency and dischargeefficiency
      of a storage (declared are charging_efficiency and discharging_efficiency).
    - The cells of a file are texts.  The lists of [self.section_duplicates] are left out. *)

(** What the tables about the device say, with the defaults of models/photovoltaic.py. *)
Record inverter := mkInv {
  i_active : option R; i_factor : R; i_rated : option R; i_reactive : option R; i_min_factor : option R; i_fall : option R; i_rise : option R;
  i_control : option string; i_var : R; i_voltvar : string; i_wattpf : string; i_voltwatt : string }.
Definition inverter0 : inverter := mkInv None 1 None None None None None None 100 "DEFAULT VOLT-VAR" "DEFAULT WATT-PF" "DEFAULT VOLT-WATT".
Record pv := mkPv { p_name : string; p_feeder : string; p_temperature : option R; p_phases : list string; p_element : option string; p_inverter : inverter }.
Record converter := mkConv { c_rated : option R; c_reactive : option R; c_min_factor : option R }.
Definition converter0 : converter := mkConv None None None.
Record storage := mkSto {
  s_name : string; s_feeder : string; s_phases : list (string * option R); s_rated_kwh : option R; s_charging : option R; s_discharging : option R;
  s_reserve : option R; s_stored : option R; s_element : option string; s_converter : converter }.

Section Dg.
Variable num : string -> option R.
(** section_phase_mapping, section_feeder_mapping and self.bess *)
Variable section_phase : list (string * record).
Variable section_feeder : list (string * string).
Variable batteries : list (string * record).
Notation entry := (string * record)%type.

Definition float_of (d : record) (k : string) : res R := do t <- of_opt EKey (dget d k); of_opt EValue (num t).
(** An assignment of [f x] under [try] *)
Definition attempt {A} (r : res R) (f : R -> A) (before : A) : A := match r with Ok x => f x | Err _ => before end.
Definition from_node (key : string) : option string := match dget section_phase (lower key) with Some s => dget s "fromnodeid" | None => None end.

(** Lines 6158-6196: one setting, with the key of the dictionary. *)
Definition make_pv (e : entry) : res (string * pv) :=
  let d := snd e in
  do n <- of_opt EValue (dget d "devicenumber");
  do f <- of_opt EValue (dget section_feeder (lower (fst e)));
  Ok (lower n, mkPv ("PV_" ++ lower n)%string f (attempt (float_of d "ambienttemperature") Some None)
                 (match dget d "eqphase" with Some t => chars t | None => [] end) (from_node (fst e)) inverter0).

(** Lines 6245-6260: [None] is an infinity. *)
Definition limit (q : record) (k : string) : res (option R) := if dmem q k then do x <- float_of q k; Ok (Some x) else Ok None.
Definition average (q : record) (n : nat) : res (option R) :=
  do a <- limit q "maxchargingpower";
  do b <- limit q "maxdischargingpower";
  match (match a, b with Some x, Some y => Some (Rmin x y) | Some x, None => Some x | None, o => o end) with
  | Some x => if Nat.eqb n 0 then Err EZeroDiv else Ok (Some (x * 1000 / INR n)%R)
  | None => Ok None
  end.
(** Lines 6202-6285 *)
Definition make_storage (e : entry) : res (string * storage) :=
  let d := snd e in
  do n <- of_opt EValue (dget d "devicenumber");
  do f <- of_opt EValue (dget section_feeder (lower (fst e)));
  do phases <- match dget d "phase" with Some t => phase_mapping (VStr t) | None => Ok [Some "A"; Some "B"; Some "C"] end;
  do phases <- mapM (of_opt EType) phases;
  let q := match dget d "equipmentid" with Some i => dget batteries i | None => None end in
  let p := match q with Some q => match average q (length phases) with Ok o => o | Err _ => None end | None => None end in
  let rated := match q with Some q => attempt (float_of q "ratedstorageenergy") Some None | None => None end in
  Ok (lower n, mkSto ("BESS_" ++ lower n)%string f (map (fun a => (a, p)) phases) rated None None
                 (attempt (float_of d "maximumsoc") Some None)
                 (match rated with Some r => attempt (float_of d "initialsoc") (fun x => Some (x * r / 100)%R) None | None => None end)
                 (from_node (fst e)) converter0).

(** The loops of 6158 and 6202: the objects and the dictionary. *)
Definition create {O} (make : entry -> res (string * O)) (settings : list entry) : res (list O * list (string * nat)) :=
  foldM (fun s e => do no <- make e; Ok (fst s ++ [snd no], dset (snd s) (fst no) (length (fst s)))) settings ([], []).

Fixpoint alter {A} (i : nat) (f : A -> A) (l : list A) : list A :=
  match l, i with [], _ => [] | x :: r, 0 => f x :: r | x :: r, S j => x :: alter j f r end.
Definition on_inverter (f : inverter -> inverter) (p : pv) : pv := mkPv (p_name p) (p_feeder p) (p_temperature p) (p_phases p) (p_element p) (f (p_inverter p)).
Definition on_converter (f : converter -> converter) (s : storage) : storage :=
  mkSto (s_name s) (s_feeder s) (s_phases s) (s_rated_kwh s) (s_charging s) (s_discharging s) (s_reserve s) (s_stored s) (s_element s) (f (s_converter s)).
(** Lines 6288-6290, 6313-6315 and 6371-6373 *)
Definition device (e : entry) : string := lower (strip_star (fst e)).

(** Lines 6293-6309 *)
Definition set_generation (d : record) (v : inverter) : inverter :=
  match dget d "loadmodelname" with
  | Some m =>
    if String.eqb (lower m) "default" then
      mkInv (attempt (float_of d "activegeneration") (fun x => Some (x * 1000)%R) (i_active v)) (attempt (float_of d "powerfactor") (fun x => (x / 100)%R) (i_factor v))
        (i_rated v) (i_reactive v) (i_min_factor v) (i_fall v) (i_rise v) (i_control v) (i_var v) (i_voltvar v) (i_wattpf v) (i_voltwatt v)
    else v
  | None => v
  end.
(** Lines 6316-6342 *)
Definition set_inverter (d : record) (v : inverter) : inverter :=
  mkInv (i_active v) (i_factor v) (attempt (float_of d "activepowerrating") (fun x => Some (x * 1000)%R) (i_rated v)) (attempt (float_of d "reactivepowerrating") (fun x => Some (x * 1000)%R) (i_reactive v))
    (i_min_factor v) (attempt (float_of d "powerfalllimit") Some (i_fall v)) (attempt (float_of d "powerriselimit") Some (i_rise v)) (i_control v) (i_var v) (i_voltvar v) (i_wattpf v) (i_voltwatt v).
(** Lines 6344-6361 *)
Definition set_converter (d : record) (v : converter) : converter :=
  mkConv (attempt (float_of d "activepowerrating") (fun x => Some (x * 1000)%R) (c_rated v)) (attempt (float_of d "reactivepowerrating") (fun x => Some (x * 1000)%R) (c_reactive v))
    (attempt (float_of d "minimumpowerfactor") (fun x => Some (x / 100)%R) (c_min_factor v)).
(** Lines 6376-6394 *)
Definition control_of (d : record) (before : option string) : option string :=
  match dget d "controltype" with
  | Some t =>
    if String.eqb t "1" then Some "voltvar_vars_over_watts"
    else if String.eqb t "0" then Some "voltvar_watts_over_vars"
    else if String.eqb t "2" then Some "voltvar_fixedvars"
    else if String.eqb t "3" then Some "voltvar_novars"
    else if String.eqb t "5" then Some "voltwatt"
    else if String.eqb t "6" then Some "watt_powerfactor"
    else if String.eqb t "10" then Some "powerfactor"
    else before
  | None => before
  end.
(** A number is not a value of a Unicode attribute: TraitError. *)
Definition as_text (x : R) : res string := Err EType.
Definition is_control (c : option string) (t : string) : bool := match c with Some s => String.eqb s t | None => false end.
(** Lines 6402-6416, with the control type of above *)
Definition set_curves (d : record) (c : option string) (voltvar voltwatt : string) : string * string :=
  match float_of d "convertercontrolid" with
  | Ok x =>
    if is_control c "voltvar_watts_over_vars" || is_control c "voltvar_vars_over_watts" then (match as_text x with Ok s => s | Err _ => voltvar end, voltwatt)
    else if is_control c "voltwatt" then (voltvar, match as_text x with Ok s => s | Err _ => voltwatt end)
    else (voltvar, voltwatt)
  | Err _ => (voltvar, voltwatt)
  end.
(** Lines 6374-6423 *)
Definition set_control (d : record) (v : inverter) : inverter :=
  let c := control_of d (i_control v) in
  let curves := set_curves d c (i_voltvar v) (i_voltwatt v) in
  mkInv (i_active v) (attempt (float_of d "powerfactor") (fun x => (x / 100)%R) (i_factor v)) (i_rated v) (i_reactive v) (i_min_factor v) (i_fall v) (i_rise v)
    c (attempt (float_of d "fixedvarinjection") (fun x => x) (i_var v)) (fst curves) (i_wattpf v) (snd curves).

(** Lines 6287-6309: without a photovoltaic of this name, KeyError. *)
Definition generations (devs : list (string * nat)) (dg : list entry) (pvs : list pv) : res (list pv) :=
  foldM (fun l e => do i <- of_opt EKey (dget devs (device e)); Ok (alter i (on_inverter (set_generation (snd e))) l)) dg pvs.
(** Lines 6311-6361 *)
Definition converters (devs bdevs : list (string * nat)) (conv : list entry) (st : list pv * list storage) : list pv * list storage :=
  fold_left (fun st e =>
    match dget devs (device e) with
    | Some i => (alter i (on_inverter (set_inverter (snd e))) (fst st), snd st)
    | None => match dget bdevs (device e) with
              | Some i => (fst st, alter i (on_converter (set_converter (snd e))) (snd st))
              | None => st
              end
    end) conv st.
(** Lines 6363-6423 *)
Definition controls (devs : list (string * nat)) (ctl : list entry) (pvs : list pv) : list pv :=
  fold_left (fun l e => match dget devs (device e) with Some i => alter i (on_inverter (set_control (snd e))) l | None => l end) ctl pvs.
(** Lines 6156-6423 *)
Definition parse_dg (pv_settings bess_settings dg conv ctl : list entry) : res (list pv * list storage) :=
  do '(pvs, devs) <- create make_pv pv_settings;
  do '(bs, bdevs) <- create make_storage bess_settings;
  do pvs <- generations devs dg pvs;
  let '(pvs, bs) := converters devs bdevs conv (pvs, bs) in
  Ok (controls devs ctl pvs, bs).
End Dg.
