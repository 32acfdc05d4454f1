From Coq Require Import List String Ascii Bool Arith ZArith Reals.
From Verif Require Import Base CymeParseModel CymeParseSpec CymeLoadSpec CymeDgModel.
Import ListNotations.
Local Open Scope string_scope.
Local Open Scope nat_scope.
Local Open Scope list_scope.

(** The value of the last row that has one; nothing if no row has one. *)
Definition latest {A V} (P : A -> V -> Prop) (l : list A) (o : option V) : Prop :=
  (exists l1 a l2 v, l = l1 ++ a :: l2 /\ P a v /\ (forall b w, In b l2 -> ~ P b w) /\ o = Some v) \/ ((forall a v, In a l -> ~ P a v) /\ o = None).
Definition latest_or {A V} (P : A -> V -> Prop) (l : list A) (default v : V) : Prop := exists o, latest P l o /\ v = match o with Some w => w | None => default end.

Section Spec.
Variable num : string -> option R.
Variable section_phase : list (string * CymeParseModel.record).
Variable section_feeder : list (string * string).
Variable batteries : list (string * CymeParseModel.record).
Variables pv_settings bess_settings dg conv ctl : list (string * CymeParseModel.record).
Notation record := CymeParseModel.record.
Notation entry := (string * CymeParseModel.record)%type.

(** A row about the device [dev]: its key is the number of the device with stars. *)
Definition about (dev : string) (e : entry) : Prop := exists id k, fst e = (id ++ stars k)%string /\ bare id /\ lower id = dev.
Definition named (e : entry) : Prop := exists id k, fst e = (id ++ stars k)%string /\ bare id.
(** The device of a setting. *)
Definition of_device (dev : string) (e : entry) : Prop := exists n, dget (snd e) "devicenumber" = Some n /\ lower n = dev.
Definition cell_says (d : record) (k : string) (o : option R) : Prop := forall x, o = Some x <-> number num d k x.
Definition times_cell (d : record) (k : string) (c x : R) : Prop := exists y, number num d k y /\ x = (y * c)%R.
Definition element_says (key : string) (o : option string) : Prop := forall t, o = Some t <-> exists s, dget section_phase (lower key) = Some s /\ dget s "fromnodeid" = Some t.
Definition letters (t : string) : list string := map (fun a => String a "") (list_ascii_of_string t).
(** The generation model that counts. *)
Definition default_model (d : record) : Prop := exists m, dget d "loadmodelname" = Some m /\ lower m = "default".
Definition control_table : list (string * string) :=
  [("0", "voltvar_watts_over_vars"); ("1", "voltvar_vars_over_watts"); ("2", "voltvar_fixedvars"); ("3", "voltvar_novars"); ("5", "voltwatt"); ("6", "watt_powerfactor"); ("10", "powerfactor")].

(** The tables about the device, the last row first. *)
Definition inverter_says (dev : string) (v : inverter) : Prop :=
  latest (fun e x => about dev e /\ default_model (snd e) /\ times_cell (snd e) "activegeneration" 1000 x) dg (i_active v) /\
  latest (fun e x => about dev e /\ times_cell (snd e) "activepowerrating" 1000 x) conv (i_rated v) /\
  latest (fun e x => about dev e /\ times_cell (snd e) "reactivepowerrating" 1000 x) conv (i_reactive v) /\
  latest (fun e x => about dev e /\ number num (snd e) "powerfalllimit" x) conv (i_fall v) /\
  latest (fun e x => about dev e /\ number num (snd e) "powerriselimit" x) conv (i_rise v) /\
  latest (fun e c => about dev e /\ exists t, dget (snd e) "controltype" = Some t /\ In (t, c) control_table) ctl (i_control v) /\
  latest_or (fun e x => about dev e /\ number num (snd e) "fixedvarinjection" x) ctl 100%R (i_var v) /\
  exists f, latest_or (fun e x => about dev e /\ default_model (snd e) /\ times_cell (snd e) "powerfactor" (1 / 100) x) dg 1%R f /\
    latest_or (fun e x => about dev e /\ times_cell (snd e) "powerfactor" (1 / 100) x) ctl f (i_factor v).
(** The setting [e], followed by the settings [later]. *)
Definition pv_says (e : entry) (later : list entry) (p : pv) : Prop :=
  exists n, dget (snd e) "devicenumber" = Some n /\ p_name p = ("PV_" ++ lower n)%string /\ dget section_feeder (lower (fst e)) = Some (p_feeder p) /\
    cell_says (snd e) "ambienttemperature" (p_temperature p) /\ (forall t, dget (snd e) "eqphase" = Some t -> p_phases p = letters t) /\ (dget (snd e) "eqphase" = None -> p_phases p = []) /\ element_says (fst e) (p_element p) /\
    ((forall e', In e' later -> ~ of_device (lower n) e') -> inverter_says (lower n) (p_inverter p)) /\
    ((exists e', In e' later /\ of_device (lower n) e') -> p_inverter p = inverter0).

(** The smaller one of the two limits that are there, if both cells can be read. *)
Definition limits_say (q : record) (x : R) : Prop :=
  (exists a b, number num q "maxchargingpower" a /\ number num q "maxdischargingpower" b /\ x = Rmin a b) \/
  (number num q "maxchargingpower" x /\ dget q "maxdischargingpower" = None) \/ (dget q "maxchargingpower" = None /\ number num q "maxdischargingpower" x).
Definition battery_of (d q : record) : Prop := exists i, dget d "equipmentid" = Some i /\ dget batteries i = Some q.
Definition storage_phases (d : record) (ps : list string) : Prop :=
  (exists t, dget d "phase" = Some t /\ ps = letters t) \/ (dget d "phase" = None /\ ps = ["A"; "B"; "C"]).
Definition share_says (d : record) (n : nat) (o : option R) : Prop := forall x, o = Some x <-> exists q y, battery_of d q /\ limits_say q y /\ n <> 0 /\ x = (y * 1000 / INR n)%R.
Definition converter_says (dev : string) (v : converter) : Prop :=
  latest (fun e x => about dev e /\ times_cell (snd e) "activepowerrating" 1000 x) conv (c_rated v) /\
  latest (fun e x => about dev e /\ times_cell (snd e) "reactivepowerrating" 1000 x) conv (c_reactive v) /\
  latest (fun e x => about dev e /\ times_cell (snd e) "minimumpowerfactor" (1 / 100) x) conv (c_min_factor v).
Definition storage_says (e : entry) (later : list entry) (s : storage) : Prop :=
  exists n ps o, dget (snd e) "devicenumber" = Some n /\ s_name s = ("BESS_" ++ lower n)%string /\ dget section_feeder (lower (fst e)) = Some (s_feeder s) /\
    storage_phases (snd e) ps /\ share_says (snd e) (length ps) o /\ s_phases s = map (fun a => (a, o)) ps /\
    (forall x, s_rated_kwh s = Some x <-> exists q, battery_of (snd e) q /\ number num q "ratedstorageenergy" x) /\
    cell_says (snd e) "maximumsoc" (s_reserve s) /\
    (forall x, s_stored s = Some x <-> exists r y, s_rated_kwh s = Some r /\ number num (snd e) "initialsoc" y /\ x = (y / 100 * r)%R) /\
    element_says (fst e) (s_element s) /\
    ((forall e', In e' later -> ~ of_device (lower n) e') -> (forall e', In e' pv_settings -> ~ of_device (lower n) e') -> converter_says (lower n) (s_converter s)) /\
    ((exists e', (In e' later \/ In e' pv_settings) /\ of_device (lower n) e') -> s_converter s = converter0).

(** Settings of a section that the network file describes. *)
Definition placed (e : entry) : Prop := exists n f, dget (snd e) "devicenumber" = Some n /\ dget section_feeder (lower (fst e)) = Some f.
End Spec.
