(** What the capacitors that OpenDSS reports should become. *)
From Verif Require Import Base CsvModel DssTextModel DssTextSpec DssLoadSpec DssNodeSpec DssRdLoadModel DssRdLoadSpec DssRdCapModel.
From Coq Require Import Reals QArith Qreals.
Local Open Scope string_scope.
Local Open Scope nat_scope.
Local Open Scope list_scope.

(** a control of the capacitor named [n] *)
Definition controls (c : data) (n : string) : Prop := exists s, c "capacitor" = Some (PText s) /\ lower s = lower n.
Definition told (l : list (string * data)) : Prop := forall x, In x l -> exists s, snd x "capacitor" = Some (PText s).
(** the first control of a capacitor *)
Inductive control_of (n : string) : list (string * data) -> option data -> Prop :=
| co_none l : (forall x, In x l -> ~ controls (snd x) n) -> control_of n l None
| co_some a x z : (forall y, In y a -> ~ controls (snd y) n) -> controls (snd x) n -> control_of n (a ++ x :: z) (Some (snd x)).
Inductive means : string -> option string -> Prop :=
| me_voltage : means "Voltage" (Some "voltage") | me_current : means "Current" (Some "currentFlow") | me_kvar : means "kvar" (Some "reactivePower")
| me_time : means "time" (Some "timeScheduled") | me_pf : means "PF" None.
Definition cap_on (k : nat) (ns ps : list string) : Prop := (k <> 0 /\ k = length ns /\ Forall2 node_letter ns ps) \/ (ns = [] /\ k = 3 /\ ps = ["A"; "B"; "C"]).

(** A capacitor [n] at bus [b] with phases [ps]; [steps] are the kvar of its steps, of all phases together. *)
Record reports_cap (int_ : string -> option Z) num (full : string) (d : data) (n b conn : string) (ps : list string) (steps : list R) : Prop := {
  rx_name : full = ("Capacitor." ++ n)%string;
  rx_plain : ~ has "apacitor." n;
  rx_conn : exists s, d "conn" = Some (PText s) /\ lower s = conn /\ (conn = "wye" \/ conn = "delta");
  rx_bus : exists t ns k, d "bus1" = Some (PText t) /\ terminal t = (b, ns) /\ whole int_ d "phases" (Z.of_nat k) /\ cap_on k ns ps;
  rx_kvar : exists l, d "kvar" = Some (PList l) /\ Forall2 (fun s r => num s = Some r) l steps;
  rx_steps : length steps = 1 \/ length steps = length ps }.
(** the control: nothing without one *)
Definition of_control {A} (c : option data) (P : data -> option A -> Prop) (v : option A) : Prop := match c with Some d => P d v | None => v = None end.
Record reads_cap (int_ : string -> option Z) num source (cl : list (string * data)) (d : data) (n b conn : string) (ps : list string) (steps : list R) (r : rcap) : Prop := {
  rk_name : rc_name r = lower n;
  rk_feeder : rc_feeder r = source;
  rk_bus : rc_bus r = Some b;
  rk_conn : rc_conn r = Some (if String.eqb conn "delta" then "D" else "Y");
  rk_kv : exists v, states num d "kv" v /\ rc_kv r = option_map (fun x => x * 1000)%R v;
  rk_control : exists c, control_of n cl c /\ of_control c (fun c => states num c "Delay") (rc_delay r) /\ of_control c (fun c => states num c "Vmin") (rc_low r) /\
    of_control c (fun c => states num c "Vmax") (rc_high r) /\ of_control c (fun c => states num c "PTratio") (rc_pt r) /\ of_control c (fun c => states num c "CTratio") (rc_ct r) /\
    of_control c (fun c v => forall e, c "element" = Some (PText e) -> v = Some e) (rc_element r) /\
    of_control c (fun c v => forall t m, c "type" = Some (PText t) -> means t m -> v = m) (rc_mode r) /\
    of_control c (fun c v => forall m p z, node_letter m p -> int_ m = Some z -> whole int_ c "PTPhase" z -> v = Some p) (rc_ptphase r);
  rk_phases : exists l vs, rc_phases r = Some l /\ map fst l = map Some ps /\ map snd l = map Some vs /\ total vs = (total steps * 1000)%R /\
    (length steps = 1 -> forall v, In v vs -> (v * INR (length ps) = total steps * 1000)%R) }.
Definition good_cap_report int_ num (x : string * data) : Prop := snd x "enabled" <> None /\ (enabled (snd x) = true -> exists n b conn ps steps, reports_cap int_ num (fst x) (snd x) n b conn ps steps).
Definition cap_read_of int_ num source cl (x : string * data) (r : rcap) : Prop :=
  exists n b conn ps steps, reports_cap int_ num (fst x) (snd x) n b conn ps steps /\ reads_cap int_ num source cl (snd x) n b conn ps steps r.

(** ** What OpenDSS reports of elements that were written *)
Definition passed (num : string -> option R) (e : element) (d : data) (k K : string) : Prop := forall s r, prop e k = Some s -> num s = Some r -> number num d K r.
Definition same_text (e : element) (d : data) (k K : string) : Prop := forall s, prop e k = Some s -> d K = Some (PText s).
Record engine_cap (num : string -> option R) (e : element) (d : data) : Prop := {
  ec_on : d "enabled" = Some (PText "Yes");
  ec_bus : same_text e d "bus1" "bus1";
  ec_conn : d "conn" = Some (PText (defaults e "conn" "wye"));
  ec_phases : same_text e d "phases" "phases";
  ec_kv : passed num e d "kv" "kv";
  ec_kvar : forall s r, prop e "kvar" = Some s -> num s = Some r -> exists s', d "kvar" = Some (PList [s']) /\ num s' = Some r }.
Record engine_control (num : string -> option R) (e : element) (d : data) : Prop := {
  ek_cap : same_text e d "capacitor" "capacitor";
  ek_element : same_text e d "element" "element";
  ek_type : same_text e d "type" "type";
  ek_phase : same_text e d "ptphase" "PTPhase";
  ek_delay : passed num e d "delay" "Delay"; ek_low : passed num e d "vmin" "Vmin"; ek_high : passed num e d "vmax" "Vmax";
  ek_pt : passed num e d "ptratio" "PTratio"; ek_ct : passed num e d "ctratio" "CTratio" }.
