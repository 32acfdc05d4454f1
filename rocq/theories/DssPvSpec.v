(** Specification vocabulary for the PV systems of the OpenDSS script. *)
From Verif Require Import Base CsvModel DssTextModel DssPvModel DssNameSpec DssTextSpec DssLoadSpec.
From Coq Require Import QArith Qabs.
Local Open Scope string_scope.
Local Open Scope nat_scope.
Local Open Scope list_scope.

Definition pv_voltage_is (parent : string -> option (option Q)) (p : pv) (v : option Q) : Prop :=
  match pv_kv p with Some x => v = Some x | None => exists b, pv_bus p = Some b /\ parent b = Some v end.
Definition factor (p : pv) : Q := match pv_factor p with Some f => Qabs f | None => 1%Q end.

(** The load shape of a data file, among those of the group. *)
Definition pv_shape (isfile : string -> bool) (datasets : dict (dict string)) (fmts : dict string) (key : string) (loc : option string) (k f : string) : Prop :=
  exists l d, loc = Some l /\ isfile l = true /\ dget datasets key = Some d /\ dget d l = Some f /\ dget fmts f = Some k.
Definition pv_no_data (isfile : string -> bool) (loc : option string) : Prop := loc = None \/ exists l, loc = Some l /\ isfile l = false.
Definition pv_shaped (isfile : string -> bool) (datasets : dict (dict string)) (fmts : dict string) (key : string) (loc : option string) : Prop :=
  pv_no_data isfile loc \/ exists k f, pv_shape isfile datasets fmts key loc k f /\ (k = "daily" \/ k = "yearly") /\ token f.

Record pv_is (num : string -> option Q) (parent : string -> option (option Q)) (isfile : string -> bool) (datasets : dict (dict string)) (fmts : dict string)
    (removed : bool) (key : string) (p : pv) (e : element) : Prop := {
  vi_class : e_class e = "PVSystem";
  vi_name : pv_name p = Some (e_name e);
  vi_bus : exists ns, Forall2 at_node (pv_phases p) ns /\ connects e "bus1" (pv_bus p) ns;
  vi_kv : exists v, pv_voltage_is parent p v /\ gives num e "kv" (match v with Some x => Some (x / 1000)%Q | None => None end) /\
    prop e "phases" = match v with Some x => Some (if Qle_bool 300 x then "3" else "1") | None => None end;
  vi_kva : gives num e "kva" (match pv_active p with Some a => Some (a / factor p / 1000)%Q | None => None end);
  vi_pmpp : gives num e "pmpp" (match pv_rated p, pv_active p with
                                | Some x, _ => Some (x / 1000)%Q
                                | None, Some a => Some (a * factor p * (11 # 10) / 1000)%Q
                                | None, None => None end);
  vi_kvarmax : gives num e "kvarmax" (match pv_reactive p with Some x => Some (x / 1000)%Q | None => None end);
  vi_conn : match pv_conn p with
            | Some c => (c = "D" /\ prop e "conn" = Some "delta") \/ (c = "Y" /\ prop e "conn" = Some "wye")
            | None => prop e "conn" = None end;
  vi_cutout : gives num e "%cutout" (pv_cutout p);
  vi_cutin : gives num e "%cutin" (pv_cutin p);
  vi_r : gives num e "%r" (pv_r p);
  vi_x : gives num e "%x" (pv_x p);
  vi_vmax : gives num e "vmaxpu" (pv_vmax p);
  vi_vmin : gives num e "vminpu" (pv_vmin p);
  vi_pf : pv_control p = None \/ pv_control p = Some "powerfactor" -> gives num e "pf" (pv_factor p) /\ prop e "kvar" = None;
  vi_kvar : pv_control p = Some "voltwatt" \/ pv_control p = Some "voltvar" -> prop e "pf" = None /\ prop e "kvar" = Some "0";
  vi_neither : pv_control p <> None -> ~ In (pv_control p) (map Some ["powerfactor"; "voltwatt"; "voltvar"]) -> prop e "pf" = None /\ prop e "kvar" = None;
  vi_model : prop e "model" = Some "1" <->
    (((pv_control p = None \/ pv_control p = Some "powerfactor") /\ pv_factor p <> None) \/ In (pv_control p) (map Some ["voltwatt"; "voltvar"; "voltwatt_voltvar"]));
  vi_irradiance : prop e "irradiance" = match pv_ts p with [] => None | _ => Some "1" end;
  vi_shape : forall k f a t b, removed = false -> pv_ts p = a ++ t :: b -> pv_shape isfile datasets fmts key t k f ->
    (forall u g, In u b -> ~ pv_shape isfile datasets fmts key u k g) -> prop e k = Some f;
  vi_no_shape : forall k, k = "daily" \/ k = "yearly" -> (removed = true \/ forall u g, In u (pv_ts p) -> ~ pv_shape isfile datasets fmts key u k g) -> prop e k = None;
  vi_only : only e ["bus1"; "phases"; "kv"; "kva"; "pmpp"; "kvarmax"; "conn"; "%cutout"; "%cutin"; "%r"; "%x"; "vmaxpu"; "vminpu"; "model"; "pf"; "kvar";
                    "irradiance"; "daily"; "yearly"] }.

Definition good_pv (parent : string -> option (option Q)) (isfile : string -> bool) (datasets : dict (dict string)) (fmts : dict string) (key : string) (p : pv) : Prop :=
  (exists n, pv_name p = Some n /\ token n) /\ pv_bus p <> Some "" /\ (forall x, In x (pv_phases p) -> exists n, at_node x n) /\
  (exists v, pv_voltage_is parent p v) /\ (pv_active p <> None -> ~ (factor p == 0)%Q) /\
  In (pv_conn p) [None; Some "D"; Some "Y"] /\ Forall (pv_shaped isfile datasets fmts key) (pv_ts p).

(** *** Controls *)
(** The element controls the inverter of this PV system, and no other. *)
Definition steers (e : element) (n : string) : Prop := e_class e = "InvControl" /\ exists v, prop e "pvsystemlist" = Some v /\ items v = [n].
Definition curve_of (e : element) (c : string) : Prop := e_class e = "InvControl" /\ (prop e "vvc_curve1" = Some c \/ prop e "voltwatt_curve" = Some c).
Definition points (e : element) (xs ys : list string) : Prop :=
  prop e "npts" = Some (str_of (length xs)) /\ exists x y, prop e "xarray" = Some x /\ items x = xs /\ prop e "yarray" = Some y /\ items y = ys.
Definition volt_var (e : element) : Prop := points e ["0.5"; "0.92"; "0.98"; "1.02"; "1.08"; "1.5"] ["1.0"; "1.0"; "0.0"; "0.0"; "-1.0"; "-1.0"].
Definition volt_watt (e : element) : Prop := points e ["0.5"; "1.06"; "1.1"; "1.5"] ["1.0"; "1.0"; "0.0"; "0.0"].

(** The PV system of this name has the control. *)
Definition has_mode (ps : list pv) (c n : string) : Prop := exists p, In p ps /\ pv_name p = Some n /\ pv_control p = Some c.
Definition last_mode (ps : list pv) (c n : string) : Prop := exists a p, ps = a ++ [p] /\ pv_name p = Some n /\ pv_control p = Some c.

(** The controls [cs] of the PV systems of a group: volt-var control for those that have it and volt-var with volt-watt
    for the last one if it has it, each control for one PV system, no name twice, and every curve defined. *)
Record controls_are (ps : list pv) (cs : list element) : Prop := {
  ca_class : forall e, In e cs -> In (e_class e) ["XYCurve"; "InvControl"];
  ca_single : forall e, In e cs -> e_class e = "InvControl" -> exists n, steers e n;
  ca_voltvar : forall n, (exists e, In e cs /\ steers e n /\ prop e "mode" = Some "VOLTVAR") <-> has_mode ps "voltvar" n;
  ca_both : forall n, (exists e, In e cs /\ steers e n /\ prop e "combimode" = Some "VV_VW") <-> last_mode ps "voltwatt_voltvar" n;
  ca_mode : forall e n, In e cs -> steers e n -> (prop e "mode" = Some "VOLTVAR" /\ prop e "combimode" = None) \/ (prop e "mode" = None /\ prop e "combimode" = Some "VV_VW");
  ca_vv_curve : forall e, In e cs -> e_class e = "InvControl" ->
    exists c d, prop e "vvc_curve1" = Some c /\ In d cs /\ e_class d = "XYCurve" /\ e_name d = c /\ volt_var d;
  ca_vw_curve : forall e, In e cs -> prop e "combimode" <> None ->
    exists c d, prop e "voltwatt_curve" = Some c /\ In d cs /\ e_class d = "XYCurve" /\ e_name d = c /\ volt_watt d;
  ca_once : NoDup (map (fun e => (e_class e, e_name e)) cs) }.
