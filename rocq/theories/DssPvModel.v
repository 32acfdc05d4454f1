(** The PV systems of the OpenDSS writer and the controls of their inverters.
    Models ditto/writers/opendss/write.py 1236-1551 (write_PVs).

    Simplifications:
    - Floats are rationals, products with a power of ten are exact, and [show] is what [format] writes for a float.
    - phases and timeseries are lists (the default of these attributes); a phase is the default value of the Unicode
      instance in the list.
    - The base voltages (1304-1320, 1337-1360) are left out.
    - [parent] is the nominal voltage of the object with a name: [None] when there is no such object.
    - [isfile] tells which data files exist below the output folder.
    - The order in which Python goes through a set of names is a parameter. *)
From Verif Require Import Base CsvModel DssNameModel DssTextModel.
From Coq Require Import QArith Qabs.
Local Open Scope string_scope.
Local Open Scope nat_scope.
Local Open Scope list_scope.

Record pv := mkPv {
  pv_name : option string; pv_bus : option string; pv_phases : list string; pv_kv : option Q;
  pv_active : option Q; pv_factor : option Q; pv_rated : option Q; pv_reactive : option Q; pv_conn : option string;
  pv_cutout : option Q; pv_cutin : option Q; pv_r : option Q; pv_x : option Q; pv_vmax : option Q; pv_vmin : option Q;
  pv_control : option string; pv_ts : list (option string) }.

Section Pv.
Variable show : Q -> string.
Variable parent : string -> option (option Q).
Variable isfile : string -> bool.
Variable datasets : dict (dict string).      (* self.timeseries_datasets *)
Variable ts_format : dict string.            (* self.timeseries_format *)
Variable remove_loadshapes : bool.

(** Lines 1295-1336: the voltage of the PV system, or that of the object it is connected to; [model[None]] is a KeyError. *)
Definition pv_voltage (p : pv) : res (option Q) :=
  match pv_kv p with Some v => Ok (Some v) | None => do b <- of_opt EKey (pv_bus p); of_opt EKey (parent b) end.
Definition pv_voltage_text (v : option Q) : string :=
  opt_text (fun v => (if negb (Qle_bool 300 v) then " phases=1" else " phases=3") ++ " kV=" ++ show (milli v))%string v.
(** Lines 1284-1293 *)
Definition pv_bus_text (p : pv) : string :=
  opt_text (fun b => " bus1=" ++ re_sub b ++ texts (map (fun x => "." ++ show_phase x) (pv_phases p)))%string (pv_bus p).
(** Lines 1362-1386 *)
Definition pv_rating (p : pv) : res string :=
  match pv_active p with
  | Some a =>
    let pf := match pv_factor p with Some f => Qabs f | None => 1%Q end in
    if Qeq_bool pf 0 then Err EZeroDiv
    else Ok (" kVA=" ++ show (milli (a / pf)) ++
             match pv_rated p with None => " Pmpp=" ++ show (milli (a * pf * (11 # 10))) | Some _ => "" end)%string
  | None => Ok ""
  end.
(** Lines 1397-1407 *)
Definition pv_conn_text (p : pv) : res string :=
  match pv_conn p with
  | None => Ok ""
  | Some c => if String.eqb c "D" then Ok " conn=delta" else if String.eqb c "Y" then Ok " conn=wye" else Err ENotImpl
  end.
(** Lines 1433-1466 *)
Definition pv_control_text (p : pv) : string :=
  let pf := opt_text (fun f => " Model=1 pf=" ++ show f)%string (pv_factor p) in
  match pv_control p with
  | None => pf
  | Some c =>
    if String.eqb c "powerfactor" then pf
    else if String.eqb c "voltwatt" then " Model=1 kvar=0"
    else if String.eqb c "voltvar" then " Model=1 kvar=0"
    else if String.eqb c "voltwatt_voltvar" then " Model=1"
    else ""
  end.
(** Lines 1468-1494 *)
Definition pv_series (key : string) (loc : option string) : res string :=
  match loc with
  | Some l =>
    if isfile l then
      do d <- of_opt EKey (dget datasets key);
      do filename <- of_opt EKey (dget d l);
      do fmt <- of_opt EKey (dget ts_format filename);
      Ok (" " ++ (if remove_loadshapes then "!" else "") ++ fmt ++ "=" ++ filename)%string
    else Ok ""
  | None => Ok ""
  end.

(** Lines 1280-1497; [key] is the name of the group: substation_name + "_" + feeder_name. *)
Definition pv_text (key : string) (p : pv) : res string :=
  do v <- pv_voltage p;
  do rating <- pv_rating p;
  do conn <- pv_conn_text p;
  do ts <- mapM (pv_series key) (pv_ts p);
  Ok (opt_text (fun n => "New PVSystem." ++ n) (pv_name p) ++
      pv_bus_text p ++ pv_voltage_text v ++ rating ++
      opt_text (fun q => " Pmpp=" ++ show (milli q)) (pv_rated p) ++
      opt_text (fun q => " kvarmax=" ++ show (milli q)) (pv_reactive p) ++
      conn ++
      opt_text (fun q => " %Cutout=" ++ show q) (pv_cutout p) ++
      opt_text (fun q => " %Cutin=" ++ show q) (pv_cutin p) ++
      opt_text (fun q => " %R=" ++ show q) (pv_r p) ++
      opt_text (fun q => " %X=" ++ show q) (pv_x p) ++
      opt_text (fun q => " Vmaxpu=" ++ show q) (pv_vmax p) ++
      opt_text (fun q => " Vminpu=" ++ show q) (pv_vmin p) ++
      pv_control_text p ++
      match pv_ts p with [] => "" | _ => " irradiance=1" end ++ texts ts ++
      String "010" "")%string.

(** *** The controls of a group *)
Variable order : list string -> list string.

Definition controlled_by (c : string) (p : pv) : bool := match pv_control p with Some x => String.eqb x c | None => false end.
Definition add_name (p : pv) (l : list string) : list string := let n := show_opt (pv_name p) in if smem n l then l else l ++ [n].
(** Lines 1265-1280, 1440-1466 and 1498-1506: two of the sets grow with the group, the third one starts anew with every
    PV system. *)
Definition collect_names (c : string) (ps : list pv) : list string :=
  fold_left (fun l p => if controlled_by c p then add_name p l else l) ps [].
Definition last_names (c : string) (ps : list pv) : list string :=
  fold_left (fun _ p => if controlled_by c p then add_name p [] else []) ps [].

Definition nl2 : string := String "010" (String "010" "").
Definition vv_curve (loc : string) : string :=
  ("New XYCurve.VoltVarCurve_" ++ loc ++ " npts=6 Yarray=(1.0,1.0,0.0,0.0,-1.0,-1.0) Xarray=(0.5,0.92,0.98,1.02,1.08,1.5)" ++ nl2)%string.
Definition vw_curve (loc : string) : string :=
  ("New XYCurve.VoltWattCurve_" ++ loc ++ " npts=4  Yarray=(1.0,1.0,0.0,0.0) XArray=(0.5,1.06,1.1,1.5)" ++ nl2)%string.
Definition vv_control (loc node : string) : string :=
  ("New InvControl.InvPVCtrVV_" ++ node ++ " mode=VOLTVAR voltage_curvex_ref=rated vvc_curve1=VoltVarCurve_" ++ loc ++
   " VV_RefReactivePower=VARMAX_VARS DeltaQ_factor=0.25 PVSystemlist=[" ++ node ++ "]" ++ nl2)%string.
Definition vw_control (loc node : string) : string :=
  ("New InvControl.InvPVCtrVW_" ++ node ++ " mode=VOLTWATT voltage_curvex_ref=rated VoltwattYAxis=PAVAILABLEPU voltwatt_curve=VoltWattCurve_" ++ loc ++
   " eventlog=yes DeltaQ_factor=0.25 DeltaP_factor=0.25 PVSystemlist=[" ++ node ++ "]" ++ nl2)%string.
Definition both_control (loc node : string) : string :=
  ("New InvControl.InvPVCtrVW_" ++ node ++ " Combimode=VV_VW voltage_curvex_ref=rated vvc_curve1=VoltVarCurve_" ++ loc ++
   " VV_RefReactivePower=VARMAX_VARS VoltwattYAxis=PAVAILABLEPU voltwatt_curve=VoltWattCurve_" ++ loc ++
   " eventlog=yes DeltaQ_factor = 0.25 DeltaP_factor=0.25 PVSystemlist=[" ++ node ++ "]" ++ nl2)%string.
Definition none {A} (l : list A) : bool := match l with [] => true | _ => false end.
(** Lines 1519-1551: the text starts with "New" and ends with a newline, so that strip(",") does nothing. *)
Definition inv_text (loc : string) (vv vw both : list string) : string :=
  ((if negb (none vv) && none vw then vv_curve loc ++ texts (map (vv_control loc) (order vv)) else "") ++
   (if negb (none vw) then vw_curve loc ++ texts (map (vw_control loc) (order vw)) ++ "]" else "") ++
   (if negb (none both) then
      (if none vv then vv_curve loc else "") ++ (if none vw then vw_curve loc else "") ++ texts (map (both_control loc) (order both))
    else ""))%string.

(** Lines 1508-1554: what is written for the PV systems of a group; [loc] is made of the names of its folders. *)
Definition pv_group (key loc : string) (ps : list pv) : res string :=
  do ts <- mapM (pv_text key) ps;
  Ok (texts ts ++ String "010" "" ++
      inv_text loc (collect_names "voltvar" ps) (collect_names "voltwatt" ps) (last_names "voltwatt_voltvar" ps))%string.
End Pv.
