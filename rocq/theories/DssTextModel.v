(** The texts of the loads, the lines and the capacitors of the OpenDSS writer.
    Models ditto/writers/opendss/write.py 1872-2058 (write_loads), 2901-3014 (write_lines), 2572-2721
    (write_capacitors), 247-300 (phase_mapping, mode_mapping).

    Simplifications:
    - Floats are rationals, products with a power of ten are exact, and [show] is what [format] writes for a float.
    - phase_loads, wires, phase_capacitors and timeseries are lists (the default of these attributes); the
      model number of a phase load is an int (its default is 1).
    - The base voltages (1913-1931, 2606-2625) are left out.
    - The coefficients of a ZIP load are looked up in the load, which has no such attributes (1981-2007): nothing is
      written for them.  The [try] of 2648-2656 never fails: [var] is a float.
    - The name class of a line is what write_linegeometry or write_linecodes left in it; the model is told which of the
      two tables the line is in ([ln_geo]). *)
From Verif Require Import Base CsvModel DssNameModel.
From Coq Require Import QArith DecimalString.
Local Open Scope string_scope.
Local Open Scope nat_scope.
Local Open Scope list_scope.

(** [str] of an int *)
Definition show_int (z : Z) : string := NilEmpty.string_of_int (Z.to_int z).
(** [format] of the result of phase_mapping *)
Definition show_phase (p : string) : string := match w_phase p with Some z => show_int z | None => "None" end.

Definition texts (l : list string) : string := fold_right append "" l.

(** Line 284-300 *)
Definition mode_mapping (m : string) : option string :=
  let m := lower m in
  if String.eqb m "currentflow" then Some "current"
  else if String.eqb m "voltage" then Some "voltage"
  else if String.eqb m "activepower" then Some "PF"
  else if String.eqb m "reactivepower" then Some "kvar"
  else if String.eqb m "admittance" then None
  else if String.eqb m "timescheduled" then Some "time"
  else None.
Definition show_opt (o : option string) : string := match o with Some s => s | None => "None" end.

Section Texts.
Variable show : Q -> string.

Definition opt_text {A} (f : A -> string) (o : option A) : string := match o with Some x => f x | None => "" end.

(** *** Loads *)
Record phase_load := mkPL { pl_phase : option string; pl_p : option Q; pl_q : option Q; pl_model : Z; pl_zip : bool }.
Record series := mkTs { ts_fee : option string; ts_sub : option string; ts_label : option string; ts_loc : option string }.
Record load := mkLoad {
  ld_name : option string; ld_conn : option string; ld_bus : option string; ld_kv : option Q; ld_vmin : option Q; ld_vmax : option Q;
  ld_phases : list phase_load; ld_ts : list series }.

Variable datasets : dict (dict string).      (* self.timeseries_datasets *)
Variable ts_format : dict string.            (* self.timeseries_format *)
Variable remove_loadshapes : bool.

Definition known_sum (l : list (option Q)) : Q := fold_left (fun t x => match x with Some q => t + q | None => t end)%Q l 0%Q.
Definition milli (q : Q) : Q := (q * (1 # 1000))%Q.
Definition below300 (v : option Q) : bool := match v with Some q => negb (Qle_bool 300 q) | None => false end.

(** Lines 1894-1913 *)
Definition load_bus (l : load) : string :=
  opt_text (fun b =>
    " bus1=" ++ re_sub b ++
    texts (map (fun p => opt_text (fun x => "." ++ show_phase x) (pl_phase p)) (ld_phases l)) ++
    match ld_conn l, ld_phases l with
    | Some "D", [p] =>
      match pl_phase p with
      | Some x => match w_phase x with Some 1%Z => ".2" | Some 2%Z => ".3" | Some 3%Z => ".1" | _ => "" end
      | None => ""
      end
    | _, _ => ""
    end)%string (ld_bus l).

(** Lines 2029-2055 *)
Definition series_text (t : series) : res string :=
  let f := match ts_fee t with Some x => x | None => "DEFAULT" end in
  let s := match ts_sub t with Some x => x | None => "DEFAULT" end in
  match ts_label t, ts_loc t with
  | Some _, Some loc =>
    do d <- of_opt EKey (dget datasets (s ++ "_" ++ f));
    do filename <- of_opt EKey (dget d loc);
    do fmt <- of_opt EKey (dget ts_format filename);
    Ok (" " ++ (if remove_loadshapes then "!" else "") ++ fmt ++ "=" ++ filename)%string
  | _, _ => Ok ""
  end.

(** Lines 1872-2057; [None] is a load without a name. *)
Definition load_text (l : load) : res (option string) :=
  match ld_name l with
  | None => Ok None
  | Some n =>
    do ts <- mapM series_text (ld_ts l);
    Ok (Some (
      "New Load." ++ n ++
      match ld_conn l with Some "Y" => " conn=wye" | Some "D" => " conn=delta" | _ => "" end ++
      load_bus l ++
      opt_text (fun v => " kV=" ++ show (milli v)) (ld_kv l) ++
      opt_text (fun v => " Vminpu=" ++ show v) (ld_vmin l) ++
      opt_text (fun v => " Vmaxpu=" ++ show v) (ld_vmax l) ++
      match ld_phases l with
      | [] => ""
      | p :: _ =>
        " model=" ++ show_int (pl_model p) ++
        " kW=" ++ show (milli (known_sum (map pl_p (ld_phases l)))) ++
        " kvar=" ++ show (milli (known_sum (map pl_q (ld_phases l))))
      end ++
      (if below300 (ld_kv l) then " Phases=1" else " Phases=" ++ str_of (List.length (ld_phases l))) ++
      texts ts ++
      String "010" (String "010" ""))%string)
  end.

(** *** Lines *)
Record lwire := mkLW { lw_phase : option string; lw_open : option bool; lw_rating : option Q }.
Record dline := mkDL {
  ln_name : option string; ln_length : option Q; ln_from : option string; ln_to : option string;
  ln_switch : bool; ln_breaker : bool; ln_fuse : bool; ln_wires : list lwire;
  ln_geo : bool; ln_class : option string; ln_pos : list (Q * Q) }.

Definition outer (p : option string) : bool := match p with Some x => negb (smem x ["N"; "N1"; "N2"]) | None => false end.
Definition node_text (l : dline) : string :=
  texts (map (fun w => if outer (lw_phase w) then opt_text (fun x => "." ++ show_phase x)%string (lw_phase w) else "") (ln_wires l)).
(** Lines 2958-2971: the list is only asked whether it is empty. *)
Definition closed_phase (w : lwire) : bool :=
  match lw_open w with None => true | Some b => negb b end && outer (lw_phase w).
Definition qmax (a b : Q) : Q := if Qle_bool b a then a else b.
Fixpoint qmaximum (l : list Q) : option Q :=
  match l with [] => None | x :: r => match qmaximum r with Some m => Some (qmax x m) | None => Some x end end.
Fixpoint somes {A} (l : list (option A)) : list A := match l with [] => [] | Some x :: r => x :: somes r | None :: r => somes r end.

(** Lines 2974-2992 *)
Definition fuse_text (n : string) (l : dline) : string :=
  if ln_fuse l then
    ("New Fuse.Fuse_" ++ n ++ " monitoredobj=Line." ++ n ++ " enabled=y" ++
     opt_text (fun q => if negb (Qle_bool q 0) then " ratedcurrent=" ++ show q else "") (qmaximum (somes (map lw_rating (ln_wires l)))))%string
  else "".

(** Lines 2901-3009; [re.sub] of no name class is a TypeError. *)
Definition line_text (l : dline) : res (option string) :=
  match ln_name l with
  | None => Ok None
  | Some n =>
    do cls <- (if ln_geo l then Ok (" geometry=" ++ show_opt (ln_class l))%string
               else do c <- of_opt EType (ln_class l); Ok (" Linecode=" ++ re_sub c)%string);
    let fuse := fuse_text n l in
    Ok (Some (
      "New Line." ++ n ++ " Units=km" ++
      opt_text (fun x => " Length=" ++ show (qmax (1 # 1000) (milli x))) (ln_length l) ++
      opt_text (fun b => " bus1=" ++ re_sub b ++ node_text l) (ln_from l) ++
      opt_text (fun b => " bus2=" ++ re_sub b ++ node_text l) (ln_to l) ++
      (if ln_switch l || ln_breaker l then " switch=y" else " switch=n") ++
      match ln_wires l with
      | [] => ""
      | _ => if existsb closed_phase (ln_wires l) then " enabled=y" else " enabled=n"
      end ++
      " phases=" ++ str_of (List.length (filter (fun w => match lw_phase w with Some x => smem x ["A"; "B"; "C"] | None => false end) (ln_wires l))) ++
      cls ++ String "010" (String "010" "") ++
      (if String.eqb fuse "" then "" else fuse ++ String "010" (String "010" "")))%string)
  end.

(** Lines 2906-2911 and 3012: the text of the intermediate points starts anew with every line. *)
Definition points_text (n : string) (l : dline) : string :=
  match ln_pos l with
  | [] => ""
  | ps => (n ++ texts (map (fun p => ";(" ++ show (fst p) ++ "," ++ show (snd p) ++ ")")%string ps) ++ String "010" (String "010" ""))%string
  end.
Definition intermediates (ls : list dline) : string :=
  fold_left (fun txt l => match ln_name l with Some n => points_text n l | None => txt end) ls "".

(** *** Capacitors *)
Record phase_cap := mkPC { pc_phase : option string; pc_var : option Q }.
Record capacitor := mkCap {
  cp_name : option string; cp_bus : option string; cp_phases : list phase_cap; cp_kv : option Q; cp_conn : option string;
  cp_element : option string; cp_delay : option Q; cp_mode : option string; cp_low : option Q; cp_high : option Q;
  cp_pt : option Q; cp_ct : option Q; cp_ptphase : option string }.

Definition some {A} (o : option A) : bool := match o with Some _ => true | None => false end.

(** Lines 2572-2609 *)
Definition cap_bus (c : capacitor) : string :=
  opt_text (fun b =>
    " bus1=" ++ re_sub b ++
    (if Nat.eqb (List.length (cp_phases c)) 3 then ""
     else texts (map (fun p => match pc_phase p with Some "A" => ".1" | Some "B" => ".2" | Some "C" => ".3" | _ => "" end) (cp_phases c))))%string
    (cp_bus c).
(** Lines 2662-2719 *)
Definition has_control (c : capacitor) : bool :=
  some (cp_delay c) || some (cp_mode c) || some (cp_low c) || some (cp_high c) || some (cp_pt c) || some (cp_ct c) || some (cp_ptphase c).
Definition cap_control (n : string) (c : capacitor) : string :=
  if has_control c then
    (String "010" (String "010" "New CapControl.") ++ n ++ " Capacitor=" ++ n ++
     opt_text (fun e => " Element=Line." ++ e ++ " Terminal=1") (cp_element c) ++
     opt_text (fun d => " delay=" ++ show d) (cp_delay c) ++
     opt_text (fun m => " Type=" ++ show_opt (mode_mapping m)) (cp_mode c) ++
     opt_text (fun v => " Vmin=" ++ show v) (cp_low c) ++
     opt_text (fun v => " Vmax=" ++ show v) (cp_high c) ++
     opt_text (fun v => " Ptratio=" ++ show v) (cp_pt c) ++
     opt_text (fun v => " Ctratio=" ++ show v) (cp_ct c) ++
     opt_text (fun p => " PTPhase=" ++ show_phase p) (cp_ptphase c))%string
  else "".
(** Lines 2572-2721 *)
Definition cap_text (c : capacitor) : option string :=
  match cp_name c with
  | None => None
  | Some n =>
    Some (
      "New Capacitor." ++ n ++ cap_bus c ++
      (if Nat.eqb (List.length (cp_phases c)) 2 || Nat.eqb (List.length (cp_phases c)) 1 then " phases=1" else " phases=3") ++
      opt_text (fun v => " Kv=" ++ show (milli v)) (cp_kv c) ++
      match cp_conn c with Some "Y" => " conn=Wye" | Some "D" => " conn=delta" | _ => "" end ++
      " Kvar=" ++ show (milli (known_sum (map pc_var (cp_phases c)))) ++
      cap_control n c ++ String "010" (String "010" ""))%string
  end.
End Texts.
