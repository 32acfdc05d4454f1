(** From the objects of a GLM file to DiTTo objects.
    Models ditto/readers/gridlabd/read.py 620-1492 (nodes, meters, triplex nodes, transformers, loads, fuses, switches)
    and 2088-2420 (capacitors, regulators).

    Simplifications:
    - Floats are rational numbers in lowest terms; complex numbers are pairs of them. [num], [cnum] and [int] stand for
      Python's float(), complex() and int() of a string; they may raise ValueError.
    - The List traits phase_windings, phase_loads and reactances are empty lists until they are set.
    - An attribute that is not set (None, or its default) is [None].
    - A phase Unicode(i) is the letter i.
    - Lines 2088-2420 and 620-1492 are separate [if]s over the same loop; each is a function of the object here. *)
From Verif Require Import Base CsvModel TextModel GlmModel.
From Coq Require Import QArith Qcanon.
Local Open Scope string_scope.
Local Open Scope list_scope.

Definition C := (Qc * Qc)%type.
Definition cconj (z : C) : C := (fst z, Qcopp (snd z)).
Definition cmul (a b : C) : C := (Qcminus (Qcmult (fst a) (fst b)) (Qcmult (snd a) (snd b)), Qcplus (Qcmult (fst a) (snd b)) (Qcmult (snd a) (fst b))).
(** a real number divided by a complex number *)
Definition rdivc (x : Qc) (z : C) : C :=
  let m := Qcplus (Qcmult (fst z) (fst z)) (Qcmult (snd z) (snd z)) in
  (Qcdiv (Qcmult x (fst z)) m, Qcdiv (Qcopp (Qcmult x (snd z))) m).
Definition qz (x : Qc) : bool := if Qc_eq_dec x (Q2Qc 0) then true else false.
Definition z1 : Qc := Q2Qc 1.
Definition k1000 : Qc := Q2Qc 1000.
Definition half (x : Qc) : Qc := Qcdiv x (Q2Qc 2).

(** the letters of a string *)
Fixpoint letters (s : string) : list string := match s with "" => [] | String c t => String c "" :: letters t end.
(** [s.upper()] *)
Definition up (c : ascii) : ascii := let n := nat_of_ascii c in if ((97 <=? n) && (n <=? 122))%nat then ascii_of_nat (n - 32) else c.
Fixpoint upper (s : string) : string := match s with "" => "" | String c t => String (up c) (upper t) end.

(** [try: … except AttributeError: pass] *)
Definition attempt {A} (r : res A) : res (option A) :=
  match r with Ok a => Ok (Some a) | Err EAttr => Ok None | Err e => Err e end.
Definition attr (o : obj) (k : string) : option string := dget (o_props o) k.

Section Conv.
Variable num : string -> res Qc.
Variable cnum : string -> res C.
Variable int : string -> res Z.
Variable scheds : dict string.

Definition fl (o : obj) (k : string) : res Qc := do s <- getitem o k; num s.
Definition cx (o : obj) (k : string) : res C := do s <- getitem o k; cnum s.
(** [try: x.a = float(obj[k]) except AttributeError: pass] *)
Definition numattr (o : obj) (k : string) : res (option Qc) := attempt (fl o k).

(** ** Nodes *)
Record node := mkNode { n_source : bool; n_name : option string; n_v : option Qc; n_phases : option (list string) }.
(** 623-654 *)
Definition conv_node (o : obj) : res node :=
  let source := match attr o "bustype" with Some b => String.eqb b "SWING" | None => false end in
  do v <- numattr o "nominal_voltage";
  Ok (mkNode source (attr o "name") v (match attr o "phases" with Some p => Some (letters (drop_last p)) | None => None end)).
(** 656-679: obj["phases"][1:-1], counted *)
Definition cut1 (s : string) : string := match s with "" => "" | String _ t => drop_last t end.
Definition conv_triplex (o : obj) : res node :=
  do v <- numattr o "nominal_voltage";
  Ok (mkNode false (attr o "name") v
       (match attr o "phases" with Some p => Some (map str_of (seq 1 (String.length (cut1 p)))) | None => None end)).

(** ** Loads *)
Record phload := mkPh {
  pl_phase : string; pl_p : Qc; pl_q : Qc; pl_model : option Z; pl_zip : option Z;
  pl_pc : option Qc; pl_qc : option Qc; pl_pp : option Qc; pl_qp : option Qc; pl_pz : option Qc; pl_qz : option Qc }.
Definition simple (ph : string) (s : C) (m : Z) : phload := mkPh ph (fst s) (snd s) (Some m) (Some 0%Z) None None None None None None.

(** 965-983: constant power *)
Definition const_power (o : obj) (ph : string) : res (option phload) :=
  do r <- attempt (cx o ("constant_power_" ++ ph));
  match r with Some s => if qz (fst s) then Ok None else Ok (Some (simple ph s 1)) | None => Ok None end.
(** 985-1023: constant impedance *)
Definition const_impedance (o : obj) (ph : string) : res (option phload) :=
  do r <- attempt (do z <- cx o ("constant_impedance_" ++ ph); do v <- cx o ("voltage_" ++ ph); Ok (z, v));
  match r with
  | Some (z, v) => if qz (fst z) then Ok None
                   else Ok (Some (simple ph (rdivc (Qcplus (Qcmult (fst v) (fst v)) (Qcmult (snd v) (snd v))) (cconj z)) 2))
  | None => Ok None
  end.
(** 1025-1048: constant current *)
Definition const_current (o : obj) (ph : string) : res (option phload) :=
  do r <- attempt (do i <- cx o ("constant_current_" ++ ph); do v <- cx o ("voltage_" ++ ph); Ok (i, v));
  match r with
  | Some (i, v) => if qz (fst i) then Ok None else Ok (Some (simple ph (cmul v (cconj i)) 5))
  | None => Ok None
  end.
(** 1050-1069: the base power, a number or a schedule times a number *)
Definition base_power (o : obj) (ph : string) : res Qc :=
  match attr o ("base_power_" ++ ph) with
  | None => Ok (Q2Qc 0)
  | Some s =>
    match num s with
    | Ok x => Ok x
    | Err EValue =>
      let data := split_on "*" s in
      let scheduled (a b : nat) (p : Qc) : res Qc :=
        do x <- of_opt EIndex (nth_error data a);
        match dget scheds x with
        | Some v => do f <- num v; do y <- of_opt EIndex (nth_error data b); do g <- num y; Ok (Qcmult f g)
        | None => Ok p
        end in
      do p <- scheduled 0%nat 1%nat (Q2Qc 0);
      scheduled 1%nat 0%nat p
    | Err EAttr => Ok (Q2Qc 0)
    | Err e => Err e
    end
  end.
(** 1071-1097: the fractions *)
Definition zip (o : obj) (ph : string) (p : Qc) : res phload :=
  do r <- attempt (do cf <- fl o ("current_fraction_" ++ ph); do cp <- fl o ("current_pf_" ++ ph);
                   do pf <- fl o ("power_fraction_" ++ ph); do pp <- fl o ("power_pf_" ++ ph);
                   do zf <- fl o ("impedance_fraction_" ++ ph); do zp <- fl o ("impedance_pf_" ++ ph); Ok (cf, cp, pf, pp, zf, zp));
  match r with
  | Some (cf, cp, pf, pp, zf, zp) =>
    Ok (mkPh ph p (Q2Qc 0) None (Some 1%Z)
         (Some (Qcmult cf cp)) (Some (Qcmult cf (Qcminus z1 cp))) (Some (Qcmult pf pp)) (Some (Qcmult pf (Qcminus z1 pp)))
         (Some (Qcmult zf zp)) (Some (Qcmult zf (Qcminus z1 zp))))
  | None => Ok (mkPh ph p (Q2Qc 0) None None None None None None None None)
  end.
(** 957-1099, the same for the three phases *)
Definition phase_load (o : obj) (ph : string) : res phload :=
  do a <- const_power o ph;
  match a with Some l => Ok l | None =>
    do b <- const_impedance o ph;
    match b with Some l => Ok l | None =>
      do c <- const_current o ph;
      match c with Some l => Ok l | None => do p <- base_power o ph; zip o ph p end
    end
  end.

Record load := mkLoad { ld_name : option string; ld_conn : option string; ld_v : option Qc; ld_phases : list phload }.
(** 940-949 *)
Definition abc (s : string) : list string := filter (fun c => smem c ["A"; "B"; "C"]) (letters (strip_c """" s)).
(** 918-1350 *)
Definition conv_load (o : obj) : res (load * option node) :=
  do v <- numattr o "nominal_voltage";
  let phs := match attr o "phases" with Some p => abc p | None => [] end in
  do pls <- mapM (phase_load o) phs;
  match attr o "parent" with
  | Some par => Ok (mkLoad (attr o "name") (Some par) v pls, None)
  | None =>
    Ok (mkLoad (match attr o "name" with Some n => Some ("load_" ++ n)%string | None => None end) (attr o "name") v pls,
        Some (mkNode false (attr o "name") v (match attr o "phases" with Some p => Some (abc p) | None => None end)))
  end.

(** ** Transformers *)
Record winding := mkW { w_vt : Z; w_conn : option string; w_v : option Qc; w_r : option Qc; w_p : option Qc; w_phases : list string }.
Record trafo := mkT {
  t_name : option string; t_from : option string; t_to : option string; t_install : option string; t_loss : option Qc;
  t_react : list Qc; t_windings : list winding }.
Definition or_else {A} (a b : option A) : option A := match a with Some _ => a | None => b end.

(** 705-722 *)
Definition winding_phases (o : obj) : list string :=
  match attr o "phases" with
  | Some p => filter (fun c => negb (smem c ["N"; "S"])) (letters (strip_c """" p))
  | None => []
  end.
(** 733-757: the connections of the first two windings *)
Definition connection (conn : string) : option string * option string :=
  if String.eqb conn "WYE_WYE" then (Some "Y", Some "Y")
  else if String.eqb conn "DELTA_DELTA" then (Some "D", Some "D")
  else if String.eqb conn "DELTA_GWYE" then (Some "D", Some "Y")
  else (None, None).
(** 759-772: a center tap changes the phase of the second winding and adds one to the third *)
Definition center (conn : string) (phs : list string) : res (bool * list string * list string) :=
  if String.eqb conn "SINGLE_PHASE_CENTER_TAPPED" then
    match phs with [] => Err EIndex | _ :: r => Ok (true, "A" :: r, ["B"]) end
  else Ok (false, phs, []).
Definition k08 : Qc := Q2Qc (8 # 10).
Definition k04 : Qc := Q2Qc (4 # 10).
(** 811-840: the reactances from the reactance *)
Definition reactances (cfg : obj) (x : Qc) (three : bool) : res (list Qc) :=
  if three then
    do a <- attempt (cx cfg "impedance1");
    match a with
    | None => Ok [Qcmult k08 x; Qcmult k04 x; Qcmult k04 x]
    | Some i1 =>
      do b <- attempt (cx cfg "impedance2");
      match b with
      | None => Ok [Qcmult k08 x; snd i1; Qcmult k04 x; Qcmult k04 x]
      | Some i2 => Ok [x; snd i1; snd i2]
      end
    end
  else Ok [x].
(** 879-916: the last rating that is given wins *)
Definition rating (cfg : obj) : res (option Qc) :=
  do r0 <- numattr cfg "power_rating"; do ra <- numattr cfg "powerA_rating"; do rb <- numattr cfg "powerB_rating"; do rc <- numattr cfg "powerC_rating";
  Ok (match or_else rc (or_else rb (or_else ra r0)) with Some r => Some (Qcmult r k1000) | None => None end).

(** 681-916 *)
Definition conv_trafo (objs : dict obj) (o : obj) : res trafo :=
  let phs := winding_phases o in
  let finish inst loss react ws := Ok (mkT (attr o "name") (attr o "from") (attr o "to") inst loss react ws) in
  match (match attr o "configuration" with Some c => dget objs c | None => None end) with
  | None => finish None None [] [mkW 0 None None None None phs; mkW 2 None None None None phs]
  | Some cfg =>
    let conn := match attr cfg "connect_type" with Some c => c | None => "" end in
    do ct <- center conn phs;
    let '(three, phs2, phs3) := ct in
    do loss <- numattr cfg "no_load_loss";
    do hv <- numattr cfg "primary_voltage";
    do lv <- numattr cfg "secondary_voltage";
    do r <- numattr cfg "resistance";
    do x <- numattr cfg "reactance";
    do rx <- match x with
             | Some x => do l <- reactances cfg x three; Ok (r, l)
             | None =>
               do z <- attempt (cx cfg "impedance");
               match z with
               | Some z => Ok (Some (fst z), if three then [Qcmult k08 (snd z); Qcmult k04 (snd z); Qcmult k04 (snd z)] else [snd z])
               | None => Ok (r, [])
               end
             end;
    do p <- rating cfg;
    let rr := fst rx in
    let first := mkW 0 (fst (connection conn)) hv (option_map half rr) p phs in
    if three then finish (attr cfg "install_type") loss (snd rx)
      [first; mkW 2 (snd (connection conn)) lv rr (option_map half p) phs2; mkW 2 None lv rr (option_map half p) phs3]
    else finish (attr cfg "install_type") loss (snd rx) [first; mkW 2 (snd (connection conn)) lv (option_map half rr) p phs2]
  end.

(** ** Fuses and switches *)
Record wire := mkWire { wi_phase : string; wi_open : option bool }.
Record line := mkLine { li_fuse : bool; li_switch : bool; li_length : option Z; li_name : option string; li_from : option string; li_to : option string; li_wires : list wire }.
(** 1370-1404, 1442-1476: the wires of the phases with a state of their own *)
Definition own_wires (o : obj) (suffix bad : string) : list wire :=
  flat_map (fun ph => match attr o ("phase_" ++ ph ++ suffix) with
                      | Some s => [mkWire ph (Some (String.eqb s bad))]
                      | None => []
                      end) ["A"; "B"; "C"].
(** 1406-1419, 1478-1490: without, the wires of the phases; the wire is added before the status is asked for *)
Fixpoint listed_wires (status : option string) (phs : list string) : list wire :=
  match phs with
  | [] => []
  | p :: r => if String.eqb p "N" then listed_wires status r
              else match status with
                   | Some s => mkWire p (Some (String.eqb s "OPEN")) :: listed_wires status r
                   | None => [mkWire p None]
                   end
  end.
Definition wires (o : obj) (suffix bad : string) : list wire :=
  match own_wires o suffix bad with
  | [] => match attr o "phases" with Some p => listed_wires (attr o "status") (letters (strip_c """" p)) | None => [] end
  | l => l
  end.
Definition conv_fuse (o : obj) : line := mkLine true false None (attr o "name") (attr o "from") (attr o "to") (wires o "_status" "BLOWN").
Definition conv_switch (o : obj) : line := mkLine false true (Some 1%Z) (attr o "name") (attr o "from") (attr o "to") (wires o "_state" "OPEN").

(** ** Capacitors *)
Record phcap := mkPc { pc_phase : string; pc_var : Qc; pc_switch : option string }.
Record capacitor := mkCap {
  c_name : option string; c_v : option Qc; c_delay : option Qc; c_mode : option string; c_conn : option string;
  c_high : option Qc; c_low : option Qc; c_pt : option string; c_phases : list phcap }.
Definition k1e6 : Qc := Q2Qc 1000000.
(** 2105-2113 *)
Definition cap_mode (c : string) : option string :=
  let u := upper c in
  if String.eqb u "VOLT" then Some "voltage" else if String.eqb u "VAR" then Some "reactivePower" else if String.eqb u "MANUAL" then Some "none" else None.
(** 2120-2131: high is set before low is asked for *)
Definition limits (o : obj) (hi lo : string) (cur : option Qc * option Qc) : res (option Qc * option Qc) :=
  do h <- numattr o hi;
  match h with
  | None => Ok cur
  | Some h => do l <- numattr o lo; Ok (Some h, or_else l (snd cur))
  end.
(** 2138-2176 *)
Definition phase_cap (o : obj) (ph : string) : res (list phcap) :=
  do v <- numattr o ("capacitor_" ++ ph);
  Ok (match v with Some x => [mkPc ph (Qcmult x k1e6) (attr o ("switch_" ++ ph))] | None => [] end).
(** 2088-2178; the parent is only kept in a local variable (2115-2118) *)
Definition conv_capacitor (o : obj) : res capacitor :=
  do v <- numattr o "nominal_voltage";
  do d <- numattr o "time_delay";
  do l1 <- limits o "VAr_set_high" "VAr_set_low" (None, None);
  do l2 <- limits o "voltage_set_high" "voltage_set_low" l1;
  do a <- phase_cap o "A"; do b <- phase_cap o "B"; do c <- phase_cap o "C";
  Ok (mkCap (attr o "name") v d (match attr o "control" with Some c => cap_mode c | None => None end) None (fst l2) (snd l2) (attr o "pt_phase") (a ++ b ++ c)).

(** ** Regulators *)
Record pwinding := mkPw { pw_phase : string; pw_tap : option Z; pw_r : option Qc; pw_x : option Qc }.
Record regulator := mkReg {
  g_name : option string; g_from : option string; g_to : option string; g_v : option Qc; g_conn : option string; g_phases1 : list string;
  g_phases2 : list pwinding; g_delay : option Qc; g_bw : option Qc; g_bc : option Qc; g_hi : option Z; g_lo : option Z;
  g_pt : option Qc; g_ct : option Qc; g_ptph : option string }.
(** the phase windings of the first winding (only their phases) and of the second *)
Notation pws := (list string * list pwinding)%type.
(** change the first phase winding of a phase *)
Fixpoint change (ph : string) (f : pwinding -> pwinding) (l : list pwinding) : list pwinding :=
  match l with [] => [] | p :: r => if String.eqb (pw_phase p) ph then f p :: r else p :: change ph f r end.
Definition has_phase (ph : string) (l : list pwinding) : bool := existsb (fun p => String.eqb (pw_phase p) ph) l.
(** 2229-2261: a phase with a tap position is added if it is not listed *)
Definition set_tap (cfg : obj) (st : pws) (ph : string) : res pws :=
  match attr cfg ("tap_pos_" ++ ph) with
  | None => Ok st
  | Some s =>
    let st' := if has_phase ph (snd st) then st else (fst st ++ [ph], snd st ++ [mkPw ph None None None]) in
    do t <- int s;
    Ok (fst st', change ph (fun p => mkPw (pw_phase p) (Some t) (pw_r p) (pw_x p)) (snd st'))
  end.
(** 2263-2331: [windings2] is not a variable *)
Definition set_comp (key : string) (f : Qc -> pwinding -> pwinding) (cfg : obj) (st : pws) (ph : string) : res pws :=
  match attr cfg (key ++ ph) with
  | None => Ok st
  | Some s => if has_phase ph (snd st) then do x <- num s; Ok (fst st, change ph (f x) (snd st)) else Err EName
  end.
Definition set_r (x : Qc) (p : pwinding) : pwinding := mkPw (pw_phase p) (pw_tap p) (Some x) (pw_x p).
Definition set_x (x : Qc) (p : pwinding) : pwinding := mkPw (pw_phase p) (pw_tap p) (pw_r p) (Some x).
(** 2202-2215: [hasattr(obj, "nominal_voltage")] is false, the attribute is called "_nominal_voltage" *)
Definition reg_voltage (objs : dict obj) (o : obj) : res (option Qc) :=
  match attr o "from" with
  | None => Ok None
  | Some f => do n <- of_opt EKey (dget objs f); numattr n "nominal_voltage"
  end.
Definition intattr (o : obj) (k : string) : res (option Z) := attempt (do s <- getitem o k; int s).
(** 2180-2420 *)
Definition conv_regulator (objs : dict obj) (o : obj) : res regulator :=
  do v <- reg_voltage objs o;
  let phs := winding_phases o in
  let st0 : pws := (phs, map (fun p => mkPw p None None None) phs) in
  let fin st conn delay bw bc hi lo pt ct ptph :=
    Ok (mkReg (attr o "name") (attr o "from") (attr o "to") v conn (fst st) (snd st) delay bw bc hi lo pt ct ptph) in
  match (match attr o "configuration" with Some c => dget objs c | None => None end) with
  | None => fin st0 None None None None None None None None None
  | Some cfg =>
    do st1 <- foldM (set_tap cfg) ["A"; "B"; "C"] st0;
    do st2 <- foldM (set_comp "compensator_r_setting_" set_r cfg) ["A"; "B"; "C"] st1;
    do st3 <- foldM (set_comp "compensator_x_setting_" set_x cfg) ["A"; "B"; "C"] st2;
    let conn := match attr cfg "connect_type" with Some c => if String.eqb c "WYE_WYE" then Some "Y" else None | None => None end in
    do delay <- numattr cfg "time_delay"; do bw <- numattr cfg "band_width"; do bc <- numattr cfg "band_center";
    do hi <- intattr cfg "raise_taps"; do lo <- intattr cfg "lower_taps";
    do pt <- numattr cfg "power_transducer_ratio"; do ct <- numattr cfg "current_transducer_ratio";
    do ptph <- match attr cfg "PT_phase" with
               | None => Ok None
               | Some s => match letters (strip_c """" s) with [] => Err EIndex | c :: _ => Ok (Some c) end
               end;
    fin st3 conn delay bw bc hi lo pt ct ptph
  end.
End Conv.
