(** The GridLAB-D writer.
    Models ditto/writers/gridlabd/write.py.

    Simplifications:
    - The file is its list of rows; names and other texts contain no line break.
    - Numbers are rationals; [num] and [cplx] write a float and a complex number as Python's str does.
    - Attributes that the classes of ditto/models do not have are not read; attributes that they all have are not
      tested with hasattr. [phase.default_value] of a node's phase is its text.
    - A frozenset is walked in an unspecified order: [order].
    - An exception leaves a part of the file, which is not modelled. Logging is left out. *)
From Verif Require Import Base NetworkModel.
From Coq Require Import QArith DecimalString.
Local Open Scope string_scope.
Local Open Scope nat_scope.
Local Open Scope list_scope.

(** ** Objects *)
Record gnode := mkGnode { n_name : option string; n_phases : option (list string); n_volt : option Q }.
Record gpcap := mkGpcap { pc_phase : option string; pc_var : option Q; pc_switch : option Z }.
Record gcap := mkGcap { c_name : option string; c_volt : option Q; c_delay : option Q; c_mode : option string; c_low : option Q; c_high : option Q;
  c_ptphase : option string; c_conn : option string; c_pcs : option (list gpcap) }.
Record gpload := mkGpload { pl_phase : option string; pl_zip : option Z; pl_p : option Q; pl_q : option Q;
  pl_pc : option Q; pl_qc : option Q; pl_pp : option Q; pl_qp : option Q; pl_pi : option Q; pl_qi : option Q }.
Record gload := mkGload { ld_name : option string; ld_volt : option Q; ld_conn : option string; ld_pls : option (list gpload) }.
Record gpw := mkGpw { pw_phase : option string; pw_tap : option Q; pw_r : option Q; pw_x : option Q }.
Record gwinding := mkGwinding { w_conn : option string; w_volt : option Q; w_type : option Z; w_power : option Q; w_res : option Q; w_pws : option (list gpw) }.
Record gtrafo := mkGtrafo { t_name : option string; t_from : option string; t_to : option string; t_install : option string; t_noload : option Q;
  t_wds : option (list gwinding); t_react : option (list Q) }.
Record greg := mkGreg { r_name : option string; r_from : option string; r_to : option string; r_delay : option Q; r_high : option Q; r_low : option Q;
  r_pt : option Q; r_ct : option Q; r_width : option Q; r_center : option Q; r_ptphase : option string; r_trafo : option string; r_wds : option (list gwinding) }.
Record gwire := mkGwire { wi_phase : option string; wi_open : option bool }.
Record gline := mkGline { l_name : option string; l_from : option string; l_to : option string; l_type : option string; l_length : option Q;
  l_switch : option bool; l_fuse : option bool; l_wires : option (list gwire); l_z : option (list (list (Q * Q))) }.
Inductive gobj := GNode (n : gnode) | GCap (c : gcap) | GLoad (l : gload) | GTrafo (t : gtrafo) | GReg (r : greg) | GLine (l : gline) | GOther.

(** ** Texts *)
(** Values of configurations *)
Inductive gval := VS (s : string) | VN (q : Q) | VC (re im : Q).
Definition gval_eqb (a b : gval) : bool :=
  match a, b with
  | VS x, VS y => String.eqb x y
  | VN x, VN y => Qeq_bool x y
  | VC x y, VC x' y' => Qeq_bool x x' && Qeq_bool y y'
  | _, _ => false
  end.
(** Equality of frozensets of items *)
Definition pair_eqb (a b : string * gval) : bool := String.eqb (fst a) (fst b) && gval_eqb (snd a) (snd b).
Definition same_set (a b : dict gval) : bool := forallb (fun x => existsb (pair_eqb x) b) a && forallb (fun x => existsb (pair_eqb x) a) b.

Definition nat_str (k : nat) : string := NilEmpty.string_of_uint (Nat.to_uint k).
(** [s.strip("()")] *)
Definition is_paren (c : ascii) : bool := Ascii.eqb c "(" || Ascii.eqb c ")".
Fixpoint lstrip_p (s : string) : string := match s with "" => "" | String c t => if is_paren c then lstrip_p t else s end.
Fixpoint rstrip_p (s : string) : string :=
  match s with "" => "" | String c t => match rstrip_p t with "" => if is_paren c then "" else String c "" | r => String c r end end.
Definition strip_p (s : string) : string := rstrip_p (lstrip_p s).
(** ["+" not in s] and [re.findall("[^e]-", s)] *)
Fixpoint has_plus (s : string) : bool := match s with "" => false | String c t => Ascii.eqb c "+" || has_plus t end.
Fixpoint has_minus (s : string) : bool :=
  match s with
  | "" => false
  | String c t => (negb (Ascii.eqb c "e") && match t with String d _ => Ascii.eqb d "-" | "" => false end) || has_minus t
  end.

(** One property: a row of an object. *)
Definition prow (kv : string * string) : string := ("    " ++ fst kv ++ " " ++ snd kv ++ ";")%string.
Definition oprop {A} (o : option A) (k : string) (f : A -> string) : list (string * string) := match o with Some x => [(k, f x)] | None => [] end.
(** An object: its header, its properties and its end. *)
Definition obj_rows (head : string) (ps : list (string * string)) : list string := head :: map prow ps ++ ["};"; ""].
Definition nname (x : string) : string := "n" ++ x.

(** ** State: the class attributes, lines 30-37 *)
Definition configs := list (dict gval * string).
Definition onames := list (option string * string).
Record wstate := mkWstate { ws_lc : configs; ws_ln : onames; ws_tc : configs; ws_tn : onames; ws_rc : configs; ws_rn : onames;
  ws_rp : list (dict gval * dict string); ws_seen : list string }.
Definition wstate0 : wstate := mkWstate [] [] [] [] [] [] [] [].

Definition oeqb (a b : option string) : bool := match a, b with Some x, Some y => String.eqb x y | None, None => true | _, _ => false end.
Fixpoint cfind {A} (c : list (dict gval * A)) (d : dict gval) : option A :=
  match c with [] => None | (d', x) :: t => if same_set d' d then Some x else cfind t d end.
Fixpoint cput {A} (c : list (dict gval * A)) (d : dict gval) (x : A) : list (dict gval * A) :=
  match c with [] => [(d, x)] | (d', y) :: t => if same_set d' d then (d', x) :: t else (d', y) :: cput t d x end.
Fixpoint oget (l : onames) (k : option string) : option string := match l with [] => None | (k', x) :: t => if oeqb k' k then Some x else oget t k end.
Fixpoint oput (l : onames) (k : option string) (x : string) : onames :=
  match l with [] => [(k, x)] | (k', y) :: t => if oeqb k' k then (k', x) :: t else (k', y) :: oput t k x end.

Section Write.
Variable num : Q -> string.
Variable cplx : Q -> Q -> string.
Variable order : dict gval -> dict gval.

Definition show (v : gval) : string := match v with VS s => s | VN q => num q | VC a b => cplx a b end.
Definition shown (d : dict gval) : list (string * string) := map (fun kv => (fst kv, show (snd kv))) d.

(** ** Nodes: 144-183 *)
Definition node_props (n : gnode) : list (string * string) :=
  oprop (n_name n) "name" nname ++
  (match n_name n with Some x => if String.eqb x "sourcebus" then [("bustype", "SWING")] else [] | None => [] end) ++
  (match n_phases n with Some (p :: l) => [("phases", (String.concat "" (p :: l) ++ "N")%string)] | _ => [] end).
(** 174-177: one more blank before a known voltage *)
Definition node_voltage (n : gnode) : string :=
  match n_volt n with Some v => ("     nominal_voltage " ++ num v ++ ";")%string | None => "    nominal_voltage 12470;" end.
Definition node_rows (n : gnode) : list string := "object node {" :: map prow (node_props n) ++ [node_voltage n; "};"; ""].
Definition write_nodes (ms : list gobj) : list string := flat_map (fun o => match o with GNode n => node_rows n | _ => [] end) ms.

(** ** Capacitors: 185-245 *)
Definition pcap_props (j : gpcap) : list (string * string) :=
  match pc_phase j with
  | None => []
  | Some ph =>
    match pc_var j with
    | None => []
    | Some v => [(("capacitor_" ++ ph)%string, num (v / 1000000)%Q);
                 (("switch" ++ ph)%string, match pc_switch j with Some 1%Z => "OPEN" | _ => "CLOSED" end)]
    end
  end.
Definition phase_text {A} (f : A -> option string) (l : list A) : string := String.concat "" (flat_map (fun j => match f j with Some p => [p] | None => [] end) l).
Definition cap_props (c : gcap) : list (string * string) :=
  oprop (c_name c) "name" nname ++ oprop (c_volt c) "nominal_voltage" num ++ oprop (c_delay c) "time_dela" num ++ oprop (c_mode c) "control" (fun m => m) ++
  oprop (c_low c) "voltage_set_low" num ++
  (match c_low c with Some _ => [("voltage_set_high", match c_high c with Some h => num h | None => "None" end)] | None => [] end) ++
  oprop (c_ptphase c) "pt_phase" (fun p => p) ++ oprop (c_conn c) "parent" nname ++
  match c_pcs c with
  | Some l => flat_map pcap_props l ++ (if String.eqb (phase_text pc_phase l) "" then [] else [("phases", phase_text pc_phase l)])
  | None => []
  end.
Definition write_capacitors (ms : list gobj) : list string :=
  flat_map (fun o => match o with GCap c => obj_rows "object capacitor {" (cap_props c) | _ => [] end) ms.

(** ** Loads: 247-351 *)
Definition qdiv (a b : Q) : res Q := if Qeq_bool b 0 then Err EZeroDiv else Ok (a / b)%Q.
(** A fraction and its power factor *)
Definition zip_pair (kind ph : string) (a b : option Q) : res (list (string * string)) :=
  do a <- of_opt EType a;
  do b <- of_opt EType b;
  do r <- qdiv a (a + b);
  Ok [((kind ++ "_fraction_" ++ ph)%string, num (a + b)%Q); ((kind ++ "_pf_" ++ ph)%string, num r)].
Definition pload_props (j : gpload) : res (list (string * string)) :=
  match pl_phase j, pl_zip j with
  | Some ph, Some z =>
    if Z.eqb z 1 then
      do c <- zip_pair "current" ph (pl_pc j) (pl_qc j);
      do p <- zip_pair "power" ph (pl_pp j) (pl_qp j);
      do i <- zip_pair "impedance" ph (pl_pi j) (pl_qi j);
      do a <- of_opt EType (pl_p j);
      do b <- of_opt EType (pl_q j);
      Ok (c ++ p ++ i ++ [(("base_power_" ++ ph)%string, cplx a b)])
    else match pl_p j, pl_q j with
         | Some a, Some b => Ok [(("constant_power_" ++ ph)%string, strip_p (cplx a b))]
         | _, _ => Ok []
         end
  | _, _ => Ok []
  end.
Definition load_props (l : gload) : res (list (string * string)) :=
  do ps <- match ld_pls l with Some pls => mapM pload_props pls | None => Ok [] end;
  Ok (oprop (ld_name l) "name" nname ++ oprop (ld_volt l) "nominal_voltage" num ++ oprop (ld_conn l) "parent" nname ++ concat ps).
Definition write_loads (ms : list gobj) : res (list string) :=
  do rs <- mapM (fun o => match o with GLoad l => do ps <- load_props l; Ok (obj_rows "object load {" ps) | _ => Ok [] end) ms;
  Ok (concat rs).

(** ** Configurations of transformers: 353-481 *)
Definition oset {A} (d : dict gval) (k : string) (o : option A) (f : A -> gval) : dict gval := match o with Some x => dset d k (f x) | None => d end.
(** 388-405: the first and the second part of the connection; None: "ERR" *)
Definition conn1 (c : string) : option string := if String.eqb c "Y" then Some "WYE_" else if String.eqb c "D" then Some "DELTA_" else None.
Definition conn2 (c c1 : string) : option string :=
  if String.eqb c "Y" then (if String.eqb c1 "D" then Some "GWYE" else Some "WYE") else if String.eqb c "D" then Some "DELTA" else None.
Definition zeqb (a : option Z) (b : Z) : bool := match a with Some x => Z.eqb x b | None => false end.
(** 364-438 *)
Definition winding_dic (d : dict gval) (wds : list gwinding) : dict gval :=
  match wds with
  | w1 :: w2 :: _ =>
    let d := if Nat.eqb (length wds) 3 then dset d "connect_type" (VS "SINGLE_PHASE_CENTER_TAPPED")
             else match w_conn w1, w_conn w2 with
                  | Some a, Some b => match conn1 a, conn2 b a with Some x, Some y => dset d "connect_type" (VS (x ++ y)) | _, _ => d end
                  | _, _ => d
                  end in
    let d := oset d (if zeqb (w_type w1) 2 then "secondary_voltage" else "primary_voltage") (w_volt w1) VN in
    let d := oset d (if zeqb (w_type w2) 0 then "primary_voltage" else "secondary_voltage") (w_volt w2) VN in
    oset d "power_rating" (w_power w1) (fun p => VN (p / 1000)%Q)
  | _ => d
  end.
(** 440-454: [i.reactance] is no attribute *)
Definition react_dic (d : dict gval) (wds : list gwinding) (rs : list Q) : res (dict gval) :=
  match wds, rs with
  | [w1; w2], [x] =>
    let d := dset d "reactance" (VN x) in
    do a <- of_opt EType (w_res w1);
    do b <- of_opt EType (w_res w2);
    Ok (dset d "resistance" (VN (a + b)%Q))
  | [w1; _; _], [_; _; _] => do _ <- of_opt EType (w_res w1); Err EAttr
  | _, _ => Ok d
  end.
Definition trafo_dic (t : gtrafo) : res (dict gval) :=
  let d := oset (oset [] "install_type" (t_install t) VS) "no_load_loss" (t_noload t) VN in
  let wds := match t_wds t with Some l => l | None => [] end in
  let d := winding_dic d wds in
  match t_react t with Some rs => react_dic d wds rs | None => Ok d end.

(** A table of configurations, the names of the objects, the next number and the rows *)
Definition cstate := (configs * onames * nat * list string)%type.
(** 456-481, and 811-831 for lines *)
Definition configure (cls prefix : string) (st : cstate) (name : option string) (d : dict gval) : cstate :=
  let '(cs, ns, k, rows) := st in
  match cfind cs d with
  | Some c => (cs, oput ns name c, k, rows)
  | None =>
    let c := (prefix ++ nat_str k)%string in
    (cput cs d c, oput ns name c, S k, rows ++ obj_rows ("object " ++ cls ++ " {")%string (shown (dset d "name" (VS c))))
  end.
Definition write_transformer_configurations (ms : list gobj) (cs : configs) (ns : onames) : res cstate :=
  foldM (fun st o => match o with
    | GTrafo t => do d <- trafo_dic t; Ok (configure "transformer_configuration" "transformer_config_" st (t_name t) d)
    | _ => Ok st end) ms (cs, ns, 1, []).

(** ** Transformers: 483-532 *)
Definition wd_phases (wds : option (list gwinding)) : list string :=
  match wds with
  | Some l => flat_map (fun w => match w_pws w with Some p => flat_map (fun j => match pw_phase j with Some x => [x] | None => [] end) p | None => [] end) l
  | None => []
  end.
Definition is_reg (ms : list gobj) (name : option string) : bool := existsb (fun o => match o with GReg r => oeqb (r_name r) name | _ => false end) ms.
Definition conf_prop (ns : onames) (name : option string) : list (string * string) :=
  match name with Some _ => oprop (oget ns name) "configuration" (fun c => c) | None => [] end.
Definition trafo_props (ns : onames) (t : gtrafo) : list (string * string) :=
  let ph := String.concat "" (node_sort (dedup (wd_phases (t_wds t)))) in
  oprop (t_name t) "name" nname ++ oprop (t_from t) "from" nname ++ oprop (t_to t) "to" nname ++
  (if String.eqb ph "" then [] else [("phases", ph)]) ++ conf_prop ns (t_name t).
Definition write_transformers (ms : list gobj) (ns : onames) : list string :=
  flat_map (fun o => match o with GTrafo t => if is_reg ms (t_name t) then [] else obj_rows "object transformer{" (trafo_props ns t) | _ => [] end) ms.

(** ** Configurations of regulators: 534-671 *)
Definition reg_dic (r : greg) : dict gval :=
  let d := oset [] "time_delay" (r_delay r) VN in
  let d := oset d "raise_taps" (r_high r) VN in
  let d := match r_low r with Some x => dset d "lower_taps" (VN x) | None => oset d "lower_taps" (r_high r) VN end in
  let d := oset d "power_transducer_ratio" (r_pt r) VN in
  let d := oset d "current_transducer_ratio" (r_ct r) VN in
  let d := oset d "band_width" (r_width r) VN in
  let d := oset d "band_center" (r_center r) VN in
  let d := oset d "pt_phase" (r_ptphase r) VS in
  dset d "connect_type" (VS "WYE_WYE").
Definition otext (o : option Q) : string := match o with Some q => num q | None => "None" end.
(** 591-616: compensator_x sets the resistance again *)
Definition pw_settings (d : dict string) (j : gpw) : dict string :=
  match pw_phase j with
  | None => d
  | Some ph =>
    let d := dset d ("tap_pos_" ++ ph) (otext (pw_tap j)) in
    let d := match pw_r j with Some _ => dset d ("compensator_r_setting_" ++ ph) (otext (pw_r j)) | None => d end in
    match pw_x j with Some _ => dset d ("compensator_r_setting_" ++ ph) (otext (pw_r j)) | None => d end
  end.
Definition wd_settings (d : dict string) (wds : option (list gwinding)) : dict string :=
  match wds with
  | Some l => fold_left (fun d w => match w_pws w with Some p => fold_left pw_settings p d | None => d end) l d
  | None => d
  end.
(** 573-647 *)
Definition reg_settings (ms : list gobj) (r : greg) (d : dict string) : dict string :=
  match r_trafo r with
  | Some c => fold_left (fun d o => match o with GTrafo t => if oeqb (t_name t) (Some c) then wd_settings d (t_wds t) else d | _ => d end) ms d
  | None => wd_settings d (r_wds r)
  end.
Definition rstate := (configs * onames * list (dict gval * dict string) * nat)%type.
Definition reg_step (ms : list gobj) (st : rstate) (o : gobj) : rstate :=
  match o with
  | GReg r =>
    let '(cs, ns, ph, k) := st in
    let d := reg_dic r in
    let ph := match cfind cs d with None => cput ph d [] | Some _ => ph end in                          (* 571-572 *)
    let ph := cput ph d (reg_settings ms r (match cfind ph d with Some x => x | None => [] end)) in
    match cfind cs d with
    | Some c => (cs, oput ns (r_name r) c, ph, k)
    | None => let c := ("regulator_config_" ++ nat_str k)%string in (cput cs d c, oput ns (r_name r) c, ph, S k)
    end
  | _ => st
  end.
(** 658-671 *)
Definition reg_config_rows (ph : list (dict gval * dict string)) (cs : configs) : list string :=
  flat_map (fun dc : dict gval * string =>
    let '(d, c) := dc in
    obj_rows "object regulator_configuration {" (("name", c) :: shown (order d) ++ match cfind ph d with Some x => x | None => [] end)) cs.

(** ** Regulators: 673-750; the phases are collected and not written *)
Definition reg_props (ns : onames) (r : greg) : list (string * string) :=
  oprop (r_name r) "name" nname ++ oprop (r_from r) "from" nname ++ oprop (r_to r) "to" nname ++ conf_prop ns (r_name r).
Definition reg_write (ns : onames) (st : list string * list string) (o : gobj) : list string * list string :=
  match o with
  | GReg r =>
    let '(seen, rows) := st in
    match r_from r, r_to r with
    | Some f, Some t => let k := (f ++ "_" ++ t)%string in
        if smem k seen then st else (seen ++ [k], rows ++ obj_rows "object regulator{" (reg_props ns r))
    | _, _ => (seen, rows ++ obj_rows "object regulator{" (reg_props ns r))
    end
  | _ => st
  end.

(** ** Configurations of lines: 752-836 *)
Definition phase_no (p : string) : option nat :=
  if String.eqb p "A" then Some 1 else if String.eqb p "B" then Some 2 else if String.eqb p "C" then Some 3
  else if String.eqb p "1" then Some 1 else if String.eqb p "2" then Some 2 else None.
Definition line_phases (l : gline) : list string :=
  node_sort (match l_wires l with
   | Some ws => flat_map (fun w => match wi_phase w with Some p => if String.eqb p "N" then [] else [p] | None => [] end) ws
   | None => [] end).
(** 793-803 *)
Definition impedance_text (z : Q * Q) : string :=
  let s := strip_p (cplx (fst z) (snd z)) in
  if (negb (has_plus s) && negb (has_minus s))%bool then ("0+" ++ s)%string else s.
(** 780-809 *)
Definition z_entry (lc : list (list (Q * Q))) (phases : list string) (d : dict gval) (jk : nat * nat) : res (dict gval) :=
  let '(jc, kc) := jk in
  do a <- of_opt EKey (phase_no (nth jc phases ""));
  do b <- of_opt EKey (phase_no (nth kc phases ""));
  let j := if Nat.ltb (length lc) 3 then jc else a - 1 in
  let k := if Nat.ltb (length lc) 3 then kc else b - 1 in
  do row <- of_opt EIndex (nth_error lc j);
  do z <- of_opt EIndex (nth_error row k);
  Ok (dset d ("z" ++ nat_str a ++ nat_str b) (VS (impedance_text z))).
Definition line_dic (l : gline) : res (dict gval) :=
  let phases := line_phases l in
  match l_z l with
  | None => Ok []
  | Some lc => foldM (z_entry lc phases) (list_prod (seq 0 (length phases)) (seq 0 (length phases))) []
  end.
Definition is_true (o : option bool) : bool := match o with Some true => true | _ => false end.
Definition write_line_configurations (ms : list gobj) (cs : configs) (ns : onames) : res cstate :=
  foldM (fun st o => match o with
    | GLine l => if (is_true (l_switch l) || is_true (l_fuse l))%bool then Ok st
                 else do d <- line_dic l; Ok (configure "line_configuration" "line_config_" st (l_name l) d)
    | _ => Ok st end) ms (cs, ns, 1, []).

(** ** Lines: 838-909 *)
Definition feet (q : Q) : Q := (q * (328084 # 100000))%Q.
Definition line_props (ns : onames) (l : gline) : list (string * string) :=
  oprop (l_length l) "length" (fun q => num (feet q)) ++ conf_prop ns (l_name l).
Definition line_head (ns : onames) (l : gline) : string * list (string * string) :=
  if oeqb (l_type l) (Some "underground") then ("object underground_line{", line_props ns l)
  else if is_true (l_fuse l) then ("object fuse{", [])
  else if is_true (l_switch l) then ("object switch{", [])
  else ("object overhead_line{", line_props ns l).
Definition line_rows (ns : onames) (l : gline) : list string :=
  let '(head, ps) := line_head ns l in
  let ph := match l_wires l with Some ws => phase_text wi_phase ws | None => "" end in
  obj_rows head (ps ++ oprop (l_name l) "name" nname ++ oprop (l_from l) "from" nname ++ oprop (l_to l) "to" nname ++
                 (if String.eqb ph "" then [] else [("phases", ph)])).
Definition write_lines (ms : list gobj) (ns : onames) : list string := flat_map (fun o => match o with GLine l => line_rows ns l | _ => [] end) ms.

(** ** The file: 42-142; any boolean as write_wires sets it *)
Definition module_rows : list string := ["module powerflow{"; "    solver_method NR;"; "    NR_iteration_limit 50;"; "};"; ""].
Definition write_glm (write_wires : option bool) (ms : list gobj) (st : wstate) : res (list string * wstate) :=
  do loads <- write_loads ms;
  do t <- write_transformer_configurations ms (ws_tc st) (ws_tn st);
  let '(tc, tn, _, trows) := t in
  let '(rc, rn, rp, _) := fold_left (reg_step ms) ms (ws_rc st, ws_rn st, ws_rp st, 1) in
  let '(seen, rrows) := fold_left (reg_write rn) ms (ws_seen st, []) in
  do l <- (match write_wires with
           | Some _ => Ok (ws_lc st, ws_ln st, 1, [])
           | None => write_line_configurations ms (ws_lc st) (ws_ln st)
           end);
  let '(lc, ln, _, lrows) := l in
  Ok (module_rows ++ write_nodes ms ++ write_capacitors ms ++ loads ++ trows ++ write_transformers ms tn ++ reg_config_rows rp rc ++ rrows ++ lrows ++ write_lines ms ln,
      mkWstate lc ln tc tn rc rn rp seen).
End Write.
