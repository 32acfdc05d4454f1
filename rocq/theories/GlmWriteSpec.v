(** What a GridLAB-D file says, and what it should say about a network, independent of the writer. *)
From Verif Require Import Base NetworkModel GlmWriteModel.
From Coq Require Import QArith.
Local Open Scope string_scope.
Local Open Scope list_scope.

(** ** Reading a file *)
Fixpoint trim (s : string) : string := match s with "" => "" | String c t => if Ascii.eqb c " " then trim t else s end.
Fixpoint until (x : ascii) (s : string) : string := match s with "" => "" | String c t => if Ascii.eqb c x then "" else String c (until x t) end.
Fixpoint after (x : ascii) (s : string) : string := match s with "" => "" | String c t => if Ascii.eqb c x then t else after x t end.
Fixpoint chop (s : string) : string := match s with "" => "" | String _ "" => "" | String c t => String c (chop t) end.
(** the class in a row that opens an object; the key and the value of another row *)
Definition opens (row : string) : option string := if String.prefix "object " row then Some (until " " (until "{" (after " " row))) else None.
Definition property (row : string) : string * string := (until " " (trim row), chop (after " " (trim row))).
Definition block := (string * list (string * string))%type.
Fixpoint objects (cur : option block) (rows : list string) : list block :=
  match rows with
  | [] => []
  | r :: t =>
    match opens r with
    | Some c => objects (Some (c, [])) t
    | None =>
      match cur with
      | None => objects None t
      | Some (c, ps) => if String.eqb r "};" then (c, ps) :: objects None t else objects (Some (c, ps ++ [property r])) t
      end
    end
  end.
(** the objects of a file; those of some classes; the values of a property *)
Definition file (rows : list string) : list block := objects None rows.
Definition of_class (cs : list string) (bs : list block) : list block := filter (fun b => smem (fst b) cs) bs.
Definition values (b : block) (k : string) : list string := map snd (filter (fun p => String.eqb (fst p) k) (snd b)).
Definition keys (b : block) : list string := map fst (snd b).
Definition opt {A} (o : option A) (f : A -> string) : list string := match o with Some x => [f x] | None => [] end.

(** ** Elements of a network *)
Definition nodes (ms : list gobj) : list gnode := flat_map (fun o => match o with GNode n => [n] | _ => [] end) ms.
Definition capacitors (ms : list gobj) : list gcap := flat_map (fun o => match o with GCap c => [c] | _ => [] end) ms.
Definition loads (ms : list gobj) : list gload := flat_map (fun o => match o with GLoad l => [l] | _ => [] end) ms.
Definition trafos (ms : list gobj) : list gtrafo := flat_map (fun o => match o with GTrafo t => [t] | _ => [] end) ms.
Definition regs (ms : list gobj) : list greg := flat_map (fun o => match o with GReg r => [r] | _ => [] end) ms.
Definition lines (ms : list gobj) : list gline := flat_map (fun o => match o with GLine l => [l] | _ => [] end) ms.
(** transformers that are not the transformer of a regulator *)
Definition own_trafos (ms : list gobj) : list gtrafo := filter (fun t => negb (existsb (fun r => oeqb (r_name r) (t_name t)) (regs ms))) (trafos ms).

Definition no_blank (s : string) : Prop := forall a b, s <> (a ++ String " " b)%string.
Definition some {A} (l : list (option A)) : list A := flat_map (fun o => match o with Some x => [x] | None => [] end) l.
Definition pws (wds : option (list gwinding)) : list gpw :=
  match wds with Some l => flat_map (fun w => match w_pws w with Some p => p | None => [] end) l | None => [] end.
Definition olist {A} (o : option (list A)) : list A := match o with Some l => l | None => [] end.
(** the phases of capacitors, loads and windings have no blank in their names *)
Definition phases_ok (ms : list gobj) : Prop :=
  (forall c j p, In c (capacitors ms) -> In j (olist (c_pcs c)) -> pc_phase j = Some p -> no_blank p) /\
  (forall l j p, In l (loads ms) -> In j (olist (ld_pls l)) -> pl_phase j = Some p -> no_blank p) /\
  (forall t j p, In t (trafos ms) -> In j (pws (t_wds t)) -> pw_phase j = Some p -> no_blank p) /\
  (forall r j p, In r (regs ms) -> In j (pws (r_wds r)) -> pw_phase j = Some p -> no_blank p).

Section Says.
Variable num : Q -> string.
Variable cplx : Q -> Q -> string.
Definition n_ (x : string) : string := "n" ++ x.

(** ** What an object should say about an element *)
Definition node_says (n : gnode) (b : block) : Prop :=
  fst b = "node" /\
  values b "name" = opt (n_name n) n_ /\
  values b "bustype" = (if oeqb (n_name n) (Some "sourcebus") then ["SWING"] else []) /\
  values b "phases" = (match olist (n_phases n) with [] => [] | l => [(String.concat "" l ++ "N")%string] end) /\
  values b "nominal_voltage" = [match n_volt n with Some v => num v | None => "12470" end] /\
  incl (keys b) ["name"; "bustype"; "phases"; "nominal_voltage"].

(** the capacitors of a phase and their reactive powers in Mvar *)
Definition vars (c : gcap) (ph : string) : list string :=
  flat_map (fun j => match pc_phase j, pc_var j with Some p, Some v => if String.eqb p ph then [num (v / 1000000)%Q] else [] | _, _ => [] end) (olist (c_pcs c)).
Definition cap_says (c : gcap) (b : block) : Prop :=
  fst b = "capacitor" /\
  values b "name" = opt (c_name c) n_ /\ values b "nominal_voltage" = opt (c_volt c) num /\
  values b "control" = opt (c_mode c) (fun m => m) /\ values b "voltage_set_low" = opt (c_low c) num /\
  (c_high c <> None -> c_low c <> None -> values b "voltage_set_high" = opt (c_high c) num) /\
  values b "pt_phase" = opt (c_ptphase c) (fun p => p) /\ values b "parent" = opt (c_conn c) n_ /\
  (forall ph, values b ("capacitor_" ++ ph)%string = vars c ph) /\
  (let ph := String.concat "" (some (map pc_phase (olist (c_pcs c)))) in values b "phases" = if String.eqb ph "" then [] else [ph]).

(** [t] is [s] without the parentheses around it *)
Definition bare (s t : string) : Prop :=
  exists a b, s = (a ++ t ++ b)%string /\ (forall c, In c (list_ascii_of_string (a ++ b)) -> c = "("%char \/ c = ")"%char) /\
    (forall c u, t = String c u -> c <> "("%char /\ c <> ")"%char) /\ (forall c u, t = (u ++ String c "")%string -> c <> "("%char /\ c <> ")"%char).
(** constant powers: the phase loads that are no ZIP loads *)
Definition powers (l : gload) (ph : string) : list string :=
  flat_map (fun j => match pl_phase j, pl_zip j, pl_p j, pl_q j with
    | Some p, Some z, Some a, Some b => if (String.eqb p ph && negb (Z.eqb z 1))%bool then [cplx a b] else []
    | _, _, _, _ => [] end) (olist (ld_pls l)).
(** a property of the ZIP loads of a phase *)
Definition zips (f : gpload -> option string) (l : gload) (ph : string) : list string :=
  flat_map (fun j => if (oeqb (pl_phase j) (Some ph) && zeqb (pl_zip j) 1)%bool then opt (f j) (fun s => s) else []) (olist (ld_pls l)).
Definition add2 (a b : option Q) : option Q := match a, b with Some x, Some y => Some (x + y)%Q | _, _ => None end.
Definition share2 (a b : option Q) : option Q := match a, b with Some x, Some y => Some (x / (x + y))%Q | _, _ => None end.
Definition load_says (l : gload) (b : block) : Prop :=
  fst b = "load" /\
  values b "name" = opt (ld_name l) n_ /\ values b "nominal_voltage" = opt (ld_volt l) num /\ values b "parent" = opt (ld_conn l) n_ /\
  forall ph,
    Forall2 bare (powers l ph) (values b ("constant_power_" ++ ph)%string) /\
    values b ("current_fraction_" ++ ph)%string = zips (fun j => option_map num (add2 (pl_pc j) (pl_qc j))) l ph /\
    values b ("current_pf_" ++ ph)%string = zips (fun j => option_map num (share2 (pl_pc j) (pl_qc j))) l ph /\
    values b ("power_fraction_" ++ ph)%string = zips (fun j => option_map num (add2 (pl_pp j) (pl_qp j))) l ph /\
    values b ("power_pf_" ++ ph)%string = zips (fun j => option_map num (share2 (pl_pp j) (pl_qp j))) l ph /\
    values b ("impedance_fraction_" ++ ph)%string = zips (fun j => option_map num (add2 (pl_pi j) (pl_qi j))) l ph /\
    values b ("impedance_pf_" ++ ph)%string = zips (fun j => option_map num (share2 (pl_pi j) (pl_qi j))) l ph /\
    values b ("base_power_" ++ ph)%string = zips (fun j => match pl_p j, pl_q j with Some x, Some y => Some (cplx x y) | _, _ => None end) l ph.

Definition trafo_says (t : gtrafo) (b : block) : Prop :=
  fst b = "transformer" /\
  values b "name" = opt (t_name t) n_ /\ values b "from" = opt (t_from t) n_ /\ values b "to" = opt (t_to t) n_ /\
  exists ps, NoDup ps /\ node_sort ps = ps /\ (forall p, In p ps <-> In (Some p) (map pw_phase (pws (t_wds t)))) /\
    values b "phases" = if String.eqb (String.concat "" ps) "" then [] else [String.concat "" ps].

Definition reg_says (r : greg) (b : block) : Prop :=
  fst b = "regulator" /\ values b "name" = opt (r_name r) n_ /\ values b "from" = opt (r_from r) n_ /\ values b "to" = opt (r_to r) n_.

Definition line_class (l : gline) : string :=
  if oeqb (l_type l) (Some "underground") then "underground_line"
  else match l_fuse l, l_switch l with Some true, _ => "fuse" | _, Some true => "switch" | _, _ => "overhead_line" end.
Definition line_classes : list string := ["underground_line"; "fuse"; "switch"; "overhead_line"].
Definition line_says (l : gline) (b : block) : Prop :=
  fst b = line_class l /\
  values b "name" = opt (l_name l) n_ /\ values b "from" = opt (l_from l) n_ /\ values b "to" = opt (l_to l) n_ /\
  (In (line_class l) ["underground_line"; "overhead_line"] -> values b "length" = opt (l_length l) (fun q => num (q * (328084 # 100000))%Q)) /\
  (let ph := String.concat "" (some (map wi_phase (olist (l_wires l)))) in values b "phases" = if String.eqb ph "" then [] else [ph]).

(** ** What a configuration should say *)
Definition named (bs : list block) (cls c : string) : list block := filter (fun b => (String.eqb (fst b) cls && smem c (values b "name"))%bool) bs.
(** [b] refers to one configuration of the class in the file *)
Definition refers (bs : list block) (b : block) (cls : string) (conf : block) : Prop :=
  exists c, values b "configuration" = [c] /\ named bs cls c = [conf] /\ values conf "name" = [c].

Definition phase_digit (p : string) : option string :=
  if smem p ["A"; "1"] then Some "1" else if smem p ["B"; "2"] then Some "2" else if String.eqb p "C" then Some "3" else None.
Definition digit_row (d : string) : nat := if String.eqb d "1" then 0 else if String.eqb d "2" then 1 else 2.
(** the phases of a line, the neutral excepted, in alphabetical order *)
Definition conductors (l : gline) : list string := node_sort (filter (fun p => negb (String.eqb p "N")) (some (map wi_phase (olist (l_wires l))))).
(** the entry of the impedance matrix of two phases: matrices below three rows have the rows of the phases, others those of A, B and C *)
Definition entry (l : gline) (i j : nat) : option (Q * Q) :=
  match l_z l, nth_error (conductors l) i, nth_error (conductors l) j with
  | Some m, Some p, Some q =>
    match phase_digit p, phase_digit q with
    | Some d, Some e =>
      match nth_error m (if Nat.ltb (length m) 3 then i else digit_row d) with
      | Some row => nth_error row (if Nat.ltb (length m) 3 then j else digit_row e)
      | None => None
      end
    | _, _ => None
    end
  | _, _, _ => None
  end.
Definition z_key (l : gline) (i j : nat) : option string :=
  match nth_error (conductors l) i, nth_error (conductors l) j with
  | Some p, Some q => match phase_digit p, phase_digit q with Some d, Some e => Some ("z" ++ d ++ e)%string | _, _ => None end
  | _, _ => None
  end.
(** a text of a complex number *)
Definition complex_text (re im : Q) (t : string) : Prop :=
  (0 <= im)%Q /\ t = (num re ++ "+" ++ num im ++ "j")%string \/
  (im < 0)%Q /\ t = (num re ++ num im ++ "j")%string \/
  (re == 0)%Q /\ (im < 0)%Q /\ t = (num im ++ "j")%string \/
  (re == 0)%Q /\ (0 <= im)%Q /\ (t = ("0+" ++ num im ++ "j")%string \/ (exists a b, num im = (a ++ "+" ++ b)%string) /\ t = (num im ++ "j")%string).
Definition line_conf_says (l : gline) (conf : block) : Prop :=
  (forall i j k z, z_key l i j = Some k -> entry l i j = Some z -> exists t, values conf k = [t] /\ complex_text (fst z) (snd z) t) /\
  (forall k, In k (keys conf) -> k = "name" \/ exists i j, z_key l i j = Some k).
(** lines with a configuration *)
Definition plain (l : gline) : bool := match l_switch l, l_fuse l with Some true, _ => false | _, Some true => false | _, _ => true end.
(** no phase twice *)
Definition distinct_phases (l : gline) : Prop := NoDup (map phase_digit (conductors l)).

(** no impedance without a resistance and with a negative reactance *)
Definition positive_entries (l : gline) : Prop := forall i j z, entry l i j = Some z -> (~ fst z == 0 \/ 0 <= snd z)%Q.

(** Python's texts of numbers *)
Definition is_digit (c : ascii) : bool := existsb (Ascii.eqb c) ["0"; "1"; "2"; "3"; "4"; "5"; "6"; "7"; "8"; "9"]%char.
Definition number_texts : Prop :=
  (forall q, exists s c, num q = (s ++ String c "")%string /\ is_digit c = true) /\
  (forall q, exists c s, num q = String c s /\ (is_digit c = true \/ c = "-"%char)) /\
  (forall q, (q < 0)%Q -> exists s, num q = String "-" s) /\
  (forall q a b, (0 <= q)%Q -> num q = (a ++ "-" ++ b)%string -> exists a', a = (a' ++ "e")%string) /\
  forall a b, cplx a b = if Qeq_bool a 0 then (num b ++ "j")%string
                         else ("(" ++ num a ++ (if Qle_bool 0 b then "+" else "") ++ num b ++ "j)")%string.

Definition connection (t : gtrafo) : list string :=
  match olist (t_wds t) with
  | [_; _; _] => ["SINGLE_PHASE_CENTER_TAPPED"]
  | w1 :: w2 :: _ =>
    let is w c := oeqb (w_conn w) (Some c) in
    if (is w1 "Y" && is w2 "Y")%bool then ["WYE_WYE"] else if (is w1 "Y" && is w2 "D")%bool then ["WYE_DELTA"]
    else if (is w1 "D" && is w2 "Y")%bool then ["DELTA_GWYE"] else if (is w1 "D" && is w2 "D")%bool then ["DELTA_DELTA"]
    else []
  | _ => []
  end.
Definition trafo_conf_says (t : gtrafo) (conf : block) : Prop :=
  values conf "install_type" = opt (t_install t) (fun s => s) /\
  values conf "connect_type" = connection t /\
  (forall q, t_noload t = Some q -> exists q', (q' == q)%Q /\ values conf "no_load_loss" = [num q']) /\
  (forall w1 w2 ws v, olist (t_wds t) = w1 :: w2 :: ws -> zeqb (w_type w1) 2 = false -> zeqb (w_type w2) 0 = false ->
     (w_volt w1 = Some v -> exists v', (v' == v)%Q /\ values conf "primary_voltage" = [num v']) /\
     (w_volt w2 = Some v -> exists v', (v' == v)%Q /\ values conf "secondary_voltage" = [num v']) /\
     (w_power w1 = Some v -> exists v', (v' == v / 1000)%Q /\ values conf "power_rating" = [num v'])) /\
  (forall w1 w2 x r1 r2, olist (t_wds t) = [w1; w2] -> t_react t = Some [x] -> w_res w1 = Some r1 -> w_res w2 = Some r2 ->
     (exists x', (x' == x)%Q /\ values conf "reactance" = [num x']) /\ exists r, (r == r1 + r2)%Q /\ values conf "resistance" = [num r]).

Definition okQ (o : option Q) (vs : list string) : Prop := match o with Some q => exists q', (q' == q)%Q /\ vs = [num q'] | None => vs = [] end.
Definition reg_conf_says (r : greg) (conf : block) : Prop :=
  okQ (r_delay r) (values conf "time_delay") /\ okQ (r_high r) (values conf "raise_taps") /\
  okQ (match r_low r with Some x => Some x | None => r_high r end) (values conf "lower_taps") /\
  okQ (r_pt r) (values conf "power_transducer_ratio") /\ okQ (r_ct r) (values conf "current_transducer_ratio") /\
  okQ (r_width r) (values conf "band_width") /\ okQ (r_center r) (values conf "band_center") /\
  values conf "pt_phase" = opt (r_ptphase r) (fun p => p) /\ values conf "connect_type" = ["WYE_WYE"].
(** the windings whose settings a regulator has *)
Definition reg_pws (ms : list gobj) (r : greg) : list gpw :=
  match r_trafo r with
  | Some c => flat_map (fun t => if oeqb (t_name t) (Some c) then pws (t_wds t) else []) (trafos ms)
  | None => pws (r_wds r)
  end.
Definition text_or_none (o : option Q) : string := match o with Some q => num q | None => "None" end.
(** the last setting of a phase *)
Definition tap_says (ms : list gobj) (r : greg) (conf : block) : Prop :=
  forall ph, values conf ("tap_pos_" ++ ph) =
    match filter (fun j => oeqb (pw_phase j) (Some ph)) (rev (reg_pws ms r)) with j :: _ => [text_or_none (pw_tap j)] | [] => [] end.
End Says.

(** ** Histories *)
(** two regulators with the same data of a configuration *)
Definition oqeqb (a b : option Q) : bool := match a, b with Some x, Some y => Qeq_bool x y | None, None => true | _, _ => false end.
Definition lowest (r : greg) : option Q := match r_low r with Some x => Some x | None => r_high r end.
Definition same_controls (r r' : greg) : bool :=
  (oqeqb (r_delay r) (r_delay r') && oqeqb (r_high r) (r_high r') && oqeqb (lowest r) (lowest r') && oqeqb (r_pt r) (r_pt r') &&
   oqeqb (r_ct r) (r_ct r') && oqeqb (r_width r) (r_width r') && oqeqb (r_center r) (r_center r') && oeqb (r_ptphase r) (r_ptphase r'))%bool.
(** the ends of a regulator as one text *)
Definition joined (r : greg) : list string := match r_from r, r_to r with Some f, Some t => [(f ++ "_" ++ t)%string] | _, _ => [] end.
(** [reached hs st]: the state of the writer after a process wrote the networks [hs] *)
Inductive reached (num : Q -> string) (cplx : Q -> Q -> string) (order : dict gval -> dict gval) : list (list gobj) -> wstate -> Prop :=
| reached_start : reached num cplx order [] wstate0
| reached_write : forall hs st ww ms rows st', reached num cplx order hs st -> phases_ok ms -> write_glm num cplx order ww ms st = Ok (rows, st') ->
    reached num cplx order (ms :: hs) st'.
