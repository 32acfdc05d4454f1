(** Specification vocabulary for the loads, lines and capacitors of the OpenDSS script. *)
From Verif Require Import Base CsvModel DssTextModel DssNameSpec DssTextSpec.
From Coq Require Import QArith.
Local Open Scope string_scope.
Local Open Scope nat_scope.
Local Open Scope list_scope.

(** The node of a phase, and the node after it. *)
Inductive at_node : string -> string -> Prop :=
| node_A : at_node "A" "1" | node_B : at_node "B" "2" | node_C : at_node "C" "3" | node_N : at_node "N" "0".
Inductive next_node : string -> string -> Prop := next_1 : next_node "1" "2" | next_2 : next_node "2" "3" | next_3 : next_node "3" "1".

Fixpoint given {A} (l : list (option A)) : list A := match l with [] => [] | Some x :: r => x :: given r | None :: r => given r end.
Definition sum (l : list Q) : Q := fold_right Qplus 0%Q l.

(** The property is a terminal at bus [b] with nodes [ns]; or it is not given. *)
Definition connects (e : element) (k : string) (b : option string) (ns : list string) : Prop :=
  match b with
  | Some x => exists v y, prop e k = Some v /\ terminal v = (y, ns) /\ kept x y
  | None => prop e k = None
  end.
Definition only (e : element) (ks : list string) : Prop := forall k v, prop e k = Some v -> In (lower k) ks.

(** *** Loads *)
(** The load shape of a series: the kind (daily or yearly) and the name. *)
Definition shape (datasets : dict (dict string)) (fmts : dict string) (t : series) (k f : string) : Prop :=
  exists loc d, ts_loc t = Some loc /\ ts_label t <> None /\
    dget datasets (match ts_sub t with Some x => x | None => "DEFAULT" end ++ "_" ++ match ts_fee t with Some x => x | None => "DEFAULT" end)%string = Some d /\
    dget d loc = Some f /\ dget fmts f = Some k.
Definition no_data (t : series) : Prop := ts_label t = None \/ ts_loc t = None.
Definition shaped (datasets : dict (dict string)) (fmts : dict string) (t : series) : Prop :=
  no_data t \/ exists k f, shape datasets fmts t k f /\ (k = "daily" \/ k = "yearly") /\ token f.

Definition load_nodes (l : load) (ns : list string) : Prop :=
  exists ms, Forall2 at_node (given (map pl_phase (ld_phases l))) ms /\
    ((ld_conn l = Some "D" /\ length (ld_phases l) = 1 /\
        (exists m n, ms = [m] /\ next_node m n /\ ns = [m; n])) \/
     ((ld_conn l <> Some "D" \/ length (ld_phases l) <> 1 \/ ms = [] \/ ms = ["0"]) /\ ns = ms)).

Record load_is (num : string -> option Q) (datasets : dict (dict string)) (fmts : dict string) (removed : bool) (l : load) (e : element) : Prop := {
  li_class : e_class e = "Load";
  li_name : ld_name l = Some (e_name e);
  li_conn : prop e "conn" = match ld_conn l with Some c => if String.eqb c "Y" then Some "wye" else if String.eqb c "D" then Some "delta" else None | None => None end;
  li_bus : exists ns, load_nodes l ns /\ connects e "bus1" (ld_bus l) ns;
  li_kv : gives num e "kv" (match ld_kv l with Some v => Some (v / 1000)%Q | None => None end);
  li_vmin : gives num e "vminpu" (ld_vmin l);
  li_vmax : gives num e "vmaxpu" (ld_vmax l);
  li_kw : gives num e "kw" (match ld_phases l with [] => None | _ => Some (sum (given (map pl_p (ld_phases l))) / 1000)%Q end);
  li_kvar : gives num e "kvar" (match ld_phases l with [] => None | _ => Some (sum (given (map pl_q (ld_phases l))) / 1000)%Q end);
  li_model : prop e "model" = match ld_phases l with [] => None | p :: _ => Some (show_int (pl_model p)) end;
  li_phases : exists n, prop e "phases" = Some (str_of n) /\
    ((exists v, ld_kv l = Some v /\ (v < 300)%Q /\ n = 1) \/ ((ld_kv l = None \/ exists v, ld_kv l = Some v /\ (300 <= v)%Q) /\ n = length (ld_phases l)));
  li_shape : forall k f a t b, removed = false -> ld_ts l = a ++ t :: b -> shape datasets fmts t k f ->
    (forall u g, In u b -> ~ shape datasets fmts u k g) -> prop e k = Some f;
  li_no_shape : forall k, k = "daily" \/ k = "yearly" -> (removed = true \/ forall u g, In u (ld_ts l) -> ~ shape datasets fmts u k g) -> prop e k = None;
  li_only : only e ["conn"; "bus1"; "kv"; "vminpu"; "vmaxpu"; "kw"; "kvar"; "model"; "phases"; "daily"; "yearly"] }.

(** A load whose data can be written without quotes. *)
Definition good_load (datasets : dict (dict string)) (fmts : dict string) (l : load) : Prop :=
  (exists n, ld_name l = Some n /\ token n) /\ ld_bus l <> Some "" /\
  (forall p x, In p (ld_phases l) -> pl_phase p = Some x -> exists n, at_node x n) /\
  Forall (shaped datasets fmts) (ld_ts l).

(** OpenDSS divides the power of a load evenly over its phases, which are the first nodes of its terminal. *)
Definition node_power (num : string -> option Q) (e : element) (n : string) (q : Q) : Prop :=
  exists v kw k, prop e "bus1" = Some v /\ value num e "kw" = Some kw /\ prop e "phases" = Some (str_of k) /\ k <> 0 /\
    In n (firstn k (snd (terminal v))) /\ (q == kw / inject_Z (Z.of_nat k))%Q.

(** *** Lines *)
(** The nodes of a line are those of its wires that are not neutral, in order. *)
Definition neutral (p : string) : Prop := In p ["N"; "N1"; "N2"].
Inductive line_nodes : list (option string) -> list string -> Prop :=
| ln_nil : line_nodes [] []
| ln_none r ns : line_nodes r ns -> line_nodes (None :: r) ns
| ln_neutral p r ns : neutral p -> line_nodes r ns -> line_nodes (Some p :: r) ns
| ln_phase p n r ns : ~ neutral p -> at_node p n -> line_nodes r ns -> line_nodes (Some p :: r) (n :: ns).
Definition conductor (w : lwire) : Prop := exists p, lw_phase w = Some p /\ ~ neutral p.

Record line_is (num : string -> option Q) (l : dline) (e : element) : Prop := {
  ni_class : e_class e = "Line";
  ni_name : ln_name l = Some (e_name e);
  ni_units : prop e "units" = Some "km";
  ni_length : gives num e "length" (match ln_length l with Some x => Some (if Qle_bool 1 x then x / 1000 else 1 / 1000)%Q | None => None end);
  ni_ends : exists ns, line_nodes (map lw_phase (ln_wires l)) ns /\ connects e "bus1" (ln_from l) ns /\ connects e "bus2" (ln_to l) ns /\
    prop e "phases" = Some (str_of (length ns));
  ni_switch : prop e "switch" = Some (if ln_switch l || ln_breaker l then "y" else "n");
  ni_on : prop e "enabled" = Some "y" <-> exists w, In w (ln_wires l) /\ conductor w /\ lw_open w <> Some true;
  ni_off : prop e "enabled" = Some "n" <-> ln_wires l <> [] /\ forall w, In w (ln_wires l) -> conductor w -> lw_open w = Some true;
  ni_code : match ln_class l with
            | Some c => if ln_geo l then prop e "geometry" = Some c /\ prop e "linecode" = None
                        else prop e "geometry" = None /\ exists y, prop e "linecode" = Some y /\ kept c y
            | None => False
            end;
  ni_only : only e ["units"; "length"; "bus1"; "bus2"; "phases"; "switch"; "enabled"; "geometry"; "linecode"] }.
Record fuse_is (num : string -> option Q) (l : dline) (e : element) : Prop := {
  fi_class : e_class e = "Fuse";
  fi_line : exists n, ln_name l = Some n /\ e_name e = ("Fuse_" ++ n)%string /\ prop e "monitoredobj" = Some ("Line." ++ n)%string;
  fi_rating : (forall m, In m (given (map lw_rating (ln_wires l))) -> (0 < m)%Q -> (forall x, In x (given (map lw_rating (ln_wires l))) -> (x <= m)%Q) ->
      gives num e "ratedcurrent" (Some m)) /\
    ((forall x, In x (given (map lw_rating (ln_wires l))) -> (x <= 0)%Q) -> prop e "ratedcurrent" = None);
  fi_enabled : prop e "enabled" = Some "y";
  fi_only : only e ["monitoredobj"; "ratedcurrent"; "enabled"] }.

(** The elements of the lines in order; the fuse of a line follows it. *)
Inductive lines_are (num : string -> option Q) : list dline -> list element -> Prop :=
| la_nil : lines_are num [] []
| la_line l ls e es : ln_fuse l = false -> line_is num l e -> lines_are num ls es -> lines_are num (l :: ls) (e :: es)
| la_fuse l ls e f es : ln_fuse l = true -> line_is num l e -> fuse_is num l f -> lines_are num ls es -> lines_are num (l :: ls) (e :: f :: es).

Definition good_line (l : dline) : Prop :=
  (exists n, ln_name l = Some n /\ token n) /\ ln_from l <> Some "" /\ ln_to l <> Some "" /\
  (exists c, ln_class l = Some c /\ token c) /\
  (forall w p, In w (ln_wires l) -> lw_phase w = Some p -> In p ["A"; "B"; "C"; "N"; "N1"; "N2"]).

(** *** Capacitors *)
(** No nodes are named when all three phases are there. *)
Inductive cap_node : option string -> list string -> Prop :=
| cn_A : cap_node (Some "A") ["1"] | cn_B : cap_node (Some "B") ["2"] | cn_C : cap_node (Some "C") ["3"]
| cn_other p : p <> Some "A" -> p <> Some "B" -> p <> Some "C" -> cap_node p [].
Definition cap_nodes (c : capacitor) (ns : list string) : Prop :=
  (length (cp_phases c) = 3 /\ ns = []) \/
  (length (cp_phases c) <> 3 /\ exists nss, Forall2 cap_node (map pc_phase (cp_phases c)) nss /\ ns = concat nss).
Record cap_is (num : string -> option Q) (c : capacitor) (e : element) : Prop := {
  ci_class : e_class e = "Capacitor";
  ci_name : cp_name c = Some (e_name e);
  ci_bus : exists ns, cap_nodes c ns /\ connects e "bus1" (cp_bus c) ns;
  ci_phases : prop e "phases" = Some (match length (cp_phases c) with 1 | 2 => "1" | _ => "3" end);
  ci_kv : gives num e "kv" (match cp_kv c with Some v => Some (v / 1000)%Q | None => None end);
  ci_conn : prop e "conn" = match cp_conn c with Some x => if String.eqb x "Y" then Some "Wye" else if String.eqb x "D" then Some "delta" else None | None => None end;
  ci_kvar : gives num e "kvar" (Some (sum (given (map pc_var (cp_phases c))) / 1000)%Q);
  ci_only : only e ["bus1"; "phases"; "kv"; "conn"; "kvar"] }.
Definition controlled (c : capacitor) : Prop :=
  cp_delay c <> None \/ cp_mode c <> None \/ cp_low c <> None \/ cp_high c <> None \/ cp_pt c <> None \/ cp_ct c <> None \/ cp_ptphase c <> None.
Inductive control_type : string -> string -> Prop :=
| ct_current : control_type "currentflow" "current" | ct_voltage : control_type "voltage" "voltage"
| ct_power : control_type "activepower" "PF" | ct_kvar : control_type "reactivepower" "kvar" | ct_time : control_type "timescheduled" "time".
Record control_is (num : string -> option Q) (c : capacitor) (e : element) : Prop := {
  ki_class : e_class e = "CapControl";
  ki_name : cp_name c = Some (e_name e);
  ki_cap : prop e "capacitor" = cp_name c;
  ki_element : prop e "element" = match cp_element c with Some x => Some ("Line." ++ x)%string | None => None end;
  ki_terminal : prop e "terminal" = match cp_element c with Some _ => Some "1" | None => None end;
  ki_delay : gives num e "delay" (cp_delay c);
  ki_type : match cp_mode c with Some m => exists t, control_type (lower m) t /\ prop e "type" = Some t | None => prop e "type" = None end;
  ki_low : gives num e "vmin" (cp_low c);
  ki_high : gives num e "vmax" (cp_high c);
  ki_pt : gives num e "ptratio" (cp_pt c);
  ki_ct : gives num e "ctratio" (cp_ct c);
  ki_phase : match cp_ptphase c with Some p => exists n, at_node p n /\ prop e "ptphase" = Some n | None => prop e "ptphase" = None end;
  ki_only : only e ["capacitor"; "element"; "terminal"; "delay"; "type"; "vmin"; "vmax"; "ptratio"; "ctratio"; "ptphase"] }.
Inductive caps_are (num : string -> option Q) : list capacitor -> list element -> Prop :=
| ca_nil : caps_are num [] []
| ca_cap c cs e es : ~ controlled c -> cap_is num c e -> caps_are num cs es -> caps_are num (c :: cs) (e :: es)
| ca_control c cs e k es : controlled c -> cap_is num c e -> control_is num c k -> caps_are num cs es -> caps_are num (c :: cs) (e :: k :: es).
Definition good_cap (c : capacitor) : Prop :=
  (exists n, cp_name c = Some n /\ token n) /\ cp_bus c <> Some "" /\
  (forall x, cp_element c = Some x -> token x) /\
  (forall m, cp_mode c = Some m -> exists t, control_type (lower m) t) /\
  (forall p, cp_ptphase c = Some p -> exists n, at_node p n).
