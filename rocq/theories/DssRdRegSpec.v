(** What the controls of regulators that OpenDSS reports should become. *)
From Verif Require Import Base CsvModel DssTextModel DssTextSpec DssLoadSpec DssNodeSpec DssRdLoadModel DssRdLoadSpec DssRdCapSpec DssRdTransModel DssRdTransSpec DssRdRegModel.
From Verif Require DssTransModel DssRegModel DssRegSpec.
From Coq Require Import Reals QArith Qreals.
Local Open Scope string_scope.
Local Open Scope nat_scope.
Local Open Scope list_scope.

(** the first transformer of a name *)
Inductive first_named {A} (name : A -> string) (n : string) : list A -> A -> Prop :=
| fn_here x l : name x = n -> first_named name n (x :: l) x
| fn_later y l x : name y <> n -> first_named name n l x -> first_named name n (y :: l) x.
(** A transformer with the terminals [bs], the connections [conns] and the voltages [kvs] *)
Record stands (int_ : string -> option Z) num (t : data) (bs : list (string * list string)) (conns : list string) (kvs : list R) : Prop := {
  sx_count : length bs = 2 \/ length bs = 3;
  sx_windings : whole int_ t "windings" (Z.of_nat (length bs));
  sx_buses : exists ts, t "buses" = Some (PList ts) /\ Forall2 (fun x b => terminal x = b) ts bs;
  sx_nodes : forall b ns m, In (b, ns) bs -> In m ns -> ~ In m ["A"; "B"; "C"];
  sx_conns : exists cs, t "conns" = Some (PList cs) /\ map lower cs = conns /\ length conns = length bs /\ forall c, In c conns -> c = "wye" \/ c = "delta";
  sx_kvs : exists ks, t "kVs" = Some (PList ks) /\ Forall2 (fun s r => num s = Some r) ks kvs /\ length kvs = length bs;
  sx_taps : t "taps" = None \/ forall i, i < length bs -> exists r, number_at num t "taps" i r }.
(** A control [n] of the transformer [tn] *)
Record reports_reg int_ num (trans : list (string * data)) (full : string) (d : data) (n tn : string) (t : data) bs conns kvs : Prop := {
  cx_name : exists c, full = (c ++ "." ++ n)%string /\ ~ has "." c /\ ~ has "." n;
  cx_trans : exists s, d "transformer" = Some (PText s) /\ lower s = tn;
  cx_found : exists x, first_named fst ("Transformer." ++ tn)%string trans x /\ snd x = t;
  cx_stands : stands int_ num t bs conns kvs;
  cx_tap : t "taps" = None -> d "TapNum" = None \/ exists r, number num d "TapNum" r }.
Definition ints int_ (d : data) (k : string) (o : option Z) : Prop := match o with Some z => whole int_ d k z | None => forall z, ~ whole int_ d k z end.
Record reads_reg_winding num (d t : data) (bs : list (string * list string)) (conns : list string) (kvs : list R) (i : nat) (w : rwinding) : Prop := {
  ew_conn : forall c, nth_error conns i = Some c -> rw_conn w = Some (if String.eqb c "delta" then "D" else "Y");
  ew_kv : forall v, nth_error kvs i = Some v -> rw_kv w = Some (v * 1000)%R;
  ew_va : exists v, states_at num t "kVAs" i v /\ rw_va w = option_map (fun x => x * 1000)%R v;
  ew_emerg : exists v, states num t "emerghkVA" v /\ rw_emerg w = option_map (fun x => x * 1000)%R v;
  ew_res : states_at num t "%Rs" i (rw_res w);
  ew_phases : exists b ns, nth_error bs i = Some (b, ns) /\ phases_at ns (map rw_phase (rw_phases w));
  ew_taps : forall p, In p (rw_phases w) -> (t "taps" <> None -> states_at num t "taps" i (rw_tap p)) /\ (t "taps" = None -> states num d "TapNum" (rw_tap p));
  ew_settings : forall p, In p (rw_phases w) -> states num d "R" (rw_r p) /\ states num d "X" (rw_x p) }.
Record reads_reg int_ num source (read : list rtrans) (d : data) (n tn : string) (t : data) bs conns kvs (r : rreg) : Prop := {
  ex_name : rr_name r = Some ("regulator_" ++ lower n)%string;
  ex_feeder : rr_feeder r = source;
  ex_trans : rr_trans r = Some tn;
  ex_winding : ints int_ d "winding" (rr_winding r);
  ex_step : ints int_ d "maxtapchange" (rr_high r);
  ex_ct : states num d "CTprim" (rr_ct r); ex_delay : states num d "delay" (rr_delay r); ex_pt : states num d "ptratio" (rr_pt r);
  ex_band : states num d "band" (rr_band r); ex_center : states num d "vreg" (rr_center r); ex_limit : states num d "vlimit" (rr_limit r);
  ex_ends : (exists x, first_named rt_name tn read x /\ rr_from r = rt_from x /\ rr_to r = rt_to x /\ rr_reacs r = rt_reacs x) \/
            ((forall x, In x read -> rt_name x <> tn) /\ rr_from r = None /\ rr_to r = None /\ rr_reacs r = []);
  ex_shift : exists z, shifted conns z /\ rr_shift r = Some z;
  ex_types : voltage_types kvs (map rw_type (rr_windings r));
  ex_count : length (rr_windings r) = length bs;
  ex_windings : forall i w, nth_error (rr_windings r) i = Some w -> reads_reg_winding num d t bs conns kvs i w;
  (* the phase of the sensor: node number PTphase of the last terminal *)
  ex_phase : forall z b ns m, whole int_ d "PTphase" z -> (0 < z)%Z -> nth_error bs (length bs - 1) = Some (b, ns) ->
    nth_error (match ns with [] => ["1"; "2"; "3"] | _ => ns end) (Z.to_nat (z - 1)) = Some m -> node_phase m (rr_phase r);
  ex_no_phase : forall z b ns, whole int_ d "PTphase" z -> (0 < z)%Z -> nth_error bs (length bs - 1) = Some (b, ns) ->
    nth_error (match ns with [] => ["1"; "2"; "3"] | _ => ns end) (Z.to_nat (z - 1)) = None -> rr_phase r = None;
  ex_set : ints int_ d "vreg" (rr_set r);
  ex_low : rr_low r = rr_high r }.
Definition good_reg_report int_ num trans (x : string * data) : Prop := snd x "enabled" <> None /\ (enabled (snd x) = true -> exists n tn t bs conns kvs, reports_reg int_ num trans (fst x) (snd x) n tn t bs conns kvs).
Definition reg_read_of int_ num source trans read (x : string * data) (r : rreg) : Prop :=
  exists n tn t bs conns kvs, reports_reg int_ num trans (fst x) (snd x) n tn t bs conns kvs /\ reads_reg int_ num source read (snd x) n tn t bs conns kvs r.

(** ** What OpenDSS reports of a control that was written *)
Record engine_reg (num : string -> option R) (e : element) (d : data) : Prop := {
  er_on : d "enabled" = Some (PText "Yes");
  er_trans : same_text e d "transformer" "transformer"; er_winding : same_text e d "winding" "winding"; er_phase : same_text e d "ptphase" "PTphase";
  er_ct : passed num e d "ctprim" "CTprim"; er_delay : passed num e d "delay" "delay"; er_pt : passed num e d "ptratio" "ptratio";
  er_band : passed num e d "band" "band"; er_vreg : passed num e d "vreg" "vreg"; er_limit : passed num e d "vlimit" "vlimit" }.

(** the numbers that are read as whole numbers *)
Definition ints_are_numbers (int_ : string -> option Z) (num : string -> option R) : Prop := forall s z, int_ s = Some z -> num s = Some (IZR z).
(** a control [r] that was written as [e] and is reported as [d], for a transformer that is in the circuit *)
Record written_reg int_ (num : string -> option Q) (ts : list DssTransModel.transformer) (trans : list (string * data)) (r : DssRegModel.regulator) (n : string) (e : element) (d : data) (full tn : string) (t : data) bs conns kvs : Prop := {
  wr_is : DssRegSpec.control_of num ts r e;
  wr_engine : engine_reg (real_of num) e d;
  wr_name : DssRegModel.rg_name r = Some n;
  wr_reports : reports_reg int_ (real_of num) trans full d n tn t bs conns kvs }.
