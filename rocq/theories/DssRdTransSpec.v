(** What the transformers that OpenDSS reports should become. *)
From Verif Require Import Base CsvModel DssTextModel DssTextSpec DssLoadSpec DssNodeSpec DssRdLoadModel DssRdLoadSpec DssRdCapSpec DssRdTransModel.
From Verif Require DssTransModel DssTransSpec.
From Coq Require Import Reals QArith Qreals.
Local Open Scope string_scope.
Local Open Scope nat_scope.
Local Open Scope list_scope.

(** the number of a winding *)
Definition number_at num (d : data) (k : string) (i : nat) (r : R) : Prop := exists l s, d k = Some (PList l) /\ nth_error l i = Some s /\ num s = Some r.
Definition states_at num (d : data) (k : string) (i : nat) (o : option R) : Prop := match o with Some r => number_at num d k i r | None => forall r, ~ number_at num d k i r end.
(** the nodes of a terminal; a terminal without nodes has three *)
Definition node_phase (m : string) (p : option string) : Prop := (exists x, node_letter m x /\ p = Some x) \/ ((forall x, ~ node_letter m x) /\ p = None).
Definition phases_at (ns : list string) (ps : list (option string)) : Prop := (ns = [] /\ ps = [Some "A"; Some "B"; Some "C"]) \/ (ns <> [] /\ Forall2 node_phase ns ps).

(** ** The controls of a transformer *)
Definition regulates (c : data) (n : string) : Prop := exists s, c "transformer" = Some (PText s) /\ lower s = lower n.
Definition sound_control num (c : data) : Prop := (exists s, c "transformer" = Some (PText s)) /\ forall k, In k ["R"; "X"] -> c k = None \/ exists r, number num c k r.
(** the setting of the last control that has it *)
Definition setting num (regs : list (string * data)) (n k : string) (o : option R) : Prop :=
  match o with
  | Some r => exists a x z, regs = a ++ x :: z /\ regulates (snd x) n /\ number num (snd x) k r /\ forall y, In y z -> regulates (snd y) n -> snd y k = None
  | None => forall x, In x regs -> regulates (snd x) n -> snd x k = None
  end.

(** ** A transformer [n] with the terminals [bs], the connections [conns], the voltages [kvs] in kV and the reactances [xs] *)
Record reports_trans (int_ : string -> option Z) num (full : string) (d : data) (n : string) (bs : list (string * list string)) (conns : list string) (kvs xs : list R) (phases : Z) : Prop := {
  tx_name : exists c, full = String c ("ransformer." ++ n)%string;
  tx_plain : ~ has "ransformer." n;
  tx_count : length bs = 2 \/ length bs = 3;
  tx_windings : whole int_ d "windings" (Z.of_nat (length bs));
  tx_phases : whole int_ d "phases" phases;
  tx_buses : exists ts, d "buses" = Some (PList ts) /\ Forall2 (fun t b => terminal t = b) ts bs;
  tx_nodes : forall b ns m, In (b, ns) bs -> In m ns -> ~ In m ["A"; "B"; "C"];
  tx_conns : exists cs, d "conns" = Some (PList cs) /\ map lower cs = conns /\ length conns = length bs /\ forall c, In c conns -> c = "wye" \/ c = "delta";
  tx_kvs : exists ks, d "kVs" = Some (PList ks) /\ Forall2 (fun s r => num s = Some r) ks kvs /\ length kvs = length bs;
  tx_reacs : (exists s rest, d "Xscarray" = Some (PList (s :: rest)) /\ Forall2 (fun w r => num w = Some r) (words s) xs) \/
             (d "Xscarray" = None /\ length bs = 2 /\ d "XLT" = None /\ d "XHT" = None /\ exists x, number num d "XHL" x /\ xs = [x]) }.
(** the angle by which voltages are shifted *)
Definition shifted (conns : list string) (z : Z) : Prop := exists a b r, conns = a :: b :: r /\ ((a = b /\ z = 0%Z) \/ (a <> b /\ z = (-30)%Z)).
(** one winding, the first with the highest voltage, is the high one *)
Definition voltage_types (kvs : list R) (ts : list (option Z)) : Prop :=
  length ts = length kvs /\ exists i m, nth_error kvs i = Some m /\ (forall j r, nth_error kvs j = Some r -> (r <= m)%R /\ (j < i -> (r < m)%R)) /\
    forall j, j < length kvs -> nth_error ts j = Some (Some (if j =? i then 0%Z else 2%Z)).
Record reads_winding num (regs : list (string * data)) (d : data) (n : string) (bs : list (string * list string)) (conns : list string) (kvs : list R) (i : nat) (w : rwinding) : Prop := {
  rv_conn : forall c, nth_error conns i = Some c -> rw_conn w = Some (if String.eqb c "delta" then "D" else "Y");
  rv_kv : forall v, nth_error kvs i = Some v -> rw_kv w = Some (v * 1000)%R;
  rv_va : exists v, states_at num d "kVAs" i v /\ rw_va w = option_map (fun x => x * 1000)%R v;
  rv_emerg : exists v, states num d "emerghkVA" v /\ rw_emerg w = option_map (fun x => x * 1000)%R v;
  rv_res : states_at num d "%Rs" i (rw_res w);
  rv_ground : rw_ground w = true <-> length bs = 2 /\ exists b ns m, nth_error bs i = Some (b, ns) /\ In m ns /\ String.prefix "0" m = true;
  rv_phases : exists b ns rest, bs = (b, ns) :: rest /\ phases_at ns (map rw_phase (rw_phases w));
  rv_taps : forall p, In p (rw_phases w) -> d "taps" <> None -> states_at num d "taps" i (rw_tap p);
  rv_settings : forall p, In p (rw_phases w) -> setting num regs n "R" (rw_r p) /\ setting num regs n "X" (rw_x p) }.
Record reads_trans (int_ : string -> option Z) num source regs (d : data) (n : string) (bs : list (string * list string)) (conns : list string) (kvs xs : list R) (phases : Z) (t : rtrans) : Prop := {
  ry_name : rt_name t = lower n;
  ry_feeder : rt_feeder t = source;
  ry_from : exists b rest, bs = b :: rest /\ rt_from t = Some (fst b);
  ry_to : exists b c rest, bs = b :: c :: rest /\ rt_to t = Some (fst c);
  ry_loss : states num d "%loadloss" (rt_loss t);
  ry_norm : states num d "normhkVA" (rt_norm t);
  ry_noload : states num d "%noloadloss" (rt_noload t);
  ry_reacs : rt_reacs t = xs;
  ry_center : rt_center t = true <-> length bs = 3 /\ phases = 1%Z;
  ry_shift : exists z, shifted conns z /\ rt_shift t = Some z;
  ry_types : voltage_types kvs (map rw_type (rt_windings t));
  ry_count : length (rt_windings t) = length bs;
  ry_windings : forall i w, nth_error (rt_windings t) i = Some w -> reads_winding num regs d n bs conns kvs i w }.
Definition good_trans_report int_ num (x : string * data) : Prop := snd x "enabled" <> None /\ (enabled (snd x) = true -> exists n bs conns kvs xs ph, reports_trans int_ num (fst x) (snd x) n bs conns kvs xs ph).
Definition trans_read_of int_ num source regs (x : string * data) (t : rtrans) : Prop :=
  exists n bs conns kvs xs ph, reports_trans int_ num (fst x) (snd x) n bs conns kvs xs ph /\ reads_trans int_ num source regs (snd x) n bs conns kvs xs ph t.

(** ** What OpenDSS reports of a transformer of two windings that was written *)
Definition listed (e1 e2 : element) (d : data) (k K : string) : Prop := forall s1 s2, prop e1 k = Some s1 -> prop e2 k = Some s2 -> d K = Some (PList [s1; s2]).
Definition listed_numbers (num : string -> option R) (e1 e2 : element) (d : data) (k K : string) : Prop :=
  exists l1 l2, d K = Some (PList [l1; l2]) /\ (forall s r, prop e1 k = Some s -> num s = Some r -> num l1 = Some r) /\ (forall s r, prop e2 k = Some s -> num s = Some r -> num l2 = Some r).
Record engine_trans (num : string -> option R) (e : element) (d : data) : Prop := {
  et_on : d "enabled" = Some (PText "Yes");
  et_windings : same_text e d "windings" "windings";
  et_phases : same_text e d "phases" "phases";
  et_buses : listed (DssTransSpec.winding_of e 1) (DssTransSpec.winding_of e 2) d "bus" "buses";
  et_conns : listed (DssTransSpec.winding_of e 1) (DssTransSpec.winding_of e 2) d "conn" "conns";
  et_kvs : listed_numbers num (DssTransSpec.winding_of e 1) (DssTransSpec.winding_of e 2) d "kv" "kVs";
  et_kvas : listed_numbers num (DssTransSpec.winding_of e 1) (DssTransSpec.winding_of e 2) d "kva" "kVAs";
  et_rs : listed_numbers num (DssTransSpec.winding_of e 1) (DssTransSpec.winding_of e 2) d "%r" "%Rs";
  et_loss : passed num e d "%loadloss" "%loadloss"; et_noload : passed num e d "%noloadloss" "%noloadloss"; et_norm : passed num e d "normhkva" "normhkVA";
  et_x : forall s r, prop e "xhl" = Some s -> num s = Some r -> exists s' rest w, d "Xscarray" = Some (PList (s' :: rest)) /\ words s' = [w] /\ num w = Some r }.

(** a winding without ground whose phases are [ps]: all three, or others but not a delta with one *)
Definition clean (w : DssTransModel.winding) (ps : list string) : Prop :=
  DssTransModel.wd_ground w = false /\ map DssTransModel.pw_phase (DssTransModel.wd_phases w) = map Some ps /\
  (ps = ["A"; "B"; "C"] \/ (length ps <> 3 /\ ps <> [] /\ (forall p, In p ps -> In p ["A"; "B"; "C"]) /\ (DssTransModel.wd_conn w <> Some "D" \/ length ps <> 1))).
Definition connected (w : DssTransModel.winding) : Prop := DssTransModel.wd_conn w = Some "Y" \/ DssTransModel.wd_conn w = Some "D".
(** a transformer [t] that was written as [e] and is reported as [d] *)
Record written_trans (num : string -> option Q) (taps : bool) (t : DssTransModel.transformer) (n : string) (w1 w2 : DssTransModel.winding) (v1 v2 x : Q) (e : element) (d : data) : Prop := {
  wt_is : DssTransSpec.two_is num taps t e;
  wt_engine : engine_trans (real_of num) e d;
  wt_name : DssTransModel.tr_name t = Some n;
  wt_windings : DssTransModel.tr_windings t = [w1; w2];
  wt_from : DssTransModel.tr_from t <> None; wt_to : DssTransModel.tr_to t <> None;
  wt_conn1 : connected w1; wt_conn2 : connected w2;
  wt_v1 : DssTransModel.wd_v w1 = Some v1; wt_v2 : DssTransModel.wd_v w2 = Some v2;
  wt_reac : DssTransModel.tr_reac t = Some [x] }.
