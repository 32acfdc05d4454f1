From Coq Require Import List String Ascii Bool Arith ZArith Reals.
From Verif Require Import Base CymeMapSpec CymeParseModel CymeParseSpec CymeLoadSpec CymeVregModel.
Import ListNotations.
Local Open Scope string_scope.
Local Open Scope nat_scope.
Local Open Scope list_scope.

Section Spec.
Variable num : string -> option R.
Variable section_phase : list (string * CymeParseModel.record).
Variable section_feeder : list (string * string).
Variable equipment : list (string * CymeParseModel.record).
Notation record := CymeParseModel.record.

Definition cell_says (d : record) (k : string) (o : option R) : Prop := forall x, o = Some x <-> number num d k x.
(** The cells of the phase [p]. *)
Definition of_phase (a b c : string) (p k : string) : Prop := In (p, k) [("A", a); ("B", b); ("C", c)].
(** The set point of the phase. *)
Definition center_says (d : record) (p : string) (o : option R) : Prop := forall x, o = Some x <-> exists k, of_phase "vseta" "vsetb" "vsetc" p k /\ number num d k x.
(** The bandwidth of the equipment, in newer and older files. *)
Definition rated_bandwidth (q : record) (x : R) : Prop := number num q "forwardbandwidth" x \/ (dget q "forwardbandwidth" = None /\ number num q "bandwidth" x).
(** The bandwidth: that of the equipment; the setting of the phase C goes before it, the setting of the phase A counts
    if the equipment has none. *)
Inductive bandwidth_says (d q : record) (p : string) : option R -> Prop :=
| bandwidth_c x y : p = "C" -> rated_bandwidth q x -> number num d "bandwidthc" y -> bandwidth_says d q p (Some y)
| bandwidth_a y : p = "A" -> (forall x, ~ rated_bandwidth q x) -> number num d "bandwidtha" y -> bandwidth_says d q p (Some y)
| bandwidth_rated x : rated_bandwidth q x -> (p = "C" -> forall y, ~ number num d "bandwidthc" y) -> (p = "A" -> dget d "bandwidtha" = None \/ exists y, number num d "bandwidtha" y) -> bandwidth_says d q p (Some x)
| bandwidth_none : (forall x, ~ rated_bandwidth q x) -> (p = "A" -> forall y, ~ number num d "bandwidtha" y) -> bandwidth_says d q p None
| bandwidth_spoilt t : p = "A" -> dget d "bandwidtha" = Some t -> num t = None -> bandwidth_says d q p None.

Definition connection_says (d : record) (c : option string) : Prop :=
  (exists t z a n r, dget d "conn" = Some t /\ In (z, a, n, r) connection_table /\ spelt a n t /\ c = Some r) \/
  ((forall t z a n r, dget d "conn" = Some t -> In (z, a, n, r) connection_table -> ~ spelt a n t) /\ c = None).
Definition winding_says (d q : record) (p : string) (w : winding) : Prop :=
  (forall x, w_power w = Some x <-> exists y, number num q "kva" y /\ x = (y * 1000)%R) /\ connection_says d (w_connection w) /\ cell_says q "kvln" (w_voltage w) /\ w_phases w = [p].
(** The equipment, or nothing. *)
Definition equipment_says (d q : record) : Prop :=
  (exists i, dget d "eqid" = Some i /\ dget equipment i = Some q) \/ ((forall i, dget d "eqid" = Some i -> dget equipment i = None) /\ q = []).
Definition regulator_says (id : string) (s d q : record) (p : string) (g : regulator) : Prop :=
  g_name g = ("Reg_" ++ lower id ++ "_" ++ p)%string /\ dget section_feeder (lower id) = Some (g_feeder g) /\ g_from g = dget s "fromnodeid" /\ g_to g = dget s "tonodeid" /\ g_phase g = p /\
  cell_says d "pt" (g_pt g) /\ cell_says d "ct" (g_ct g) /\ center_says d p (g_center g) /\ bandwidth_says d q p (g_bandwidth g) /\
  exists w1 w2, g_windings g = [w1; w2] /\ winding_says d q p w1 /\ winding_says d q p w2.
(** One regulator for each letter of the phases that are on. *)
Definition setting_says (e : string * record) (gs : list regulator) : Prop :=
  exists id k s t q, fst e = (id ++ stars k)%string /\ bare id /\ dget section_phase (lower id) = Some s /\ dget (snd e) "phaseon" = Some t /\ equipment_says (snd e) q /\
    Forall2 (fun a g => regulator_says id s (snd e) q (String a "") g) (list_ascii_of_string t) gs.
(** Settings of a section that the network file describes. *)
Definition placed (e : string * record) : Prop :=
  exists id k s t o f, fst e = (id ++ stars k)%string /\ bare id /\ dget section_phase (lower id) = Some s /\ dget s "phase" = Some t /\ dget (snd e) "phaseon" = Some o /\ dget section_feeder (lower id) = Some f.
End Spec.
