(** Specification vocabulary for the base reader. *)
From Verif Require Import Base ReaderModel.
Local Open Scope string_scope.
Local Open Scope list_scope.

(** [v] is the value of [k] in the last dictionary that has [k]. *)
Definition last_value {V} (ds : list (list (string * V))) (k : string) (v : V) : Prop :=
  exists before d after, ds = before ++ d :: after /\ dget d k = Some v /\ forall e, In e after -> dget e k = None.

(** What a dictionary of dictionaries holds at a pair of keys. *)
Definition at2 {V} (h : heap V) (d : list (string * nat)) (k l : string) : option V :=
  match dget d k with Some r => match nth_error h r with Some e => dget e l | None => None end | None => None end.

(** Running parsers one after the other: the model left behind and the exception, if any. *)
Inductive in_order {M} : list (parser M) -> M -> M -> option exn -> Prop :=
| order_done m : in_order [] m m None
| order_next p ps m m1 m2 e : p m = (m1, None) -> in_order ps m1 m2 e -> in_order (p :: ps) m m2 e
| order_stop p ps m m1 e : p m = (m1, Some e) -> in_order (p :: ps) m m1 (Some e).

(** The default values documented for every object: attribute, section and key of the table. *)
Definition for_all : list (string * string * string) :=
  [("faultrate", "Line", "faultrate"); ("impedance_matrix", "Line", "rmatrix"); ("capacitance_matrix", "Line", "cmatrix");
   ("ampacity", "Wire", "ampacity"); ("emergency_ampacity", "Wire", "emergency_ampacity"); ("insulation_thickness", "Wire", "insulation_thickness");
   ("low", "Capacitor", "low"); ("high", "Capacitor", "high"); ("ct_ratio", "Capacitor", "ct_ratio"); ("pt_phase", "Capacitor", "pt_phase");
   ("ct_prim", "Regulator", "ct_prim"); ("highstep", "Regulator", "highstep"); ("bandwidth", "Regulator", "bandwidth");
   ("bandcenter", "Regulator", "bandcenter"); ("reactances", "Transformer", "reactances"); ("vmin", "Load", "vmin"); ("vmax", "Load", "vmax")].
(** ... and for the objects of one class, whose name is also the section. *)
Definition for_class : list (string * string) :=
  [("Capacitor", "connection_type"); ("Capacitor", "delay"); ("Capacitor", "pt_ratio");
   ("Regulator", "connection_type"); ("Regulator", "delay"); ("Regulator", "pt_ratio");
   ("Transformer", "connection_type"); ("Load", "connection_type")].
Definition listed (c a s k : string) : Prop := In (a, s, k) for_all \/ (In (c, a) for_class /\ s = c /\ k = a).

(** The entry of the table, None if absent. *)
Definition entry_of {V} (none : V) (t : list (string * list (string * V))) (s k : string) : V :=
  match dget t s with Some d => match dget d k with Some v => v | None => none end | None => none end.

(** Two dictionaries of dictionaries whose inner dictionaries are all different objects. *)
Definition separate {V} (h : heap V) (d1 d2 : list (string * nat)) : Prop :=
  NoDup (map fst (d1)) /\ NoDup (map fst d2) /\
  (forall k r, In (k, r) d1 \/ In (k, r) d2 -> r < length h) /\
  (forall k r k' r', In (k, r) d1 -> In (k', r') d2 -> r <> r') /\
  (forall k k' r, In (k, r) d1 -> In (k', r) d1 -> k = k') /\
  (forall k k' r, In (k, r) d2 -> In (k', r) d2 -> k = k') /\
  (forall r e, nth_error h r = Some e -> NoDup (map fst e)).

(** What one object becomes. *)
Definition defaulted (V : Type) (none : V) (cmatrix : V -> V) (zmatrix : V -> V -> res V) (flag : bool) (t : list (string * list (string * V))) (o o' : dobj V) : Prop :=
  d_class V o' = d_class V o /\
  (forall a, (forall s k, ~ listed (d_class V o) a s k) -> dget (d_attrs V o') a = dget (d_attrs V o) a) /\
  forall a s k, listed (d_class V o) a s k ->
    (flag = true -> dget (d_attrs V o') a = Some none) /\
    (flag = false -> (a <> "capacitance_matrix" /\ a <> "impedance_matrix" \/ dget (d_attrs V o) a = None) ->
       dget (d_attrs V o') a = Some (entry_of none t s k)) /\
    (flag = false -> a = "capacitance_matrix" -> dget (d_attrs V o) a <> None ->
       dget (d_attrs V o') a = Some (cmatrix (entry_of none t s k))) /\
    (flag = false -> a = "impedance_matrix" -> dget (d_attrs V o) a <> None ->
       exists z, zmatrix (entry_of none t s k) (entry_of none t s "xmatrix") = Ok z /\ dget (d_attrs V o') a = Some z).
