(** Specification vocabulary for the JSON round trip. *)
From Verif Require Import Base JsonModel.
Local Open Scope string_scope.
Local Open Scope list_scope.

(** [v'] is what should come back for [v]: the same scalar, lists element by element, objects of
    the same class with the same attribute values. *)
Inductive faithful : pv -> pv -> Prop :=
| same_scalar s : faithful (PVal s) (PVal s)
| same_unicode s : faithful (PUni s) (PUni s)
| same_list l l' : Forall2 faithful l l' -> faithful (PList l) (PList l')
| same_object c l l' :
    (forall a v, dget l a = Some v -> exists v', dget l' a = Some v' /\ faithful v v') ->
    faithful (PObj c l) (PObj c l').

(** Numbers, strings and booleans. *)
Definition standard (s : scal) : Prop :=
  match s with SNone | SCplx _ _ | SOpaque _ => False | _ => True end.

(** A dictionary of attributes; "class" is not a trait of any class. *)
Definition attributes (l : list (string * pv)) : Prop := NoDup (map fst l) /\ ~ In "class" (map fst l).

Section Supported.
Variable dflt : string -> list (string * pv).

(** A simple attribute [a] of an object of class [c]: a standard value, or None where None is the
    default (None is not read back). *)
Definition simple (c a : string) (v : pv) : Prop :=
  (exists s, v = PVal s /\ standard s) \/ (v = PVal SNone /\ dget (dflt c) a = Some (PVal SNone)).

(** A nested object with simple attributes only. *)
Definition part (c : string) (l : list (string * pv)) : Prop :=
  attributes l /\ forall a v, In (a, v) l -> simple c a v.

(** A winding: simple attributes and a list of phase windings. *)
Definition winding_ok (l : list (string * pv)) : Prop :=
  attributes l /\
  forall a v, In (a, v) l ->
    (a <> "phase_windings" /\ simple "Winding" a v) \/
    (a = "phase_windings" /\ exists ps, v = PList ps /\
       forall p, In p ps -> exists pl, p = PObj "PhaseWinding" pl /\ part "PhaseWinding" pl).

(** An element of a list attribute. *)
Definition item_ok (v : pv) : Prop :=
  (exists a b, v = PVal (SCplx a b)) \/ (exists s, v = PUni (SText s)) \/
  (exists c l, v = PObj c l /\ In c ["Position"; "Wire"; "PhaseCapacitor"; "PhaseLoad"] /\ part c l) \/
  (exists l, v = PObj "Winding" l /\ winding_ok l).

(** An element of a matrix. *)
Definition cell_ok (v : pv) : Prop := exists s, v = PVal s /\ (standard s \/ exists a b, s = SCplx a b).

Definition attr_ok (c a : string) (v : pv) : Prop :=
  (In a ["capacitance_matrix"; "impedance_matrix"; "reactances"] /\
     exists l, v = PList l /\ forall x, In x l -> cell_ok x \/ exists r, x = PList r /\ forall y, In y r -> cell_ok y) \/
  (~ In a ["capacitance_matrix"; "impedance_matrix"; "reactances"] /\
     (simple c a v \/ (exists x y, v = PVal (SCplx x y)) \/ exists l, v = PList l /\ forall x, In x l -> item_ok x)).

(** Objects that exist only as parts of others. *)
Definition is_part (c : string) : Prop :=
  In c ["Winding"; "PhaseWinding"; "Wire"; "PhaseCapacitor"; "Position"; "PhaseLoad"].

Definition object_ok (o : string * list (string * pv)) : Prop :=
  (is_part (fst o) /\ (part (fst o) (snd o) \/ fst o = "Winding" /\ winding_ok (snd o)) /\
     forall a, In a ["capacitance_matrix"; "impedance_matrix"; "reactances"] -> ~ In a (map fst (snd o))) \/
  (In (fst o) ["PowerSource"; "Photovoltaic"; "Node"; "Line"; "PowerTransformer"; "Regulator"; "Load"; "Capacitor";
               "Feeder_metadata"; "Storage"; "PhaseStorage"] /\
   attributes (snd o) /\ forall a v, In (a, v) (snd o) -> attr_ok (fst o) a v).

(** What comes back for an object: the same class, faithful values for its attributes, the
    defaults for the others; the name of a nameless object becomes the text None. *)
Definition kept (o o' : string * list (string * pv)) : Prop :=
  fst o' = fst o /\ faithful (PObj (fst o) (snd o)) (PObj (fst o') (snd o')) /\
  (forall a, a <> "class" -> a <> "name" -> dget (snd o) a = None -> dget (snd o') a = dget (dflt (fst o)) a) /\
  (dget (snd o) "name" = None -> dget (snd o') "name" = Some (PVal (SText "None"))).
End Supported.

(** The objects that are not parts, in order. *)
Inductive whole : list (string * list (string * pv)) -> list (string * list (string * pv)) -> Prop :=
| whole_nil : whole [] []
| whole_part o m k : is_part (fst o) -> whole m k -> whole (o :: m) k
| whole_keep o m k : ~ is_part (fst o) -> whole m k -> whole (o :: m) (o :: k).
