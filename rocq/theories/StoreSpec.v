(** Specification vocabulary for the store and the Modifier: what it means to carry a
    name, to be a part of an object, to be a copy.  Only the data types of StoreModel are
    used here, none of its functions. *)
From Verif Require Import Base StoreModel.
Local Open Scope string_scope.
Local Open Scope nat_scope.
Local Open Scope list_scope.

(** Object [o] has the attribute [name] with value [k]. *)
Definition named (h : heap) (o : oid) (k : key) : Prop :=
  exists ob, nth_error h o = Some ob /\ dget (attrs ob) "name" = Some (Scal k).

(** [o] is the most recently registered object of the list [l] with name [k]. *)
Definition last_named (h : heap) (l : list oid) (k : key) (o : oid) : Prop :=
  exists before after,
    l = before ++ o :: after /\ named h o k /\ forall o', In o' after -> ~ named h o' k.

(** The elements that are sub-objects of an object: the elements of its lists, except the
    four attributes that hold plain values. *)
Definition plain_list (a : string) : Prop :=
  a = "reactances" \/ a = "phases" \/ a = "impedance_matrix" \/ a = "capacitance_matrix".

Definition has_elt (ob : obj) (e : elt) : Prop :=
  exists a l, In (a, Lst (Some l)) (attrs ob) /\ ~ plain_list a /\ In e l.

(** [part_of h o x]: [x] is [o] or a sub-object of a part of [o], at any depth. *)
Inductive part_of (h : heap) : oid -> oid -> Prop :=
| part_self o : part_of h o o
| part_sub o ob o' x :
    nth_error h o = Some ob -> has_elt ob (EObj o') -> part_of h o' x -> part_of h o x.

(** Python references are always valid. *)
Definition closed_heap (h : heap) : Prop :=
  forall o ob a l o', nth_error h o = Some ob -> In (a, Lst (Some l)) (attrs ob) ->
                      In (EObj o') l -> o' < length h.

(** A class does not declare an attribute twice. *)
Definition wf_heap (h : heap) : Prop :=
  closed_heap h /\
  forall o ob, nth_error h o = Some ob -> NoDup (map fst (attrs ob)).

Definition wf_store (h : heap) (s : store) : Prop :=
  NoDup (elems s) /\ forall o, In o (elems s) -> o < length h.

(** The sub-objects of [ob], attribute by attribute. *)
Definition sub_elts (ob : obj) : list elt :=
  flat_map (fun p => match snd p with
                     | Lst (Some l) =>
                       if smem (fst p) ["reactances"; "phases"; "impedance_matrix"; "capacitance_matrix"]
                       then [] else l
                     | _ => []
                     end) (attrs ob).

(** [tree_of h o l]: the parts of [o] form a finite tree; [l] lists the nodes of that tree,
    children before their parent (an object that is reached twice is listed twice). *)
Inductive tree_of (h : heap) : oid -> list oid -> Prop :=
| tree_node o ob l :
    nth_error h o = Some ob -> forest_of h (sub_elts ob) l -> tree_of h o (l ++ [o])
with forest_of (h : heap) : list elt -> list oid -> Prop :=
| forest_nil : forest_of h [] []
| forest_cons o t l1 l2 :
    tree_of h o l1 -> forest_of h t l2 -> forest_of h (EObj o :: t) (l1 ++ l2).

(** [copy_of h h' o o']: object [o'] of [h'] is a deep copy of object [o] of [h]:
    same class, same attributes in the same order, scalars and plain lists equal,
    sub-objects again copies of each other. *)
Inductive copy_of (h h' : heap) : oid -> oid -> Prop :=
| copy_obj o ob o' ob' :
    nth_error h o = Some ob -> nth_error h' o' = Some ob' -> cls ob' = cls ob ->
    attrs_copy h h' (attrs ob) (attrs ob') -> copy_of h h' o o'
with attrs_copy (h h' : heap) : list (string * attr) -> list (string * attr) -> Prop :=
| ac_nil : attrs_copy h h' [] []
| ac_scal a v t t' : attrs_copy h h' t t' -> attrs_copy h h' ((a, Scal v) :: t) ((a, Scal v) :: t')
| ac_none a t t' : attrs_copy h h' t t' -> attrs_copy h h' ((a, Lst None) :: t) ((a, Lst None) :: t')
| ac_plain a l t t' : plain_list a -> attrs_copy h h' t t' ->
    attrs_copy h h' ((a, Lst (Some l)) :: t) ((a, Lst (Some l)) :: t')
| ac_list a l l' t t' : ~ plain_list a -> elts_copy h h' l l' -> attrs_copy h h' t t' ->
    attrs_copy h h' ((a, Lst (Some l)) :: t) ((a, Lst (Some l')) :: t')
with elts_copy (h h' : heap) : list elt -> list elt -> Prop :=
| ec_nil : elts_copy h h' [] []
| ec_cons o o' t t' : copy_of h h' o o' -> elts_copy h h' t t' ->
    elts_copy h h' (EObj o :: t) (EObj o' :: t').

(** ** Histories of store operations ([op] is defined in StoreModel.v) *)

(** Number of objects created by a history; the n-th created object has identity n. *)
Fixpoint created (ops : list op) : nat :=
  match ops with
  | [] => 0
  | OCreate _ :: t => S (created t)
  | _ :: t => created t
  end.

(** Object [o] is created in the history and not removed afterwards. *)
Definition alive (ops : list op) (o : oid) : Prop :=
  exists before ob after,
    ops = before ++ OCreate ob :: after /\ created before = o /\ ~ In (ORemove o) after.

(** Sub-objects carry no name: in /repo/ditto/models the classes used inside lists
    (Position, Winding, PhaseWinding, PhaseLoad, PhaseCapacitor, ... , Wire) declare none. *)
Definition unnamed_parts (h : heap) : Prop :=
  forall o ob o' k, nth_error h o = Some ob -> has_elt ob (EObj o') -> ~ named h o' k.

(** Registered objects exist. *)
Definition registered (h : heap) (s : store) : Prop := forall o, In o (elems s) -> o < length h.

(** The objects of model 1 selected by a two-model operation: [o1] is what a name of
    model 2 means in model 1. *)
Definition common (h : heap) (l1 l2 : list oid) (k : key) (o1 o2 : oid) : Prop :=
  last_named h l1 k o1 /\ last_named h l2 k o2.

(** The merge rule for one scalar attribute: [c1] in model 1, [c2] in model 2. *)
Definition merged_value (overwrite : bool) (c1 c2 : option scalar) : option scalar :=
  match c2, c1 with
  | None, _ => c1
  | Some v, None => Some v
  | Some v, Some x => if overwrite then Some v else Some x
  end.

(** Object [o] has the attribute [a] with value [v]. *)
Definition has_attr (h : heap) (o : oid) (a : string) (v : attr) : Prop :=
  exists ob, nth_error h o = Some ob /\ dget (attrs ob) a = Some v.

(** No object with a name is an element of a list of another object. *)
Definition unnamed_elements (h : heap) : Prop :=
  forall o ob a l e k, nth_error h o = Some ob -> In (a, Lst (Some l)) (attrs ob) ->
                       In (EObj e) l -> ~ named h e k.

(** Classes declare an attribute at most once. *)
Definition unique_attrs (h : heap) : Prop :=
  forall o ob, nth_error h o = Some ob -> NoDup (map fst (attrs ob)).

(** Two models share no named object. *)
Definition separate (h : heap) (l1 l2 : list oid) : Prop :=
  forall o k, In o l1 -> In o l2 -> ~ named h o k.

(** ** Merging per-phase sub-objects *)

(** [x] is [y] or an element, at any depth, of a list of [y]. *)
Inductive within (h : heap) : oid -> oid -> Prop :=
| within_refl y : within h y y
| within_step y ob b l z x :
    nth_error h y = Some ob -> In (b, Lst (Some l)) (attrs ob) -> In (EObj z) l ->
    within h z x -> within h y x.

(** An object without list attributes (PhaseLoad, PhaseCapacitor, Wire, ...). *)
Definition leaf (h : heap) (o : oid) : Prop :=
  exists ob, nth_error h o = Some ob /\ forall a v, In (a, v) (attrs ob) -> exists c, v = Scal c.

Definition phase_of (h : heap) (o : oid) (p : string) : Prop :=
  has_attr h o "phase" (Scal (Some (SStr p))).

(** Position of a phase in the order A, B, C, N. *)
Definition rank (p : string) : option nat :=
  match p with "A" => Some 0 | "B" => Some 1 | "C" => Some 2 | "N" => Some 3 | _ => None end%string.

(** A list of leaf sub-objects, one per phase. *)
Definition phase_list (h : heap) (l : list oid) : Prop :=
  NoDup l /\
  (forall x, In x l -> leaf h x /\ exists p n, phase_of h x p /\ rank p = Some n) /\
  (forall x y p, In x l -> In y l -> phase_of h x p -> phase_of h y p -> x = y).

(** The other lists of [o1] and [o2] do not lead to the objects in [xs]. *)
Definition apart (h : heap) (o1 o2 : oid) (a : string) (xs : list oid) : Prop :=
  forall o ob b l z x,
    o = o1 \/ o = o2 -> nth_error h o = Some ob -> b <> a -> In (b, Lst (Some l)) (attrs ob) ->
    In (EObj z) l -> In x xs -> ~ within h z x.

(** Some element of [l] has phase [p]. *)
Definition has_phase (h : heap) (l : list oid) (p : string) : Prop :=
  exists x, In x l /\ phase_of h x p.

(** Some element of [l] has a phase that comes after [p]. *)
Definition has_later_phase (h : heap) (l : list oid) (p : string) : Prop :=
  exists x q i j, In x l /\ phase_of h x q /\ rank p = Some i /\ rank q = Some j /\ i < j.
