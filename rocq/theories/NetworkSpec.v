(** Specification vocabulary for the network: links between names, walks, distances, trees. *)
From Verif Require Import Base StoreModel StoreSpec NetworkModel.
Local Open Scope string_scope.
Local Open Scope nat_scope.
Local Open Scope list_scope.

(** Object [i] is a two-terminal object from [u] to [v]. *)
Definition spans (i : elem) (u v : string) : Prop := e_from i = Some u /\ e_to i = Some v.

(** Object [i], named [v], hangs on [u]. *)
Definition hangs (i : elem) (u v : string) : Prop := e_conn i = Some u /\ e_name i = Some (Some v).

(** Some object joins [u] and [v], in either direction. *)
Definition linked (es : list elem) (u v : string) : Prop :=
  exists i, In i es /\ (spans i u v \/ spans i v u \/ hangs i u v \/ hangs i v u).

(** [i] is the last two-terminal object of [es] between [u] and [v]. *)
Definition last_span (es : list elem) (u v : string) (i : elem) : Prop :=
  exists before after, es = before ++ i :: after /\ (spans i u v \/ spans i v u) /\
    forall j, In j after -> ~ spans j u v /\ ~ spans j v u.

(** The length of an object, 0 by default. *)
Definition length_or_zero (i : elem) : scalar :=
  match e_length i with Some l => l | None => SVal 0 end.

(** Every object that touches the network has a name. *)
Definition all_named (es : list elem) : Prop :=
  forall i, In i es -> (exists u v, spans i u v) \/ e_conn i <> None -> exists n, e_name i = Some (Some n).

(** Walks of a relation, with their length. *)
Inductive walk (R : string -> string -> Prop) : string -> string -> nat -> Prop :=
| walk_nil u : walk R u u 0
| walk_snoc u v w n : walk R u v n -> R v w -> walk R u w (S n).

Definition reach (R : string -> string -> Prop) (u v : string) : Prop := exists n, walk R u v n.

(** Length of a shortest walk. *)
Definition dist (R : string -> string -> Prop) (u v : string) (d : nat) : Prop :=
  walk R u v d /\ forall n, walk R u v n -> d <= n.

(** [u -> v] is an edge of the digraph. *)
Definition arc (d : digraph) (u v : string) : Prop := exists a, In (u, v, a) (d_edges d).

(** [arcs_tree d s]: every node has at most one predecessor, [s] has none, and every node of
    [d] is reached from [s]. *)
Definition arcs_tree (d : digraph) (s : string) : Prop :=
  (forall u u' v, arc d u v -> arc d u' v -> u = u') /\
  (forall u, ~ arc d u s) /\
  (forall u v, arc d u v -> reach (arc d) s u).

(** From [x] one climbs to [z] against the arcs, over equipment that is not a transformer. *)
Inductive climbs (d : digraph) : string -> string -> Prop :=
| climb_here x : climbs d x x
| climb_up x y z a : In (y, x, Some a) (d_edges d) -> ea_cls a <> "PowerTransformer" ->
    climbs d y z -> climbs d x z.

(** The last object of the model with the name [x] is at position [p]. *)
Definition bears (es : list elem) (x : string) (p : nat) : Prop :=
  (exists i, nth_error es p = Some i /\ e_name i = Some (Some x)) /\
  (forall q i, nth_error es q = Some i -> e_name i = Some (Some x) -> q <= p).

(** [x] names something downstream of [src]: an end of an arc below it, or its equipment. *)
Definition downstream_name (es : list elem) (d : digraph) (src : string) (x : string) : Prop :=
  exists u v, reach (arc d) src u /\ arc d u v /\
    (x = u \/ x = v \/ exists i, last_span es u v i /\ e_name i = Some (Some x)).

(** The object [i] with its ends exchanged. *)
Definition swapped (i i' : elem) : Prop :=
  exists u v, spans i u v /\
    i' = mkElem (e_cls i) (e_name i) (Some v) (Some u) (e_conn i) (e_length i) (e_switch i) (e_wires i).

(** What remove_open_switches takes for an open switching line from [u] to [v]: the class has
    is_switch, the flag "is_switch or is_breaker" is not None, and no wire is known to be closed. *)
Definition taken_as_open (i : elem) (u v : string) : Prop :=
  spans i u v /\
  (exists sw br, e_switch i = Some (sw, br) /\ (sw = Some true \/ br <> None)) /\
  exists ws, e_wires i = Some ws /\ ws <> [] /\ ~ In (Some false) ws.

(** A line that is a switch or breaker and whose wires are all open. *)
Definition really_open (i : elem) (u v : string) : Prop :=
  spans i u v /\
  (exists sw br, e_switch i = Some (sw, br) /\ (sw = Some true \/ br = Some true)) /\
  exists ws, e_wires i = Some ws /\ ws <> [] /\ forall w, In w ws -> w = Some true.

(** The list [c] is a closed walk of the digraph: each node has an arc to the next, the last one
    to the first. *)
Fixpoint chain (d : digraph) (x : string) (l : list string) : Prop :=
  match l with
  | [] => True
  | y :: t => arc d x y /\ chain d y t
  end.
Definition cycle_of (d : digraph) (c : list string) : Prop :=
  match c with
  | [] => False
  | x :: t => chain d x (t ++ [x])
  end.

(** An object is swapped exactly when the tree goes over its ends in the opposite direction only. *)
Definition opposed (d : digraph) (i : elem) : Prop :=
  exists u v, spans i u v /\ arc d v u /\ ~ arc d u v.

(** TypeError: a line with a switch flag whose wires are None. *)
Definition wires_none (m : elem) : Prop :=
  e_wires m = None /\ (exists sw br, e_switch m = Some (sw, br) /\ (sw = Some true \/ br <> None)) /\
  exists u v, spans m u v.

Definition open_pair (es : list elem) (u v : string) : Prop :=
  exists i, In i es /\ (taken_as_open i u v \/ taken_as_open i v u).

(** Names are strings or None. *)
Definition string_names (h : heap) : Prop :=
  forall o k, named h o k -> k = None \/ exists n, k = Some (SStr n).

Definition node_obj (h : heap) (o : oid) : Prop := exists ob, nth_error h o = Some ob /\ cls ob = "Node".

(** What is removed: named nodes outside the network with their parts, and nodes named None. *)
Definition doomed (h : heap) (g : graph) (l : list oid) (x : oid) : Prop :=
  (exists o n, In o l /\ node_obj h o /\ named h o (Some (SStr n)) /\ ~ In n (g_nodes g) /\ part_of h o x) \/
  (In x l /\ node_obj h x /\ named h x None).

(** Every registered node owns its parts: they form a registered tree, shared with no other node. *)
Definition nodes_own_parts (h : heap) (l : list oid) : Prop :=
  (forall o, In o l -> node_obj h o -> exists t, tree_of h o t /\ NoDup t /\ incl t l) /\
  (forall o o' x, In o l -> In o' l -> o <> o' -> node_obj h o -> node_obj h o' ->
     part_of h o x -> ~ part_of h o' x).

(** The same climb in terms of the objects of the model: every arc on the way carries a
    two-terminal object that is not a PowerTransformer. *)
Inductive climbs_over (es : list elem) (d : digraph) : string -> string -> Prop :=
| over_here x : climbs_over es d x x
| over_up x y z i : arc d y x -> last_span es y x i -> e_cls i <> "PowerTransformer" ->
    climbs_over es d y z -> climbs_over es d x z.
