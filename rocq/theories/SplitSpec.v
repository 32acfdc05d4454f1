(** Specification vocabulary for the networks of the feeders. *)
From Verif Require Import Base StoreModel NetworkModel NetworkSpec ConsistencySpec SplitModel.
Local Open Scope string_scope.
Local Open Scope nat_scope.
Local Open Scope list_scope.

(** [x] is a node of the network. *)
Definition node (es : list elem) (x : string) : Prop := exists y, linked es x y.

(** A link between two members of [l]. *)
Definition inside (es : list elem) (l : list string) (u v : string) : Prop := linked es u v /\ In u l /\ In v l.

(** The nodes in [l], at least one, are connected with each other by links inside [l]. *)
Definition whole (es : list elem) (l : list string) : Prop :=
  (exists x, In x l /\ node es x) /\
  forall x y, In x l -> node es x -> In y l -> node es y -> reach (inside es l) x y.

(** [l'] is [l] completed by shortest paths: as long as two nodes in the list are not connected inside it, the nodes
    of a shortest path between them are added at the end. *)
Inductive completed (es : list elem) : list string -> list string -> Prop :=
| completed_here l : completed es l l
| completed_path l a b p more l' :
    In a l -> node es a -> In b l -> node es b -> ~ reach (inside es l) a b -> shortest_route (linked es) a b p ->
    NoDup more -> (forall x, In x more <-> In x p /\ ~ In x l) -> completed es (l ++ more) l' -> completed es l l'.

(** The nodes in [l], at least one, are connected with each other in the network. *)
Definition joinable (es : list elem) (l : list string) : Prop :=
  (exists x, In x l /\ node es x) /\
  forall x y, In x l -> node es x -> In y l -> node es y -> reach (linked es) x y.

(** [pick] takes two nodes of different components, if there are some. *)
Definition picks_apart (es : list elem) (g : graph) (pick : graph -> string * string) : Prop :=
  forall l x y, In x l -> node es x -> In y l -> node es y -> ~ reach (inside es l) x y ->
    exists a b, pick (subgraph g l) = (a, b) /\ In a l /\ node es a /\ In b l /\ node es b /\ ~ reach (inside es l) a b.

(** [path] finds shortest paths. *)
Definition finds_paths (es : list elem) (path : string -> string -> list string) : Prop :=
  forall x y, node es x -> reach (linked es) x y -> shortest_route (linked es) x y (path x y).
