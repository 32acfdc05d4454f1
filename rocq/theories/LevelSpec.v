(** Specification vocabulary for the voltage levels of a network. *)
From Verif Require Import Base StoreModel NetworkModel NetworkSpec VoltModel VoltSpec.
From Coq Require Import QArith.
Local Open Scope string_scope.
Local Open Scope nat_scope.
Local Open Scope list_scope.

(** [u] and [v] are joined, and not by a transformer. *)
Definition joined (es : list elem) (u v : string) : Prop :=
  linked es u v /\ forall i, last_span es u v i -> e_cls i <> "PowerTransformer".

(** [u] and [v] are on the same voltage level: one gets from one to the other without crossing a transformer. *)
Definition same_level (es : list elem) : string -> string -> Prop := reach (joined es).

(** The network has no loop: every connection is an arc of the tree. *)
Definition radial (es : list elem) (d : digraph) : Prop :=
  forall u v, linked es u v -> u <> v -> arc d u v \/ arc d v u.

(** [x] is an end of some connection, or a name that hangs on one. *)
Definition on_network (es : list elem) (x : string) : Prop := exists y, linked es x y.

(** The object called [x] is a [c]. *)
Definition names_a (es : list elem) (c x : string) : Prop := exists p e, bears es x p /\ nth_error es p = Some e /\ e_cls e = c.

(** What is known about the secondary side of a feeding transformer: the smallest voltage of its windings;
    nothing without a transformer or without windings. *)
Definition secondary_volt (es : list elem) (windings : nat -> res (list (option Q))) (o : option elem) (w : option Q) : Prop :=
  match o with
  | None => w = None
  | Some i => exists m p, e_name i = Some (Some m) /\ bears es m p /\
      match windings p with Ok ws => exists q, smallest ws q /\ w = Some q | Err _ => w = None end
  end.
Definition feeder_name (o : option elem) (t : option string) : Prop :=
  match o with None => t = None | Some i => e_name i = Some t end.

(** One name of each level is left out, and with it names that are no Nodes. *)
Definition one_per_level (es : list elem) (left : list string) : Prop :=
  (forall x, In x left -> on_network es x) /\
  (forall x, on_network es x -> exists y, In y left /\ same_level es x y /\ names_a es "Node" y) /\
  (forall x y, In x left -> In y left -> names_a es "Node" x -> names_a es "Node" y -> same_level es x y -> x = y).
