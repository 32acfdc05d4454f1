From Verif Require Import Base StoreModel NetworkModel NetworkSpec VoltModel.
From Coq Require Import QArith.
Local Open Scope string_scope.
Local Open Scope nat_scope.
Local Open Scope list_scope.

(** The nearest transformer above [x] is named [t]. *)
Definition fed (es : list elem) (d : digraph) (x t : string) : Prop :=
  exists z y i, climbs_over es d x z /\ arc d y z /\ last_span es y z i /\ e_cls i = "PowerTransformer" /\ e_name i = Some (Some t).
Definition named_node (e : elem) (x : string) : Prop := e_cls e = "Node" /\ e_name e = Some (Some x).
(** Every named node is in the network, and above it there is only equipment with two ends. *)
Definition nodes_connected (es : list elem) (d : digraph) : Prop :=
  forall e x, In e es -> named_node e x -> In x (d_nodes d) /\
  forall y z, climbs_over es d x z -> arc d y z -> exists i, In i es /\ (spans i y z \/ spans i z y).
Definition have_windings (es : list elem) (windings : nat -> res (list (option Q))) : Prop :=
  forall i t p, In i es -> e_cls i = "PowerTransformer" -> e_name i = Some (Some t) -> bears es t p -> exists ws, windings p = Ok ws /\ ws <> [].
