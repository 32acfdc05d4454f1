(** Specification vocabulary for the feeder and substation of every object. *)
From Verif Require Import Base StoreModel NetworkModel NetworkSpec.
Local Open Scope string_scope.
Local Open Scope nat_scope.
Local Open Scope list_scope.

(** [y] is the first node with a feeder when one climbs from [x] (included). *)
Inductive nearest (d : digraph) (m : dict string) : string -> string -> Prop :=
| nearest_here x : dget m x <> None -> nearest d m x x
| nearest_up x z y : dget m x = None -> arc d z x -> nearest d m z y -> nearest d m x y.

(** The node that an object belongs to: itself, the one it is connected to or the one it starts from. *)
Definition sits_at (e : elem) (x : string) : Prop :=
  (e_cls e = "Node" /\ e_name e = Some (Some x)) \/
  (In (e_cls e) ["Capacitor"; "Generator"; "Load"; "Photovoltaic"; "Storage"] /\ e_conn e = Some x) \/
  (In (e_cls e) ["Line"; "PowerTransformer"; "Reactor"; "Regulator"] /\ e_from e = Some x).

Definition taggable (e : elem) : Prop :=
  In (e_cls e) ["Node"; "Capacitor"; "Generator"; "Load"; "Photovoltaic"; "Storage"; "Line"; "PowerTransformer"; "Reactor"; "Regulator"].

Definition has_series (e : elem) : Prop := In (e_cls e) ["Capacitor"; "Generator"; "Load"; "Photovoltaic"; "Storage"].

(** Every node of the network with something below it is an object, of class Node if it has a feeder. *)
Definition nodes_exist (es : list elem) (d : digraph) (m : dict string) : Prop :=
  forall x y, arc d x y -> exists e, In e es /\ e_name e = Some (Some x) /\ (dget m x <> None -> e_cls e = "Node").
