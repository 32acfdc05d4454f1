(** Specification vocabulary for the structure modifier's voltages. *)
From Verif Require Import Base StoreModel NetworkModel NetworkSpec VoltModel.
From Coq Require Import QArith.
Local Open Scope string_scope.
Local Open Scope nat_scope.
Local Open Scope list_scope.

(** [s] is the name of a source bus of the model. *)
Definition bus_name (srcs : list source_obj) (n : option string) : Prop := exists x, In x srcs /\ s_bus x = true /\ s_name x = n.

(** The transformer feeding [x] from [s]: None if there is none on the way. *)
Inductive fed_by (es : list elem) (d : digraph) (s : string) : string -> option elem -> Prop :=
| fed_source : fed_by es d s s None
| fed_trafo y x o i : fed_by es d s y o -> arc d y x -> last_span es y x i -> e_cls i = "PowerTransformer" -> fed_by es d s x (Some i)
| fed_through y x o : fed_by es d s y o -> arc d y x ->
    (forall i, last_span es y x i -> e_cls i <> "PowerTransformer") -> fed_by es d s x o.

(** [w] is a smallest known winding voltage. *)
Definition smallest (ws : list (option Q)) (w : Q) : Prop := In (Some w) ws /\ forall x, In (Some x) ws -> (w <= x)%Q.

(** The voltage that a feeding transformer, or the source, gives. *)
Definition gives (es : list elem) (windings : nat -> res (list (option Q))) (v0 : Q) (o : option elem) (w : Q) : Prop :=
  match o with
  | None => w = v0
  | Some i => exists m p ws, e_name i = Some (Some m) /\ bears es m p /\ windings p = Ok ws /\ smallest ws w
  end.

(** The transformers of the network are objects with a known winding voltage. *)
Definition rated (es : list elem) (windings : nat -> res (list (option Q))) (i : elem) : Prop :=
  exists m p ws w, e_name i = Some (Some m) /\ bears es m p /\ windings p = Ok ws /\ In (Some w) ws.
