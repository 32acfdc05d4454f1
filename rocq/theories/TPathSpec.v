From Coq Require Import List String Bool Arith.
From Verif Require Import Base TPathModel.
Import ListNotations.
Local Open Scope string_scope.
Local Open Scope nat_scope.
Local Open Scope list_scope.

Definition a_transformer (e : element) : Prop := e_equipment e = "PowerTransformer" /\ e_substation e = false.
(** [x] and [y] follow each other on the path. *)
Definition adjacent (p : list string) (x y : string) : Prop := exists a b, p = a ++ x :: y :: b.
(** The only transformer, without those of substations, between the source and the load at [c] is named [t]: it joins
    [u], which the path [above] leads to, and [w], from which the path [below] leads on. *)
Definition sole (n : net) (c t : string) (above : list string) (u w : string) (below : list string) : Prop :=
  dget (n_paths n) c = Some (above ++ u :: w :: below) /\
  (exists e, n_edge n u w = Some e /\ a_transformer e /\ e_name e = t) /\
  (forall x y e, adjacent (above ++ [u]) x y \/ adjacent (w :: below) x y -> n_edge n x y = Some e -> ~ a_transformer e).
(** There is no transformer of a substation below. *)
Definition clear (n : net) (p : list string) : Prop := forall x y e, adjacent p x y -> n_edge n x y = Some e -> e_equipment e <> "PowerTransformer".
Definition undirected (n : net) : Prop := forall x y, n_edge n x y = n_edge n y x.
(** A line on the path whose phases, without the neutral one, are [p] only. *)
Definition single_line (n : net) (x y : string) (p : option string) : Prop :=
  exists e, n_edge n x y = Some e /\ e_equipment e = "Line" /\ p <> Some "N" /\ In p (e_wires e) /\ forall q, In q (e_wires e) -> q = p \/ q = Some "N".

(** The same but for the ends, which may be swapped, and the phase of the first winding. *)
Definition same_ends (a b : transformer) : Prop := t_from b = t_from a /\ t_to b = t_to a.
Definition swapped (a b : transformer) : Prop := t_from b = t_to a /\ t_to b = t_from a.
Inductive same_windings : list (list (option string)) -> list (list (option string)) -> Prop :=
| same_all w : same_windings w w
| same_but_first p q r w : same_windings ((p :: r) :: w) ((q :: r) :: w).
Definition related (a b : transformer) : Prop := (same_ends a b \/ swapped a b) /\ same_windings (t_windings a) (t_windings b).
