(** Specification vocabulary for missing coordinates. *)
From Verif Require Import Base StoreModel NetworkModel NetworkSpec CoordModel.
From Coq Require Import QArith.
Local Open Scope string_scope.
Local Open Scope nat_scope.
Local Open Scope list_scope.

Definition nonzero (c : option Q) : Prop := forall q, c = Some q -> ~ (q == 0)%Q.

(** The object at position [i] is located at [la], [lo]. *)
Definition located (ps : places) (i : nat) (la lo : option Q) : Prop :=
  exists rest, nth_error ps i = Some (Some (Some ((la, lo) :: rest))) /\ nonzero la /\ nonzero lo.

(** It can have positions. *)
Definition placeable (ps : places) (i : nat) : Prop := exists l, nth_error ps i = Some (Some l).

(** It can have positions and is not located. *)
Definition missing (ps : places) (i : nat) : Prop := placeable ps i /\ forall la lo, ~ located ps i la lo.

(** No two objects have the same name. *)
Definition unique_names (es : list elem) : Prop :=
  forall i j e e' x, nth_error es i = Some e -> nth_error es j = Some e' -> e_name e = Some (Some x) -> e_name e' = Some (Some x) -> i = j.

(** All known coordinates lie in the box. *)
Definition bounded (ps : places) (a b c d : Q) : Prop :=
  forall i la lo, located ps i la lo -> (forall q, la = Some q -> a <= q <= b)%Q /\ (forall q, lo = Some q -> c <= q <= d)%Q.

(** A chain of links from [u] to [v] over objects that can have positions. *)
Inductive chain (es : list elem) (ps : places) (u : string) : string -> Prop :=
| chain_here : chain es ps u u
| chain_next v w p : chain es ps u v -> linked es v w -> bears es w p -> placeable ps p -> chain es ps u w.
