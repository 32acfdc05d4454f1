(** Specification vocabulary for feeders. *)
From Verif Require Import Base StoreModel NetworkModel NetworkSpec FeederModel.
Local Open Scope string_scope.
Local Open Scope nat_scope.
Local Open Scope list_scope.

(** The object at [p] is below the end [t] of a substation. *)
Definition under (es : list elem) (n : network) (t : string) (p : nat) : Prop :=
  exists x, downstream_name es (net_di n) t x /\ bears es x p.

Definition flagged (ts : list tags) (p : nat) : Prop := exists t, nth_error ts p = Some t /\ t_issub t = Some (Some true).

(** The object at [i], named [nm], is a substation transformer ending in [t]. *)
Definition substation (es : list elem) (ts : list tags) (i : nat) (nm t : string) : Prop :=
  flagged ts i /\ exists e, nth_error es i = Some e /\ e_cls e = "PowerTransformer" /\ e_name e = Some (Some nm) /\ e_to e = Some t.

(** With nothing flagged as a substation below it. *)
Definition lowest (es : list elem) (n : network) (ts : list tags) (i : nat) (nm t : string) : Prop :=
  substation es ts i nm t /\ forall p, under es n t p -> ~ flagged ts p.

(** A name that counts as set. *)
Definition filled (x : option (option string)) : Prop := exists s, x = Some (Some s) /\ s <> "".
Definition blank (x : option (option string)) : Prop := x = Some None \/ x = Some (Some "").

(** Substation transformers have a name and an end that is a node. *)
Definition proper (es : list elem) (n : network) (ts : list tags) : Prop :=
  forall i e, nth_error es i = Some e -> e_cls e = "PowerTransformer" -> flagged ts i ->
    (exists nm, e_name e = Some (Some nm) /\ nm <> "") /\
    exists t, e_to e = Some t /\ In t (d_nodes (net_di n)) /\ forall x, downstream_name es (net_di n) t x -> exists p, bears es x p.
