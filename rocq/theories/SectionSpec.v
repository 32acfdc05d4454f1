From Coq Require Import List String Bool Arith QArith Permutation Sorted.
From Verif Require Import Base SectionModel.
Import ListNotations.
Local Open Scope string_scope.
Local Open Scope nat_scope.
Local Open Scope list_scope.

(** The place of a class in the chain; None: no connector. *)
Definition rank (c : string) : option nat :=
  if String.eqb c "Regulator" then Some 0
  else if String.eqb c "PowerTransformer" then Some 1
  else if String.eqb c "Line" then Some 2 else None.
Definition connects (c : string) : Prop := rank c <> None.
Definition hung (c : string) : Prop := c = "Load" \/ c = "Storage" \/ c = "Capacitor".

Definition cls (l : list element) (p : nat) : string := el_cls (el_at l p).

(** Every connector of the section runs from [f] to [t] (read.py creates them so), and there is one. *)
Definition shared_ends (l : list element) (sec : list nat) (f t : string) : Prop :=
  (exists p, In p sec /\ connects (cls l p)) /\
  forall p, In p sec -> connects (cls l p) -> el_from (el_at l p) = Some f /\ el_to (el_at l p) = Some t.

(** [cs]: the connectors of the section, regulators before transformers before lines. *)
Definition in_order (l : list element) (sec cs : list nat) : Prop :=
  NoDup cs /\ (forall p, In p cs <-> In p sec /\ connects (cls l p)) /\
  forall i j p q a b, i < j -> nth_error cs i = Some p -> nth_error cs j = Some q ->
    rank (cls l p) = Some a -> rank (cls l q) = Some b -> a <= b.

(** The section of [old] is in [new] a chain from [f] to [t] over the nodes [ms], the loads, storages and
    capacitors hang on [t], and nothing else of it changed. *)
Definition in_series (old new : list element) (sec : list nat) (f t : string) (ms : list string) : Prop :=
  (exists cs, in_order old sec cs /\ length cs = S (length ms) /\
     forall k p, nth_error cs k = Some p ->
       el_at new p = mkElement (cls old p) (nth_error (f :: ms) k) (nth_error (ms ++ [t]) k) (el_conn (el_at old p))) /\
  (forall p, In p sec -> hung (cls old p) ->
     el_at new p = mkElement (cls old p) (el_from (el_at old p)) (el_to (el_at old p)) (Some t)) /\
  (forall p, In p sec -> ~ connects (cls old p) -> ~ hung (cls old p) -> el_at new p = el_at old p).

(** What happens to a section; [ps]: the positions of the node at its beginning; [ns]: the new nodes. *)
Definition section_fixed (positions : string -> res (option (list point))) (old new : list element) (sec : list nat)
  (ns : list node) : Prop :=
  (1 < length sec /\ exists f t ps ms, shared_ends old sec f t /\ positions f = Ok ps /\
     in_series old new sec f t ms /\ ns = map (fun m => (m, ps)) ms) \/
  ((length sec <= 1 \/ forall p, In p sec -> ~ connects (cls old p)) /\ ns = [] /\
   forall p, In p sec -> el_at new p = el_at old p).

(** Number of regulators. *)
Definition regulators (l : list element) (sec : list nat) : nat :=
  length (filter (fun p => String.eqb (cls l p) "Regulator") sec).
