(** Specification vocabulary for the phases of secondary windings. *)
From Verif Require Import Base StoreModel NetworkModel NetworkSpec CenterTapSpec TerminalModel.
From Coq Require Import Sorted.
Local Open Scope string_scope.
Local Open Scope nat_scope.
Local Open Scope list_scope.

(** The object at position [i] is a load and [t] the first transformer above it. *)
Definition supplied_by (es : list elem) (d : digraph) (t : elem) (i : nat) : Prop :=
  exists e c, nth_error es i = Some e /\ e_cls e = "Load" /\ e_conn e = Some c /\ feeds es d c t.

(** The phases of the loads behind [t], in the order of the model. *)
Definition behind_phases (es : list elem) (d : digraph) (lp : load_phases) (t : elem) (phs : list (list phase)) : Prop :=
  exists idx, StronglySorted lt idx /\ (forall i, In i idx <-> supplied_by es d t i) /\
    Forall2 (fun i l => nth_error lp i = Some (Some l)) idx phs.

(** [new] are the phases [old] of a secondary winding after the loads [phs] were matched one after the other, where
    every load first adds [grow] empty phase windings: each phase is the one of the last load that reaches it. *)
Definition matched (grow : nat) (phs : list (list phase)) (old new : list phase) : Prop :=
  length new = length old + grow * length phs /\
  forall j x, nth_error new j = Some x ->
    (exists a l b, phs = a ++ l :: b /\ j < length old + grow * S (length a) /\ nth_error l j = Some x /\ Forall (fun k => length k <= j) b) \/
    (x = nth j old None /\ forall a l b, phs = a ++ l :: b -> length l <= j \/ length old + grow * S (length a) <= j).

(** The windings [w] of a transformer became [w'] for the loads [phs] behind it. *)
Definition recoiled (phs : list (list phase)) (w w' : list coils) : Prop :=
  (exists a b b', w = [a; Some b] /\ w' = [a; Some b'] /\ matched 0 phs b b') \/
  (exists a b b' c, w = [a; Some b; c] /\ w' = [a; Some b'; c] /\ matched 1 phs b b') \/
  (length w <> 2 /\ length w <> 3 /\ w' = w).

(** The windings of a transformer that feeds a load can be read. *)
Definition readable (w : list coils) : Prop := (length w = 2 \/ length w = 3) -> exists b, nth_error w 1 = Some (Some b).
