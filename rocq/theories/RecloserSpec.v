From Verif Require Import Base StoreModel NetworkModel NetworkSpec VoltModel RecloserModel.
From Coq Require Import QArith.
Local Open Scope string_scope.
Local Open Scope nat_scope.
Local Open Scope list_scope.

(** The object at [p] is a switch whose first wire is not open. *)
Definition closed (st : list robj) (p : nat) : Prop :=
  exists o w ws, nth_error st p = Some o /\ r_switch o = Some (Some true) /\ r_wires o = Some (Some (w :: ws)) /\ w <> Some true.
(** [q] is the [k]-th closed switch of a list of objects. *)
Inductive nth_closed (st : list robj) : nat -> list nat -> nat -> Prop :=
| closed_here p l : closed st p -> nth_closed st 1 (p :: l) p
| closed_later k p l q : closed st p -> nth_closed st k l q -> nth_closed st (S k) (p :: l) q
| closed_skip k p l q : ~ closed st p -> nth_closed st k l q -> nth_closed st k (p :: l) q.

(** The objects met on the way down from [h], always to the first successor.  [last] is the object met
    before [h]: it is met again where the way goes over a connection that is no object. *)
Inductive meets (es : list elem) (d : digraph) : option nat -> string -> list nat -> Prop :=
| meets_end last h : (forall c, ~ arc d h c) -> meets es d last h []
| meets_object last h c cs i m p l : successors d h = c :: cs -> last_span es h c i -> e_name i = Some (Some m) -> bears es m p ->
    meets es d (Some p) c l -> meets es d last h (p :: l)
| meets_again h c cs p l : successors d h = c :: cs -> (forall i, ~ last_span es h c i) -> meets es d (Some p) c l -> meets es d (Some p) h (p :: l)
| meets_nothing h c cs : successors d h = c :: cs -> (forall i, ~ last_span es h c i) -> meets es d None h [].

(** [st'] is [st] with the switch [p] made a recloser. *)
Definition becomes_recloser (st : list robj) (p : nat) (st' : list robj) : Prop :=
  length st' = length st /\ (forall q, q <> p -> nth_error st' q = nth_error st q) /\
  exists o, nth_error st p = Some o /\ nth_error st' p = Some (mkRobj (r_head o) (r_volt o) (Some (Some false)) (r_wires o) (Some (Some true))).

(** One feeder: the [k]-th closed switch on the way down from [h] is replaced; with fewer switches nothing is. *)
Definition feeder_done (es : list elem) (d : digraph) (st : list robj) (last : option nat) (h : string) (k : nat) (st' : list robj) (last' : option nat) : Prop :=
  exists l, meets es d last h l /\
    ((exists p, nth_closed st k l p /\ becomes_recloser st p st' /\ last' = Some p) \/
     ((forall p, ~ nth_closed st k l p) /\ st' = st /\ last' = fold_left (fun _ p => Some p) l last)).

(** Substation connections, and the nominal voltage of an object. *)
Definition connection (st : list robj) (i : nat) : Prop := exists o, nth_error st i = Some o /\ r_head o = Some (Some true).
Definition volt_is (st : list robj) (i : nat) (v : option Q) : Prop := exists o, nth_error st i = Some o /\ r_volt o = Some v.

(** All objects from position [i] on, after [k] draws. *)
Inductive feeders_done (es : list elem) (d : digraph) (draws : nat -> nat) : nat -> nat -> list robj -> option nat -> list robj -> Prop :=
| feeders_end k i st last : nth_error es i = None -> feeders_done es d draws i k st last st
| feeders_other k i e st last st' : nth_error es i = Some e -> ~ connection st i ->
    feeders_done es d draws (S i) k st last st' -> feeders_done es d draws i k st last st'
| feeders_high k i e st last st' : nth_error es i = Some e -> connection st i -> (forall v, volt_is st i (Some v) -> (69000 <= v)%Q) ->
    feeders_done es d draws (S i) (S k) st last st' -> feeders_done es d draws i k st last st'
| feeders_head k i e h v st last st1 last1 st' : nth_error es i = Some e -> connection st i -> volt_is st i (Some v) -> (v < 69000)%Q -> e_name e = Some (Some h) ->
    feeder_done es d st last h (draws k) st1 last1 ->
    feeders_done es d draws (S i) (S k) st1 last1 st' -> feeders_done es d draws i k st last st'.
