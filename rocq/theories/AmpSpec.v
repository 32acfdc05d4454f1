From Coq Require Import List String Bool Arith QArith.
From Verif Require Import Base AmpModel.
Import ListNotations.
Local Open Scope nat_scope.
Local Open Scope list_scope.

Definition rated (a : amp) : Prop := exists x, a = Amp x.
Definition largest (l : list amp) (v : Q) : Prop := In (Amp v) l /\ forall x, In (Amp x) l -> (x <= v)%Q.
(** [o'] is [o] with the rating [v] for all wires. *)
Definition all_rated (o o' : sobj) (v : Q) : Prop :=
  s_device o' = s_device o /\ s_from o' = s_from o /\ s_to o' = s_to o /\
  exists l l', s_wires o = Some (Some l) /\ s_wires o' = Some (Some l') /\ length l' = length l /\ forall a, In a l' -> a = Amp v.

Section Spec.
Variable neighbors : string -> option (list string).
Variable edges : list ((string * string) * option string).
Variable lookup : option string -> option nat.

(** The nodes that can be reached from the ends of a device. *)
Inductive near (f t : string) : string -> Prop :=
| near_from : near f t f
| near_to : near f t t
| near_next x l y : near f t x -> neighbors x = Some l -> In y l -> near f t y.
(** A rating that the first wire of the equipment of a near edge has. *)
Definition found_near (st : list sobj) (f t : string) (v : Q) : Prop :=
  exists u w n p q l, In (u, w, n) edges /\ near f t u /\ near f t w /\ lookup n = Some p /\ nth_error st p = Some q /\ s_wires q = Some (Some (Amp v :: l)).
(** What becomes of an object. *)
Inductive becomes (st : list sobj) (o : sobj) : sobj -> Prop :=
| b_other : s_device o = false -> becomes st o o
| b_rated l : s_wires o = Some (Some l) -> (forall a, In a l -> rated a) -> becomes st o o
| b_some l v o' : s_device o = true -> s_wires o = Some (Some l) -> In NaN l -> largest l v -> all_rated o o' v -> becomes st o o'
| b_loose l : s_wires o = Some (Some l) -> (forall a, In a l -> a = NaN) -> s_from o = None \/ s_to o = None -> becomes st o o
| b_none l f t v o' : s_device o = true -> s_wires o = Some (Some l) -> l <> [] -> (forall a, In a l -> a = NaN) -> s_from o = Some f -> s_to o = Some t ->
    found_near st f t v -> all_rated o o' v -> becomes st o o'.
(** The objects from the [i]-th on, one after the other. *)
Inductive run : nat -> list sobj -> list sobj -> Prop :=
| run_done i st : length st <= i -> run i st st
| run_step i st st1 st2 o o' : nth_error st i = Some o -> becomes st o o' -> nth_error st1 i = Some o' -> length st1 = length st ->
    (forall j, j <> i -> nth_error st1 j = nth_error st j) -> run (S i) st1 st2 -> run i st st2.
End Spec.
