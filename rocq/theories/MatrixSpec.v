(** Specification vocabulary for the matrix helpers. *)
From Coq Require Import QArith Qcanon.
From Verif Require Import Base.
Local Open Scope nat_scope.
Local Open Scope list_scope.

(** [cell m i j x]: the entry of row [i], column [j] of [m] is [x]. *)
Definition cell {A} (m : list (list A)) (i j : nat) (x : A) : Prop :=
  exists r, nth_error m i = Some r /\ nth_error r j = Some x.

(** [m] has [r] rows of [c] entries. *)
Definition dims {A} (m : list (list A)) (r c : nat) : Prop :=
  length m = r /\ forall row, In row m -> length row = c.

(** The entry of a row list, 0 where the row is too short. *)
Definition cell_or_zero (m : list (list Qc)) (i j : nat) : Qc := nth j (nth i m []) 0%Qc.

(** Row [i] has exactly [i + 1] entries. *)
Definition lower_triangular {A} (m : list (list A)) : Prop :=
  forall i r, nth_error m i = Some r -> length r = i + 1.

(** The rows of [m] are as long as their number at most, and one of them is that long. *)
Definition squarish {A} (m : list (list A)) : Prop :=
  (forall r, In r m -> length r <= length m) /\ exists r, In r m /\ length r = length m.

Section Circuit.
  Variable F : Type.
  Variables (rO : F) (radd rmul : F -> F -> F).

  (** Sum over the members of a list. *)
  Fixpoint sum_over (l : list nat) (f : nat -> F) : F :=
    match l with [] => rO | x :: t => radd (f x) (sum_over t f) end.

  (** [Z] read as a function of two conductors. *)
  Definition impedance := nat -> nat -> F.

  Definition reads (m : list (list F)) (z : impedance) : Prop :=
    dims m (length m) (length m) /\ forall i j, i < length m -> j < length m -> cell m i j (z i j).

  (** Voltage drop of conductor [k] under the currents [c] of the conductors of [l]. *)
  Definition drop (z : impedance) (l : list nat) (c : nat -> F) (k : nat) : F :=
    sum_over l (fun m => rmul (z k m) (c m)).

  (** [r] is the impedance matrix of the conductors [ps] when the conductors [ns] are grounded:
      for all currents for which no conductor of [ns] has a voltage drop, [r] gives the voltage
      drops of the conductors of [ps] from their own currents. *)
  Definition grounded_reduction (z : impedance) (ps ns : list nat) (r : list (list F)) : Prop :=
    dims r (length ps) (length ps) /\
    forall c : nat -> F,
      (forall n, In n ns -> radd (drop z ps c n) (drop z ns c n) = rO) ->
      forall a p row, nth_error ps a = Some p -> nth_error r a = Some row ->
        sum_over (seq 0 (length ps)) (fun b => rmul (nth b row rO) (c (nth b ps 0)))
        = radd (drop z ps c p) (drop z ns c p).

  (** Two-sided inverse of a square matrix. *)
  Definition inverse_of (rI : F) (m v : list (list F)) : Prop :=
    exists k, dims m k k /\ dims v k k /\
      (forall a b, a < k -> b < k ->
         sum_over (seq 0 k) (fun l => rmul (nth l (nth a v []) rO) (nth b (nth l m []) rO)) =
         (if a =? b then rI else rO)) /\
      (forall a b, a < k -> b < k ->
         sum_over (seq 0 k) (fun l => rmul (nth l (nth a m []) rO) (nth b (nth l v []) rO)) =
         (if a =? b then rI else rO)).
End Circuit.
Arguments sum_over {F}.
Arguments drop {F}.
Arguments reads {F}.
Arguments grounded_reduction {F}.
Arguments inverse_of {F}.
