(** What it means that conductors are placed as the spacing of a drawing says: independent of SpacingModel's algorithm. *)
From Verif Require Import Base SpacingModel.
From Coq Require Import Reals.
Local Open Scope list_scope.

(** Distance in the plane *)
Definition dist2 (p q : R * R) : R := ((fst p - fst q) * (fst p - fst q) + (snd p - snd q) * (snd p - snd q))%R.
Definition pdist (p q : R * R) : R := sqrt (dist2 p q).

(** The spacing of a drawing: the conductors [present] (of A, B, C, N = 0 .. 3) at the points [P] (in feet), all
    distances between them and, with [earth], their heights above ground. *)
Definition spacing_of (present : nat -> bool) (earth : bool) (P : nat -> R * R) : spacing := fun i j =>
  if (Nat.ltb j 4 && present i && present j)%bool then Some (pdist (P i) (P j))
  else if (Nat.eqb j 4 && present i && earth)%bool then Some (snd (P i)) else None.
Definition how_many (present : nat -> bool) : nat := length (filter present [0; 1; 2; 3]).

(** The conductors of a line: phases that the drawing has, and their points. *)
Definition drawn (present : nat -> bool) (P : nat -> R * R) (c : string) (p : R * R) : Prop :=
  exists i, nth_error ["A"; "B"; "C"; "N"]%string i = Some c /\ present i = true /\ p = P i.

(** The place of a conductor whose distances cannot be drawn: phases side by side, two units apart, the neutral above. *)
Definition default_place (height : R) (cs : list string) (n : nat) (c : string) : R * R :=
  if String.eqb c "N" then (0, height + 2)%R
  else ((2 * INR (length (filter (fun d => negb (String.eqb d "N")) (firstn n cs))))%R, height).

Definition foot : R := (/ 3.28084)%R.
