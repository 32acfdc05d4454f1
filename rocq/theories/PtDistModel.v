(** The distance between two points of the abstract reader.
    Models ditto/readers/abstract_reader.py lines 344-365 ([distance]).
    Simplification: real numbers instead of floating point numbers. *)
From Verif Require Import Base.
From Coq Require Import Reals.
Local Open Scope R_scope.
Local Open Scope list_scope.

(** [p[i]], for an index that exists. *)
Definition coord (p : list R) (i : nat) : R := nth i p 0.

(** [sum(l)] *)
Definition total (l : list R) : R := fold_left Rplus l 0.

(** abstract_reader.py 344-365 *)
Definition distance (p1 p2 : list R) : res R :=
  let n := length p1 in
  if negb (Nat.eqb (length p2) n) then Err EValue
  else Ok (sqrt (total (map (fun i => (coord p1 i - coord p2 i) ^ 2) (seq 0 n)))).
