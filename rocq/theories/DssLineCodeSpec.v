(** Specification vocabulary for line codes. *)
From Verif Require Import Base CsvModel DssCodeModel DssCodeSpec.
From Coq Require Import QArith.
Local Open Scope string_scope.
Local Open Scope nat_scope.
Local Open Scope list_scope.

(** The definition gives, for [k], the matrix [M] per metre as a matrix per kilometre, and no other matrix. *)
Definition gives_matrix (d : list (string * dval)) (k : string) (M : list (list Q)) : Prop :=
  (exists m, In (k, DMat m) d) /\ forall m, In (k, DMat m) d -> Forall2 (Forall2 (fun x y => x == 1000 * y)%Q) m M.
Definition no_matrix (d : list (string * dval)) (k : string) : Prop := forall m, ~ In (k, DMat m) d.

(** The real and the imaginary part of a matrix. *)
Definition real (Z : list (list (Q * Q))) (R : list (list Q)) : Prop := Forall2 (Forall2 (fun z x => fst z = x)) Z R.
Definition imag (Z : list (list (Q * Q))) (X : list (list Q)) : Prop := Forall2 (Forall2 (fun z x => snd z = x)) Z X.
(** [n] rows and columns, [q] on the diagonal, 0 elsewhere. *)
Definition scalar (n : nat) (q : Q) (M : list (list Q)) : Prop :=
  length M = n /\ forall i row, nth_error M i = Some row -> length row = n /\ forall j x, nth_error row j = Some x -> x = if Nat.eqb i j then q else 0%Q.

Definition first_amps (f : wire -> option Q) (l : line) : option Q := match l_wires l with w :: _ => f w | [] => None end.

(** [d] is the line code of the line [l]. *)
Definition describes_code (d : list (string * dval)) (l : line) : Prop :=
  In ("units", DStr "km") d /\
  (exists n, In ("nphases", DInt n) d /\ (forall n', In ("nphases", DInt n') d -> n' = n) /\ phases_in (l_wires l) n /\
     (l_Z l = [] -> l_switching l = true -> exists M, scalar n (1 # 100000000)%Q M /\ gives_matrix d "Rmatrix" M /\ gives_matrix d "Xmatrix" M)) /\
  (l_Z l <> [] -> exists R X, real (l_Z l) R /\ imag (l_Z l) X /\ gives_matrix d "Rmatrix" R /\ gives_matrix d "Xmatrix" X) /\
  (l_Z l = [] -> l_switching l = false -> no_matrix d "Rmatrix" /\ no_matrix d "Xmatrix") /\
  (l_C l <> [] -> exists C, real (l_C l) C /\ gives_matrix d "Cmatrix" C) /\ (l_C l = [] -> no_matrix d "Cmatrix") /\
  states d "Faultrate" (l_fault l) /\ states d "normamps" (first_amps w_amp l) /\ states d "emergamps" (first_amps w_emerg l).

(** Two lines with the same data for a line code. *)
Definition alike_code (l l' : line) : Prop :=
  (forall n, phases_in (l_wires l) n <-> phases_in (l_wires l') n) /\ oeq (l_fault l) (l_fault l') /\
  oeq (first_amps w_amp l) (first_amps w_amp l') /\ oeq (first_amps w_emerg l) (first_amps w_emerg l') /\
  Forall2 (Forall2 (fun x y => fst x == fst y /\ snd x == snd y)%Q) (l_Z l) (l_Z l') /\ (l_Z l = [] -> l_switching l = l_switching l') /\
  Forall2 (Forall2 (fun x y => fst x == fst y /\ snd x == snd y)%Q) (l_C l) (l_C l').

(** Same class and same number of phases. *)
Definition same_class (l l' : line) : Prop := l_class l <> None /\ l_class l = l_class l' /\ forall n, phases_in (l_wires l) n <-> phases_in (l_wires l') n.

(** The name of the class for the number of phases of the line. *)
Definition class_name (l : line) (s : string) : Prop := exists c n, l_class l = Some c /\ phases_in (l_wires l) n /\ s = variant c n.

(** The line goes to the file of this substation and this feeder. *)
Definition goes_to (sepf seps : bool) (l : line) (s f : string) : Prop :=
  ((seps = true /\ l_sub l = Some s) \/ ((seps = false \/ l_sub l = None) /\ s = "DEFAULT")) /\
  ((sepf = true /\ l_feeder l = Some f) \/ ((sepf = false \/ l_feeder l = None) /\ f = "DEFAULT")).
