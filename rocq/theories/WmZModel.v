(** The impedance matrix of a line of a Windmil file.
    Models ditto/readers/windmil_ascii/read.py lines 268-286, 337-359 (the parts of the
    loop over the wires that the matrix depends on).
    Simplifications: real numbers instead of floating point numbers; a wire comes with
    its radius and resistance from the tables, or None; [k1] stands for the reduction of
    a matrix of one row, where numpy multiplies arrays without entries (see
    [no_entries]). *)
From Coq Require Import Reals.
From Verif Require Import Base MatrixModel ImpedModel PtDistModel.
Local Open Scope string_scope.
Local Open Scope list_scope.
Local Open Scope R_scope.

Record wzwire := mkWzwire { wz_phase : string; wz_gmr : option R; wz_r : option R }.

(** read.py 283-286: the place of a wire. *)
Definition place (p : string) : list R :=
  [(if String.eqb p "A" then -1 else if String.eqb p "C" then 1 else 0); (if String.eqb p "N" then 8 else 10)].

(** read.py 337-340: the values that are missing. *)
Definition fill_r (w : wzwire) : R := match wz_r w with Some r => r | None => 0 end.
Definition fill_gmr (w : wzwire) : R :=
  match wz_gmr w with Some g => if Req_EM_T g 0 then 1 else g | None => 1 end.

(** [self.kron_reduction(Z)] *)
Definition reduce (k1 inv : cmat -> res cmat) (z : cmat) : res cmat :=
  if Nat.eqb (length z) 1 then k1 z else kron_reduction C c0 cadd cmul csub inv z None.

(** The reduction of a matrix of one row: np.dot of an array of shape (0,) with one of shape
    (1, 0) is a ValueError. *)
Definition no_entries (z : cmat) : res cmat := Err EValue.

(** read.py 344-359: the matrix of the wires so far. *)
Definition wires_matrix (k1 inv : cmat -> res cmat) (neutrals : nat) (ws : list wzwire) : res cmat :=
  do d <- mapM (fun w1 => mapM (fun w2 => distance (place (wz_phase w1)) (place (wz_phase w2))) ws) ws;
  do z <- get_primitive_impedance_matrix d (map (fun w => Some (fill_gmr w)) ws) (map (fun w => Some (fill_r w)) ws);
  if Nat.eqb neutrals 0 then Ok z else reduce k1 inv z.

(** One round: the wire is appended and the matrix computed anew. *)
Definition add_wire (k1 inv : cmat -> res cmat) (neutrals : nat) (s : list wzwire * option cmat) (w : wzwire)
  : res (list wzwire * option cmat) :=
  do m <- wires_matrix k1 inv neutrals (fst s ++ [w]); Ok (fst s ++ [w], Some m).

(** read.py 268-359: [line.impedance_matrix] in the end. *)
Definition line_matrix (k1 inv : cmat -> res cmat) (neutrals : nat) (ws : list wzwire) : res (option cmat) :=
  do s <- foldM (add_wire k1 inv neutrals) ws ([], None); Ok (snd s).
