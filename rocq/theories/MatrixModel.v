(** Models of the matrix helpers of the readers: symmetrize and Kron reduction
    (ditto/readers/abstract_reader.py). *)
From Coq Require Import QArith Qcanon.
From Verif Require Import Base.
Local Open Scope nat_scope.
Local Open Scope list_scope.

(** [m[i][j]] *)
Definition get2 {A} (m : list (list A)) (i j : nat) : option A :=
  match nth_error m i with Some r => nth_error r j | None => None end.

(** [[f(i, j) for j in range(c)] for i in range(r)] *)
Definition tabulate {A} (r c : nat) (f : nat -> nat -> A) : list (list A) :=
  map (fun i => map (fun j => f i j) (seq 0 c)) (seq 0 r).

(** ** symmetrize: abstract_reader.py:38-76 *)

(** The padding loop, lines 68-69. *)
Definition pad (n : nat) (r : list Qc) : list Qc := r ++ repeat (0%Qc) (n - length r).

(** Lines 58-76.  [np.array], [+= matrix2.T] and the loop over the diagonal are given by their
    effect on each entry; [None] is the early return of line 63.  [max] of no rows raises
    ValueError. *)
Definition symmetrize (m : list (list Qc)) : res (option (list (list Qc))) :=
  match m with
  | [] => Err EValue
  | _ =>
      let n_cols := fold_right Nat.max 0 (map (@length Qc) m) in
      if length m =? n_cols then
        let m2 := map (pad n_cols) m in
        let e i j := match get2 m2 i j with Some x => x | None => 0%Qc end in
        Ok (Some (tabulate n_cols n_cols (fun i j =>
          let s := (e i j + e j i)%Qc in if i =? j then (s * Q2Qc (1 # 2))%Qc else s)))
      else Ok None
  end.

(** ** kron_reduction: abstract_reader.py:424-486 *)
Section Kron.
  Variable F : Type.
  Variables (rO : F) (radd rmul rsub : F -> F -> F).

  (** [l[i] = x], lines 460 ff.: IndexError past the end. *)
  Fixpoint set_nth {A} (l : list A) (i : nat) (x : A) : res (list A) :=
    match l, i with
    | [], _ => Err EIndex
    | _ :: t, 0 => Ok (x :: t)
    | y :: t, S i' => do t' <- set_nth t i' x; Ok (y :: t')
    end.

  (** [z[i_loc][j_loc] = x] *)
  Definition set2 {A} (m : list (list A)) (i j : nat) (x : A) : res (list (list A)) :=
    match nth_error m i with
    | None => Err EIndex
    | Some r => do r' <- set_nth r j x; set_nth m i r'
    end.

  (** One of the four submatrices with its entry of [cnts] and its presence in [changed_set]. *)
  Record zone := mkZone { zmat : list (list (option F)); zc0 : nat; zc1 : nat; zchanged : bool }.

  (** Lines 438-443: a matrix of None of [r] rows and [c] columns, counters at 0. *)
  Definition new_zone (r c : nat) : zone := mkZone (tabulate r c (fun _ _ => None)) 0 0 false.

  (** Lines 453-457 (and its three copies). *)
  Definition write (z : zone) (x : F) : res zone :=
    do m <- set2 (zmat z) (zc0 z) (zc1 z) (Some x);
    Ok (mkZone m (S (zc0 z)) (zc1 z) true).

  (** Lines 477-479 with the new changed_set of line 450. *)
  Definition next_row (z : zone) : zone :=
    if zchanged z then mkZone (zmat z) 0 (S (zc1 z)) false else z.

  Record zones := mkZones { z_nn : zone; z_ij : zone; z_in : zone; z_nj : zone }.

  Definition nmem (i : nat) (l : list nat) : bool := existsb (Nat.eqb i) l.

  (** The inner loop, lines 451-476. *)
  Definition kron_cell (Z : list (list F)) (neutrals : list nat) (i : nat) (s : zones) (j : nat) : res zones :=
    do x <- of_opt EIndex (get2 Z i j);
    match nmem i neutrals, nmem j neutrals with
    | true, true => do z <- write (z_nn s) x; Ok (mkZones z (z_ij s) (z_in s) (z_nj s))
    | false, false => do z <- write (z_ij s) x; Ok (mkZones (z_nn s) z (z_in s) (z_nj s))
    | false, true => do z <- write (z_in s) x; Ok (mkZones (z_nn s) (z_ij s) z (z_nj s))
    | true, false => do z <- write (z_nj s) x; Ok (mkZones (z_nn s) (z_ij s) (z_in s) z)
    end.

  (** One turn of the outer loop, lines 449-479. *)
  Definition kron_row (Z : list (list F)) (neutrals : list nat) (s : zones) (i : nat) : res zones :=
    do s' <- foldM (kron_cell Z neutrals i) (seq 0 (length Z)) s;
    Ok (mkZones (next_row (z_nn s')) (next_row (z_ij s')) (next_row (z_in s')) (next_row (z_nj s'))).

  (** Lines 436-479. *)
  Definition kron_split (Z : list (list F)) (neutrals : list nat) : res zones :=
    let dn := length neutrals in
    let dp := length Z - length neutrals in
    foldM (kron_row Z neutrals) (seq 0 (length Z))
      (mkZones (new_zone dn dn) (new_zone dp dp) (new_zone dp dn) (new_zone dn dp)).

  (** A matrix that still holds None makes numpy arithmetic raise TypeError. *)
  Definition complete (m : list (list (option F))) : res (list (list F)) :=
    mapM (mapM (of_opt EType)) m.

  Definition entry (m : list (list F)) (i j : nat) : F :=
    match get2 m i j with Some x => x | None => rO end.
  Definition width (m : list (list F)) : nat := match m with r :: _ => length r | [] => 0 end.

  Fixpoint sum_upto (n : nat) (f : nat -> F) : F :=
    match n with 0 => rO | S k => radd (sum_upto k f) (f k) end.

  (** [np.dot] of two matrices *)
  Definition mdot (a b : list (list F)) : list (list F) :=
    tabulate (length a) (width b) (fun i j =>
      sum_upto (length b) (fun k => rmul (entry a i k) (entry b k j))).

  (** [a - b] *)
  Definition msub (a b : list (list F)) : list (list F) :=
    tabulate (length a) (width a) (fun i j => rsub (entry a i j) (entry b i j)).

  (** Lines 424-486.  [inv] stands for [np.linalg.inv]; [neutrals] is the argument or, for None,
      the last index (line 434). *)
  Definition kron_reduction (inv : list (list F) -> res (list (list F)))
      (Z : list (list F)) (neutrals : option (list nat)) : res (list (list F)) :=
    let ns := match neutrals with Some l => l | None => [length Z - 1] end in
    do s <- kron_split Z ns;
    do zij <- complete (zmat (z_ij s));
    do znn <- complete (zmat (z_nn s));
    do zin <- complete (zmat (z_in s));
    do znj <- complete (zmat (z_nj s));
    do v <- inv znn;
    Ok (msub zij (mdot zin (mdot v znj))).
End Kron.
