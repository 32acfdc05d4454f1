(** Models of the line-impedance computations over exact reals: sequence matrices and Carson's
    equations (ditto/readers/abstract_reader.py), compute_matrix (ditto/readers/gridlabd/read.py).
    Complex numbers are pairs of reals. *)
From Coq Require Import Reals.
From Verif Require Import Base MatrixModel.
Local Open Scope string_scope.
Local Open Scope list_scope.
Local Open Scope R_scope.

(** ** Complex numbers *)
Definition C := (R * R)%type.
Definition c0 : C := (0, 0).
Definition c1 : C := (1, 0).
Definition cadd (x y : C) : C := (fst x + fst y, snd x + snd y).
Definition csub (x y : C) : C := (fst x - fst y, snd x - snd y).
Definition copp (x : C) : C := (- fst x, - snd x).
Definition cmul (x y : C) : C := (fst x * fst y - snd x * snd y, fst x * snd y + snd x * fst y).
Definition cinv (x : C) : C :=
  (fst x / (fst x * fst x + snd x * snd x), - snd x / (fst x * fst x + snd x * snd x)).

(** [x / y]: ZeroDivisionError on 0. *)
Definition cdiv (x y : C) : res C :=
  if Req_EM_T (fst y) 0 then if Req_EM_T (snd y) 0 then Err EZeroDiv else Ok (cmul x (cinv y))
  else Ok (cmul x (cinv y)).

(** [a / b] and [math.log(x)] on floats *)
Definition pydiv (a b : R) : res R := if Req_EM_T b 0 then Err EZeroDiv else Ok (a / b).
Definition pylog (x : R) : res R := if Rlt_dec 0 x then Ok (ln x) else Err EValue.

Definition cmat := list (list C).
Definition cdot (a b : cmat) : cmat := mdot C c0 cadd cmul a b.
Definition centry (m : cmat) (i j : nat) : C := entry C c0 m i j.

(** ** get_sequence_impedance_matrix: abstract_reader.py:391-422 *)

(** [shape == (n, n)] of the array made of a list of rows *)
Definition shape_is (m : cmat) (n : nat) : bool :=
  (length m =? n)%nat && forallb (fun r => (length r =? n)%nat) m.

(** Line 397: cmath.exp(complex(0, 2.0 / 3 * cmath.pi)) *)
Definition rot : C := (cos (2 / 3 * PI), sin (2 / 3 * PI)).

(** Lines 398-415. *)
Definition seq_A : cmat := [[c1; c1; c1]; [c1; cmul rot rot; rot]; [c1; rot; cmul rot rot]].
Definition third : C := (1 / 3, 0).
Definition seq_A_inv : cmat :=
  map (map (cmul third)) [[c1; c1; c1]; [c1; rot; cmul rot rot]; [c1; cmul rot rot; rot]].

(** Lines 416-419. *)
Definition seq_A2 : cmat := [[c1; c1]; [c1; (-1, 0)]].
Definition seq_A2_inv : cmat := [[(1 / 2, 0); (1 / 2, 0)]; [(1 / 2, 0); (- (1 / 2), 0)]].

(** Lines 391-422; the empty list is the result for other shapes. *)
Definition get_sequence_impedance_matrix (m : cmat) : cmat :=
  if shape_is m 3 then cdot seq_A_inv (cdot m seq_A)
  else if shape_is m 2 then cdot seq_A2_inv (cdot m seq_A2)
  else [].

(** Lines 367-389: get_{zero,positive,negative}_sequence_impedance with [k] = 0, 1, 2; every
    exception becomes ValueError. *)
Definition get_seq_entry (k : nat) (m : cmat) : res C := of_opt EValue (get2 m k k).

(** ** Carson's equations: abstract_reader.py:488-520 *)

(** Lines 488-496. *)
Definition carson_equation_self (ri gmr : option R) : res C :=
  match ri, gmr with
  | None, _ | _, None => Err EValue
  | Some r, Some g =>
      if Req_EM_T g 0 then Err EValue
      else if Rlt_dec 0 g then Ok (r + 953 / 10000, 12134 / 100000 * (ln (1 / g) + 793402 / 100000))
      else Err EValue (* np.log of a negative number is nan; modelled as a failure *)
  end.

(** Lines 498-502. *)
Definition carson_equation (d : R) : res C :=
  if Req_EM_T d 0 then Err EValue
  else if Rlt_dec 0 d then Ok (953 / 10000, 12134 / 100000 * (ln (1 / d) + 793402 / 100000))
  else Err EValue (* nan *).

(** Lines 504-520: [dist] is a matrix of [n] rows and columns. *)
Definition get_primitive_impedance_matrix (dist : list (list R)) (gmrs rs : list (option R)) : res cmat :=
  mapM (fun i =>
    mapM (fun j =>
      if (i =? j)%nat then
        do r <- of_opt EIndex (nth_error rs i);
        do g <- of_opt EIndex (nth_error gmrs i);
        carson_equation_self r g
      else
        do d <- of_opt EIndex (get2 dist i j); carson_equation d)
      (seq 0 (length dist))) (seq 0 (length dist)).

(** ** compute_matrix: gridlabd/read.py:409-493 *)

Record wire := mkWire {
  w_phase : option string; w_res : option R; w_gmr : option R; w_x : option R; w_y : option R }.

(** Line 410. *)
Definition wire_map (p : string) : option nat :=
  dget [("A", 0%nat); ("B", 1%nat); ("C", 2%nat); ("N", 3%nat)] p.

(** [math.log(1 / x) + 7.6786 + 0.5 * math.log(resistivity / freq)] *)
Definition log_term (freq resistivity x : R) : res R :=
  do q <- pydiv 1 x; do l1 <- pylog q;
  do q2 <- pydiv resistivity freq; do l2 <- pylog q2;
  Ok (l1 + 76786 / 10000 + 1 / 2 * l2).

(** Lines 418-432. *)
Definition self_z (freq resistivity : R) (w : wire) : res C :=
  match w_res w, w_gmr w with
  | Some r, Some g =>
      do l <- log_term freq resistivity g;
      Ok (r + 158836 / 100000000 * freq, 202237 / 100000000 * freq * l)
  | _, _ => Ok c0
  end.

(** Lines 443-466. *)
Definition mutual_z (freq resistivity : R) (w w' : wire) : res C :=
  match w_x w, w_y w, w_x w', w_y w' with
  | Some x1, Some y1, Some x2, Some y2 =>
      do l <- log_term freq resistivity (sqrt ((x1 - x2) * (x1 - x2) + (y1 - y2) * (y1 - y2)));
      Ok (158836 / 100000000 * freq, 202237 / 100000000 * freq * l)
  | _, _, _, _ => Ok c0
  end.

(** Lines 436-440 and 470-478: a wire without phase writes nothing. *)
Definition put (m : cmat) (p q : option string) (z : C) : res cmat :=
  match p, q with
  | Some a, Some b =>
      do i <- of_opt EKey (wire_map a);
      do j <- of_opt EKey (wire_map b);
      set2 m i j z
  | _, _ => Ok m
  end.

(** One turn of the inner loop, lines 416-478. *)
Definition matrix_cell (freq resistivity : R) (ws : list wire) (i : nat) (m : cmat) (j : nat) : res cmat :=
  do w <- of_opt EIndex (nth_error ws i);
  do w' <- of_opt EIndex (nth_error ws j);
  if (i =? j)%nat then
    do z <- self_z freq resistivity w; put m (w_phase w) (w_phase w) z
  else
    do z <- mutual_z freq resistivity w w'; put m (w_phase w) (w_phase w') z.

Definition is_neutral (w : wire) : bool :=
  match w_phase w with Some p => (p =? "N")%string | None => false end.

(** Lines 409-493. *)
Definition compute_matrix (ws : list wire) (freq resistivity : R) (kron_reduce : bool) : res cmat :=
  do m <- foldM (fun m i => foldM (matrix_cell freq resistivity ws i) (seq 0 (length ws)) m)
            (seq 0 (length ws)) (tabulate 4 4 (fun _ _ => c0));
  if (kron_reduce && existsb is_neutral ws)%bool then
    mapM (fun i => mapM (fun j =>
      do q <- cdiv (cmul (centry m i 3) c1) (centry m 3 3);
      Ok (csub (centry m i j) (cmul q (centry m 3 j)))) (seq 0 3)) (seq 0 3)
  else if existsb is_neutral ws then Ok m
  else Ok (tabulate 3 3 (centry m)).
