(** Conductor positions of the GridLAB-D reader.
    Models ditto/readers/gridlabd/read.py 62-314 (Reader.compute_spacing).

    Simplifications:
    - Numbers are real numbers; the comparisons of the code (also [==] on computed heights) are exact.
    - A spacing gives for two indices i < j (A, B, C, N, E = 0 .. 4) the attribute distance_ij, if it is set.
    - A conductor is its phase; the result lists the X and Y that are assigned, in the order of the conductors.
      Without an assignment (no distances at all, or a lone conductor without any, 90-92) the result is [None]. *)
From Verif Require Import Base.
From Coq Require Import Reals.
Local Open Scope string_scope.
Local Open Scope list_scope.

Definition spacing := nat -> nat -> option R.
(** Line 64 *)
Definition rev_lookup (p : string) : option nat :=
  if String.eqb p "A" then Some 0 else if String.eqb p "B" then Some 1 else if String.eqb p "C" then Some 2
  else if String.eqb p "N" then Some 3 else if String.eqb p "E" then Some 4 else None.

(** Lines 66-85: the matrix of distances, -1 where unknown, and the two phases that are furthest apart. *)
Definition mat := nat -> nat -> R.
Definition upd (m : mat) (i j : nat) (v : R) : mat := fun a b => if (Nat.eqb a i && Nat.eqb b j)%bool then v else m a b.
Definition pairs : list (nat * nat) := [(0, 1); (0, 2); (0, 3); (0, 4); (1, 2); (1, 3); (1, 4); (2, 3); (2, 4); (3, 4)].
Record scan := mkScan { s_dist : mat; s_max : R; s_from : option nat; s_to : option nat }.
Definition scan1 (sp : spacing) (st : scan) (p : nat * nat) : scan :=
  let '(i, j) := p in
  match sp i j with
  | None => st
  | Some d =>
    let m := upd (upd (upd (upd (s_dist st) i j d) j i d) i i 0%R) j j 0%R in
    if (if Rlt_dec (s_max st) d then (Nat.ltb i 4 && Nat.ltb j 4)%bool else false)
    then mkScan m d (Some i) (Some j) else mkScan m (s_max st) (s_from st) (s_to st)
  end.
Definition scan0 : scan := mkScan (fun _ _ => (-1)%R) (-100)%R None None.
Definition scan_all (sp : spacing) : scan := fold_left (scan1 sp) pairs scan0.

(** Lines 86-97: the number of conductors of the spacing. *)
Definition indices : list (nat * nat) := list_prod [0; 1; 2; 3; 4] [0; 1; 2; 3; 4].
Definition known (m : mat) (p : nat * nat) : bool := if Req_EM_T (m (fst p) (snd p)) (-1)%R then false else true.
Definition has_earth (m : mat) : bool := existsb (fun j => if Rlt_dec (-1)%R (m 4 j) then true else false) [0; 1; 2; 3; 4].
Definition n_entries (m : mat) : nat :=
  let n := Nat.sqrt (length (filter (known m) indices)) in if has_earth m then n - 1 else n.

(** [math.sqrt], [math.acos] and division *)
Definition psqrt (x : R) : res R := if Rlt_dec x 0 then Err EValue else Ok (sqrt x).
Definition pacos (x : R) : res R := if Rle_dec (Rabs x) 1 then Ok (acos x) else Err EValue.
Definition pdiv (x y : R) : res R := if Req_EM_T y 0%R then Err EZeroDiv else Ok (x / y)%R.

Definition rotate (t : R) (p : R * R) : R * R := ((cos t * fst p + - sin t * snd p)%R, (sin t * fst p + cos t * snd p)%R).
Definition to_m (p : R * R) : R * R := ((fst p / 3.28084)%R, (snd p / 3.28084)%R).
(** Python's [distances[max_from]] with the initial value -1 is the last row. *)
Definition at_ (o : option nat) : nat := match o with Some i => i | None => 4 end.
Definition is_at (o : option nat) (i : nat) : bool := match o with Some k => Nat.eqb i k | None => false end.

Section Place.
Variable st : scan.
Variable height : R.
Let D := s_dist st.
Let earth := has_earth D.

(** Lines 130-147 and 184-213: rotate and move up; also tells whether the loop stops here (line 199). *)
Definition finish (i : nat) (p : R * R) : res ((R * R) * bool) :=
  if earth then
    let h := (D (at_ (s_from st)) 4%nat - D (at_ (s_to st)) 4%nat)%R in
    do q <- pdiv h (s_max st);
    do theta <- pacos q;
    let r := rotate theta p in
    let r := (fst r, (snd r + D (at_ (s_from st)) 4%nat)%R) in
    Ok (r, if Req_EM_T (snd r) (D i 4) then true else false)
  else
    let r := rotate (PI / 2) p in Ok ((fst r, (snd r + height)%R), true).
Fixpoint finish_all (i : nat) (last : res (R * R)) (ps : list (R * R)) : res (R * R) :=
  match ps with
  | [] => last
  | p :: r => do x <- finish i p; if snd x then Ok (fst x) else finish_all i (Ok (fst x)) r
  end.

(** Lines 107-149 *)
Definition place2 (cs : list string) : res (list (R * R)) :=
  if Req_EM_T (s_max st) 0%R then Ok (map (fun k => (0%R, (height + 2 * INR k)%R)) (seq 0 (length cs)))
  else
    do is_ <- mapM (fun c => of_opt EKey (rev_lookup c)) cs;
    mapM (fun i =>
      do p <- (if is_at (s_to st) i then Ok (0%R, (0 - s_max st)%R) else if is_at (s_from st) i then Ok (0%R, 0%R) else Err EKey);
      if earth then
        do x <- finish i p; Ok (to_m (fst x))
      else Ok (to_m (fst p, (snd p + height)%R))) is_.

(** Lines 165-176 and 246-258: the third corner of a triangle. *)
Definition corner (i : nat) : res (R * R) :=
  let a := D i (at_ (s_from st)) in
  let b := D i (at_ (s_to st)) in
  let M := s_max st in
  let p := ((a + b + M) / 2)%R in
  do r <- psqrt (p * (p - a) * (p - b) * (p - M))%R;
  do x <- pdiv (2 * r)%R M;
  do y <- psqrt (a ^ 2 - x ^ 2)%R;
  Ok (x, (-1 * y)%R).

(** Lines 155-217, without the [except] *)
Definition try3 (cs : list string) : res (list (R * R)) :=
  do is_ <- mapM (fun c => of_opt EKey (rev_lookup c)) cs;
  do cands <- mapM (fun i =>
    if is_at (s_from st) i then Ok (i, [(0%R, 0%R)])
    else if is_at (s_to st) i then Ok (i, [(0%R, (0 - s_max st)%R)])
    else do p <- corner i; Ok (i, [p; ((-1 * fst p)%R, snd p)])) is_;
  mapM (fun c : nat * list (R * R) => do p <- finish_all (fst c) (Err EIndex) (snd c); Ok (to_m p)) cands.

(** Lines 236-304, without the [except]; the state is [first_x], [first_y], [first_index]. *)
Fixpoint corners4 (seen : option (R * R * nat)) (is_ : list nat) : res (list (nat * list (R * R))) :=
  match is_ with
  | [] => Ok []
  | i :: r =>
    if is_at (s_from st) i then do t <- corners4 seen r; Ok ((i, [(0%R, 0%R)]) :: t)
    else if is_at (s_to st) i then do t <- corners4 seen r; Ok ((i, [(0%R, (0 - s_max st)%R)]) :: t)
    else
      do p <- corner i;
      match seen with
      | Some (fx, fy, fi) =>
        let x := if Req_EM_T ((fst p - fx) ^ 2 + (snd p - fy) ^ 2)%R ((D i fi) ^ 2)%R then fst p else (fst p * -1)%R in
        do t <- corners4 seen r; Ok ((i, [(x, snd p)]) :: t)
      | None => do t <- corners4 (Some (fst p, snd p, i)) r; Ok ((i, [p]) :: t)
      end
  end.
Definition try4 (cs : list string) : res (list (R * R)) :=
  do is_ <- mapM (fun c => of_opt EKey (rev_lookup c)) cs;
  do cands <- corners4 None is_;
  mapM (fun c : nat * list (R * R) => do p <- finish_all (fst c) (Err EIndex) (snd c); Ok (to_m p)) cands.

(** Lines 218-227 and 305-314 *)
Fixpoint defaults (n : nat) (cs : list string) : list (R * R) :=
  match cs with
  | [] => []
  | c :: r => if String.eqb (lower c) "n" then (0%R, (height + 2)%R) :: defaults n r else ((INR n * 2)%R, height) :: defaults (S n) r
  end.
Definition or_defaults (cs : list string) (r : res (list (R * R))) : res (list (R * R)) :=
  match r with Ok l => Ok l | Err _ => Ok (defaults 0 cs) end.

(** Lines 98-105 *)
Definition place1 (cs : list string) : res (list (R * R)) :=
  if earth then mapM (fun c => do i <- of_opt EKey (rev_lookup c); Ok (0%R, (D i 4%nat / 3.28084)%R)) cs
  else Ok (map (fun _ => (0%R, (height / 3.28084)%R)) cs).
End Place.

Definition compute_spacing (sp : spacing) (cs : list string) (height : R) : res (option (list (R * R))) :=
  let st := scan_all sp in
  match n_entries (s_dist st) with
  | 1 => do l <- place1 st height cs; Ok (Some l)
  | 2 => do l <- place2 st height cs; Ok (Some l)
  | 3 => do l <- or_defaults height cs (try3 st height cs); Ok (Some l)
  | 4 => do l <- or_defaults height cs (try4 st height cs); Ok (Some l)
  | _ => Ok None
  end.
