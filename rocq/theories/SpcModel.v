(** The impedance matrix of a CYME line that is given by a spacing and conductors.
    Models ditto/readers/cyme/read.py lines 3514-3728.
    Simplifications: real numbers instead of floating point numbers; the columns of
    the spacing table are absent, empty, not a number, or a number; the geometric
    mean radius and the resistance of every conductor in the table are numbers. *)
From Coq Require Import Reals.
From Verif Require Import Base MatrixModel ImpedModel PtDistModel.
Local Open Scope string_scope.
Local Open Scope list_scope.
Local Open Scope R_scope.

(** A column of the table of spacings. *)
Inductive col := Absent | Empty | Bad | Num (r : R).

(** A row of the table: the columns posofcond<i>_x and posofcond<i>_y, those of the
    neutral and those of the second neutral. *)
Record spacing := mkSpacing { sp_cond : nat -> col * col; sp_n1 : col * col; sp_n2 : col * col }.

(** A point of which a coordinate may be None. *)
Definition point := (option R * option R)%type.

(** [float(c)], or None if it is absent or the conversion fails. *)
Definition num (c : col) : option R := match c with Num r => Some r | _ => None end.

(** read.py 3522-3541: each coordinate by itself. *)
Definition cond_pos (c : col * col) : point := (num (fst c), num (snd c)).

(** The body of the "try" at 3549-3553 and 3563-3571: y is not read if x fails. *)
Definition both (c : col * col) : point :=
  match num (fst c) with Some x => (Some x, num (snd c)) | None => (None, None) end.

Definition is_absent (c : col) : bool := match c with Absent => true | _ => false end.
Definition is_blank (c : col) : bool := match c with Absent | Empty => true | _ => false end.

(** read.py 3543-3553 *)
Definition n1_pos (c : col * col) : point :=
  if is_absent (fst c) || is_absent (snd c) then (None, None) else both c.

(** read.py 3555-3571 *)
Definition n2_pos (c : col * col) : point :=
  if is_blank (fst c) || is_blank (snd c) then (None, None) else both c.

(** The list [pos]: line phases, by their place in the list, and two neutrals. *)
Definition positions (sp : spacing) (phases : list string) : list point :=
  map (fun i => cond_pos (sp_cond sp (i + 1))) (seq 0 (length phases)) ++ [n1_pos (sp_n1 sp); n2_pos (sp_n2 sp)].

(** read.py 3573-3577 *)
Definition is_valid (p : point) : bool := match p with (None, None) => false | _ => true end.

(** [self.distance(p, q)]: None minus a number is a TypeError. *)
Definition point_distance (p q : point) : res R :=
  match p, q with
  | (Some a, Some b), (Some c, Some d) => distance [a; b] [c; d]
  | _, _ => Err EType
  end.

(** read.py 3578-3585, from meters to feet. *)
Definition distance_matrix (valid : list point) : res (list (list R)) :=
  mapM (fun p => mapM (fun q => do d <- point_distance p q; Ok (328084 / 100000 * d)) valid) valid.

(** The table of conductors: the columns gmr and r25. *)
Definition conductors := @dict (R * R)%type.

(** A conductor, or the default one. *)
Definition or_default (cs : conductors) (id : string) : res (R * R) :=
  match dget cs id with Some c => Ok c | None => of_opt EKey (dget cs "DEFAULT") end.

(** read.py 3593-3628: the conductor of a phase. *)
Definition phase_conductor (cs : conductors) (settings : @dict string) (p : string) : res (R * R) :=
  match dget settings ("condid_" ++ lower p)%string with
  | Some id => or_default cs id
  | None => of_opt EKey (dget cs "DEFAULT")
  end.

(** read.py 3629-3693: the conductor of the neutral. *)
Definition neutral_conductor (cs : conductors) (settings : @dict string) : res (option (R * R)) :=
  match dget settings "condid_n" with
  | Some id => do c <- or_default cs id; Ok (Some c)
  | None =>
      match dget settings "condid_n1" with
      | Some id => if String.eqb (lower id) "none" then Ok None else do c <- or_default cs id; Ok (Some c)
      | None => Ok None
      end
  end.

(** The entries of [gmr_list] and [resistance_list], in feet and in ohms per mile. *)
Definition gmr_of (c : R * R) : R := 328084 / 10000000 * fst c.
Definition res_of (c : R * R) : R := 1 / (621371 / 1000000) * snd c.

(** [idx in idx_to_remove] *)
Definition removed (gmrs : list (option R)) (i : nat) : bool :=
  match nth_error gmrs i with Some None => true | _ => false end.

(** read.py 3695-3711; a matrix without rows gives the IndexError. *)
Definition restrict (gmrs : list (option R)) (dist : list (list R)) : res (list (list R)) :=
  match dist with
  | [] => Ok [[1]]
  | _ :: _ =>
      let keep := filter (fun i => negb (removed gmrs i)) (seq 0 (length dist)) in
      mapM (fun i => mapM (fun j => of_opt EIndex (get2 dist i j)) keep) keep
  end.

(** [1.0 / 1609.34 * z] *)
Definition per_meter (z : C) : C := (1 / (160934 / 100) * fst z, 1 / (160934 / 100) * snd z).

(** read.py 3514-3728; [perform_kron_reduction] is never True. *)
Definition spacing_matrix (cs : conductors) (settings : @dict string) (sp : spacing) (phases : list string)
  : res cmat :=
  do dist <- distance_matrix (filter is_valid (positions sp phases));
  do ws <- mapM (phase_conductor cs settings) phases;
  do n <- neutral_conductor cs settings;
  let gmrs := map (fun c => Some (gmr_of c)) ws ++ [option_map gmr_of n] in
  let rs := map (fun c => Some (res_of c)) ws ++ [option_map res_of n] in
  do dist <- restrict gmrs dist;
  do z <- get_primitive_impedance_matrix dist gmrs rs;
  Ok (map (map per_meter) z).
