(** Filling in missing coordinates.
    Models ditto/modify/system_structure.py 108-167 (set_missing_coords_recur).

    Simplifications:
    - The attribute positions of the objects of a model is a list beside the objects of the network
      ([elem], NetworkModel.v), by position.  Of a Position only lat and long are kept.
    - Coordinates are rationals; the rounding of Python's float addition and division is not modelled.
    - Warnings and prints are left out. *)
From Verif Require Import Base StoreModel NetworkModel.
From Coq Require Import QArith.
Local Open Scope string_scope.
Local Open Scope nat_scope.
Local Open Scope list_scope.

(** lat and long of a Position; either may be None. *)
Definition pos := (option Q * option Q)%type.
(** An object's positions: outer None: no such attribute; inner None: the attribute is None. *)
Definition place := option (option (list pos)).
Definition places := list place.

(** [x == 0]; None is not 0. *)
Definition is_zero (c : option Q) : bool := match c with Some q => Qeq_bool q 0 | None => false end.

(** Lines 135-140: the first position, if both coordinates differ from 0. *)
Definition coords_of (p : place) : option pos :=
  match p with
  | Some (Some ((la, lo) :: _)) => if is_zero la || is_zero lo then None else Some (la, lo)
  | _ => None
  end.

(** Lines 115-121 *)
Definition misses (p : place) : bool :=
  match p with
  | None => false
  | Some _ => match coords_of p with Some _ => false | None => true end
  end.

Definition place_at (ps : places) (i : nat) : place := nth i ps None.
Fixpoint set_place (ps : places) (i : nat) (p : place) : places :=
  match ps, i with
  | [], _ => []
  | _ :: t, O => p :: t
  | x :: t, S k => x :: set_place t k p
  end.

(** Lines 112-129 *)
Definition recur_nodes (g : graph) (es : list elem) (ps : places) : list string :=
  flat_map (fun '(e, p) =>
    if misses p then match e_name e with Some (Some x) => if smem x (g_nodes g) then [x] else [] | _ => [] end else []) (combine es ps).

(** Lines 147-155: the sum of the coordinates divided by their number. *)
Definition average (l : list (option Q)) : res Q :=
  do qs <- mapM (of_opt EType) l;
  Ok (fold_left Qplus qs 0 / inject_Z (Z.of_nat (length qs)))%Q.

(** Lines 133-159, one name: the new places, and whether the name stays in the list. *)
Definition visit (g : graph) (es : list elem) (ps : places) (x : string) : res (places * bool) :=
  do found <- mapM (fun y => do j <- of_opt EKey (lookup es (Some y)); Ok (coords_of (place_at ps j))) (neighbors g x);
  let adj := flat_map (fun c => match c with Some v => [v] | None => [] end) found in
  match adj with
  | [] => Ok (ps, true)
  | _ =>
    do la <- average (map fst adj);
    do lo <- average (map snd adj);
    do i <- of_opt EKey (lookup es (Some x));
    Ok (set_place ps i (Some (Some [(Some la, Some lo)])), false)
  end.

(** Lines 132-159 *)
Definition sweep (g : graph) (es : list elem) (ps : places) (l : list string) : res (places * list string) :=
  foldM (fun '(ps, next) x => do '(ps', stays) <- visit g es ps x; Ok (ps', if stays : bool then next ++ [x] else next)) l (ps, []).

(** Lines 131-167 *)
Fixpoint fill_loop (fuel : nat) (g : graph) (es : list elem) (ps : places) (l : list string) : res places :=
  match l with
  | [] => Ok ps
  | _ =>
    match fuel with
    | O => Err EFuel
    | S fuel' =>
      do '(ps', next) <- sweep g es ps l;
      if Nat.eqb (length next) (length l) then Ok ps' else fill_loop fuel' g es ps' next
    end
  end.

Definition set_missing_coords_recur (fuel : nat) (g : graph) (es : list elem) (ps : places) : res places :=
  fill_loop fuel g es ps (recur_nodes g es ps).
