From Coq Require Import List String Bool Arith QArith.
From Verif Require Import Base.
Import ListNotations.
Local Open Scope nat_scope.
Local Open Scope list_scope.

(** The ampacities of switching devices.
    Models ditto/modify/system_structure.py 1117-1280 (set_switching_devices_ampacity).

    Simplifications:
    - Rational numbers instead of floats.
    - The graph is its neighbours, in order, and its edges with the names of their equipment ([self.edge_equipment_name]);
      [self.model[name]] is a position in the list of objects.
    - [random.randint(0, m - 1)] is the next of any sequence of numbers, modulo m.
    - The loop of line 1163 need not end: [EFuel].  The state after an exception is not part of the result. *)
Inductive amp := Missing | NaN | Amp (x : Q).
Record sobj := mkS {
  s_device : bool;                          (* a Line with one of the five flags (1123-1130) *)
  s_from : option string; s_to : option string;
  s_wires : option (option (list amp)) }.   (* None: no such attribute; Some None: the attribute is None *)

Definition is_missing (a : amp) : bool := match a with Missing => true | _ => false end.
Definition is_nan (a : amp) : bool := match a with NaN => true | _ => false end.
Fixpoint numbers (l : list amp) : list Q := match l with [] => [] | Amp x :: t => x :: numbers t | _ :: t => numbers t end.
(** [np.max] *)
Definition max_of (x : Q) (l : list Q) : Q := fold_left (fun a y => if Qle_bool a y then y else a) l x.
Definition set_all (o : sobj) (v : Q) : sobj :=
  mkS (s_device o) (s_from o) (s_to o) (match s_wires o with Some (Some l) => Some (Some (map (fun _ => Amp v) l)) | w => w end).
Fixpoint sset (st : list sobj) (i : nat) (o : sobj) : list sobj :=
  match st, i with
  | [], _ => []
  | _ :: t, O => o :: t
  | x :: t, S k => x :: sset t k o
  end.

Section Ampacity.
Variable neighbors : string -> option (list string).
Variable edges : list ((string * string) * option string).
Variable lookup : option string -> option nat.
Variable draws : nat -> nat.

Fixpoint edge_name (l : list ((string * string) * option string)) (u w : string) : option (option string) :=
  match l with
  | [] => None
  | (a, b, n) :: t => if String.eqb a u && String.eqb b w then Some n else edge_name t u w
  end.
(** Lines 1197-1226 and 1236-1258: the rating of the first wire of a named object, if there is one; exceptions are swallowed. *)
Definition rating (st : list sobj) (n : option (option string)) : option Q :=
  match n with
  | None => None
  | Some n => match lookup n with
              | None => None
              | Some p => match nth_error st p with
                          | None => None
                          | Some o => match s_wires o with
                                      | Some (Some (Amp x :: _)) => Some x
                                      | _ => None
                                      end
                          end
              end
  end.

(** Lines 1163-1276; [idx] is the variable of that name, None: not bound yet, [k] the number of draws so far. *)
Fixpoint search (fuel : nat) (st : list sobj) (start from to : string) (idx : option nat) (k : nat) : res (Q * option nat * nat) :=
  match fuel with
  | O => Err EFuel
  | S fuel' =>
    match neighbors from, neighbors to with
    | Some nf, Some nt =>
      let nf := filter (fun n => negb (String.eqb n to)) nf in
      let nt := filter (fun n => negb (String.eqb n from)) nt in
      (* 1187-1194 *)
      do '(idx, k) <- match nf with
                      | [] => Ok (idx, k)
                      | _ => match Nat.min (length nf) (length nt) with
                             | O => Err EValue
                             | m => Ok (Some (draws k mod m), S k)
                             end
                      end;
      (* 1197-1226 *)
      do found <- match nf with
                  | [] => Ok None
                  | _ => do i <- of_opt EName idx;
                         do n <- of_opt EIndex (nth_error nf i);
                         match edge_name edges n start with
                         | Some _ => Ok (rating st (edge_name edges n from))
                         | None => Ok None
                         end
                  end;
      match found with
      | Some x => Ok (x, idx, k)
      | None =>
        (* 1229-1258 *)
        do found <- match nt with
                    | [] => Ok None
                    | _ => do i <- of_opt EName idx;
                           do n <- of_opt EIndex (nth_error nt i);
                           Ok (rating st (edge_name edges to n))
                    end;
        match found with
        | Some x => Ok (x, idx, k)
        | None =>
          (* 1267-1269 *)
          do i <- of_opt EName idx;
          do n <- of_opt EIndex (nth_error nt i);
          search fuel' st start n n idx k
        end
      end
    | _, _ => Err EValue
    end
  end.

(** Lines 1121-1280 for the object at position [i]. *)
Definition one_device (fuel : nat) (acc : list sobj * option nat * nat) (i : nat) : res (list sobj * option nat * nat) :=
  let '(st, idx, k) := acc in
  match nth_error st i with
  | None => Ok acc
  | Some o =>
    if s_device o then
      match s_wires o with
      | Some (Some l) =>
        if existsb is_missing l then Err EType                          (* 1136: isnan of objects *)
        else if existsb is_nan l then
          match numbers l with
          | x :: r => Ok (sset st i (set_all o (max_of x r)), idx, k)   (* 1140-1154 *)
          | [] =>
            match s_from o, s_to o with
            | Some f, Some t =>
              do '(v, idx', k') <- search fuel st f f t idx k;
              Ok (sset st i (set_all o v), idx', k')
            | _, _ => Ok acc
            end
          end
        else Ok acc
      | _ => Err EType
      end
    else Ok acc
  end.
Definition set_switching_devices_ampacity (fuel : nat) (st : list sobj) : res (list sobj) :=
  do '(st', _, _) <- foldM (one_device fuel) (seq 0 (length st)) (st, None, 0);
  Ok st'.
End Ampacity.
