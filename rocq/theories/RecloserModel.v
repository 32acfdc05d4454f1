(** Replacing a switch of each feeder by a recloser.
    Models ditto/modify/system_structure.py 435-492 (replace_kth_switch_with_recloser).

    Simplifications:
    - The attributes of the objects that the function reads or writes are a list beside the objects of
      the network ([elem], NetworkModel.v), by position.
    - The draws of numpy's generator are a parameter: [draws i] is the i-th.
    - Voltages are rationals.
    - edge_equipment_name is looked up in both orientations, which is [edge_attr] (VoltModel.v).
    - The traits store 1 and 0 as True and False (traitlets' Bool).
    - After an exception the objects changed before it are not part of the result. *)
From Verif Require Import Base StoreModel NetworkModel VoltModel.
From Coq Require Import QArith.
Local Open Scope string_scope.
Local Open Scope nat_scope.
Local Open Scope list_scope.

(** Outer None: the class has no such attribute. *)
Record robj := mkRobj {
  r_head : option (option bool);                 (* is_substation_connection *)
  r_volt : option (option Q);                    (* nominal_voltage *)
  r_switch : option (option bool);               (* is_switch *)
  r_wires : option (option (list (option bool))); (* is_open of the wires; inner None: wires is None *)
  r_recloser : option (option bool) }.           (* is_recloser *)

(** Lines 476-482 *)
Definition closed_switch (o : robj) : res bool :=
  match r_switch o with
  | Some (Some true) =>
    match r_wires o with
    | None => Ok false
    | Some None => Err EType
    | Some (Some []) => Ok false
    | Some (Some (w :: _)) => Ok (match w with Some true => false | _ => true end)
    end
  | _ => Ok false
  end.

(** Lines 485-486 *)
Definition recloser (o : robj) : robj := mkRobj (r_head o) (r_volt o) (Some (Some false)) (r_wires o) (Some (Some true)).
Fixpoint rset (st : list robj) (p : nat) (o : robj) : list robj :=
  match st, p with
  | [], _ => []
  | _ :: t, O => o :: t
  | x :: t, S k => x :: rset t k o
  end.

Section Replace.
Variable es : list elem.
Variable n : network.

(** Lines 457-490.  [last] is the variable _name, None: not bound yet; a lookup that fails (475) and an
    unbound name end the walk. *)
Fixpoint walk_down (fuel : nat) (st : list robj) (last : option (option string)) (from : string) (cnt target : nat) : res (list robj * option (option string)) :=
  match fuel with
  | O => Err EFuel
  | S fuel' =>
    match succ (net_di n) from with                                       (* 459-462 *)
    | Err _ => Ok (st, last)
    | Ok [] => Ok (st, last)
    | Ok (c :: _) =>
      let last := match edge_attr (net_graph n) from c with Some a => Some (ea_name a) | None => last end in  (* 465-468 *)
      match last with
      | None => Ok (st, last)                                             (* 471-474 *)
      | Some nm =>
        match lookup es nm with
        | None => Ok (st, last)
        | Some p =>
          match nth_error st p with
          | None => Ok (st, last)
          | Some o =>
            do b <- closed_switch o;
            if b then
              if S cnt =? target then Ok (rset st p (recloser o), last)   (* 483-487 *)
              else walk_down fuel' st last c (S cnt) target
            else walk_down fuel' st last c cnt target
          end
        end
      end
    end
  end.

(** Lines 440-490; [i] is the position of the object, [k] the number of draws so far. *)
Fixpoint replace_from (fuel : nat) (draws : nat -> nat) (l : list elem) (i k : nat) (st : list robj) (last : option (option string)) : res (list robj) :=
  match l with
  | [] => Ok st
  | e :: r =>
    match nth_error st i with
    | None => Ok st
    | Some o =>
      match r_head o with
      | Some (Some true) =>
        match r_volt o with
        | None => replace_from fuel draws r (S i) (S k) st last
        | Some None => Err EType                                          (* 449: None < 69000 *)
        | Some (Some v) =>
          if Qle_bool 69000 v then replace_from fuel draws r (S i) (S k) st last
          else
            match e_name e with
            | Some (Some h) =>
              do '(st', last') <- walk_down fuel st last h 0 (draws k);
              replace_from fuel draws r (S i) (S k) st' last'
            | _ => replace_from fuel draws r (S i) (S k) st last          (* None is no node: 462 *)
            end
        end
      | _ => replace_from fuel draws r (S i) k st last
      end
    end
  end.
Definition replace_kth_switch_with_recloser (draws : nat -> nat) (st : list robj) : res (list robj) :=
  replace_from (S (length (d_nodes (net_di n)))) draws es 0 0 st None.
End Replace.
