(** Head nodes of the feeders and positions of the loads.
    Models ditto/modify/system_structure.py 178-212 (set_feeder_headnodes) and 275-341 (set_load_coordinates).

    Simplifications:
    - Of the objects only what the functions read and write is kept.
    - The digraph is given by its successors; [None]: not a node, NetworkXError.
    - [self.model[h].nominal_voltage] is a parameter, it may raise.
    - ASCII text only. *)
From Coq Require Import List String Ascii Bool Arith QArith.
From Verif Require Import Base CsvModel.
Import ListNotations.
Local Open Scope string_scope.
Local Open Scope nat_scope.
Local Open Scope list_scope.

(** A Feeder_metadata. *)
Record meta := mkMeta { f_name : option string; f_sub : option string; f_head : option string; f_nominal : option Q; f_operating : option Q }.

(** [s.replace(sub, "")]: [skip] counts the letters of an occurrence that are still to be dropped. *)
Fixpoint remove_from (sub : string) (skip : nat) (s : string) : string :=
  match s with
  | EmptyString => EmptyString
  | String c t =>
    match skip with
    | S k => remove_from sub k t
    | O => if String.prefix sub s then remove_from sub (String.length sub - 1) t else String c (remove_from sub 0 t)
    end
  end.
Definition remove (sub s : string) : string := remove_from sub 0 s.
(** [s.strip("x")] *)
Fixpoint lstrip_x (s : string) : string := match s with String "x" t => lstrip_x t | _ => s end.
Fixpoint rstrip_x (s : string) : string :=
  match s with
  | EmptyString => EmptyString
  | String a t => match rstrip_x t with EmptyString => if Ascii.eqb a "x" then EmptyString else String a EmptyString | r => String a r end
  end.
Definition strip_x (s : string) : string := rstrip_x (lstrip_x s).

(** Line 187 *)
Definition clean_name (n : string) : string := remove "_src" (lower (remove "." n)).
(** Lines 199-204 *)
Definition reverse_name (h : string) : res string :=
  if substr_in ">" h then
    match split_on ">" h with
    | [a; b] => Ok (b ++ "->" ++ a)%string
    | _ => Err EValue
    end
  else Ok h.
(** [l.index(x)] *)
Fixpoint index_of (l : list string) (x : string) : option nat :=
  match l with
  | [] => None
  | y :: t => if String.eqb y x then Some 0 else match index_of t x with Some i => Some (S i) | None => None end
  end.

Section Heads.
Variable successors : string -> option (list string).
Variable voltage_of : string -> res (option Q).

(** Lines 186-212 *)
Definition set_head (f : meta) : res meta :=
  do n <- of_opt EAttr (f_name f);
  let name := clean_name n in
  do sub <- of_opt ENetworkX (f_sub f);
  do heads <- of_opt ENetworkX (successors sub);                                     (* 188 *)
  if smem name heads then Ok (mkMeta (f_name f) (f_sub f) (Some name) (f_nominal f) (f_operating f))   (* 190-191 *)
  else
    let stripped := map strip_x heads in                                             (* 193 *)
    match index_of stripped name with
    | Some i => do h <- of_opt EIndex (nth_error heads i); Ok (mkMeta (f_name f) (f_sub f) (Some h) (f_nominal f) (f_operating f))   (* 195-196 *)
    | None =>
      do rev <- mapM reverse_name stripped;                                          (* 198-204 *)
      match index_of rev name with
      | None => Ok f
      | Some i =>
        do h <- of_opt EIndex (nth_error heads i);
        do v <- voltage_of h;
        Ok (mkMeta (f_name f) (f_sub f) (Some h) v v)                                (* 205-212 *)
      end
    end.
(** Lines 184-212 *)
Definition set_feeder_headnodes (l : list meta) : res (list meta) := mapM set_head l.
End Heads.

(** ** Load coordinates *)
Record cobj := mkCobj { c_load : bool; c_name : option string; c_conn : option (option string); c_class : string; c_positions : option (list (option Q * option Q * option Q)) }.

Section Coordinates.
(** [hasattr(x, "position") and x.position is not None] for an object of the class: no class of /repo/ditto/models has such an attribute. *)
Variable has_position : string -> bool.
Variables delta_long delta_lat delta_elev : Q.
(** [Position()]: DiTToHasTraits needs the model (models/base.py 21), so this is a TypeError. *)
Definition new_position : res (option Q * option Q * option Q) := Err EType.
(** [self.model[name]] *)
Fixpoint object_named (l : list cobj) (x : string) : option cobj :=
  match l with
  | [] => None
  | o :: t => match object_named t x with Some p => Some p | None => match c_name o with Some n => if String.eqb n x then Some o else None | None => None end end
  end.
Definition plus (a : option Q) (b : Q) : res (option Q) := match a with Some x => Ok (Some (x + b)%Q) | None => Err EType end.
(** Lines 328-338: the positions made before an exception stay. *)
Fixpoint place (ps : list (option Q * option Q * option Q)) (made : list (option Q * option Q * option Q)) : list (option Q * option Q * option Q) :=
  match ps with
  | [] => made
  | (lo, la, el) :: r =>
    match (do _ <- new_position; do lo' <- plus lo delta_long; do la' <- plus la delta_lat; do el' <- plus el delta_elev; Ok (lo', la', el')) with
    | Ok p => place r (made ++ [p])
    | Err _ => made
    end
  end.
(** Lines 316-341; the exceptions are swallowed. *)
Definition set_one (all : list cobj) (o : cobj) : cobj :=
  if c_load o then
    match c_positions o, c_conn o with
    | None, Some (Some c) =>
      match object_named all c with
      | None => o
      | Some x =>
        if has_position (c_class x) then
          match c_positions x with
          | None => mkCobj (c_load o) (c_name o) (c_conn o) (c_class o) (Some [])
          | Some ps => mkCobj (c_load o) (c_name o) (c_conn o) (c_class o) (Some (place ps []))
          end
        else o
      end
    | _, _ => o
    end
  else o.
(** Lines 315-341; an object changed earlier is seen changed later. *)
Fixpoint set_from (done todo : list cobj) : list cobj :=
  match todo with
  | [] => done
  | o :: r => set_from (done ++ [set_one (done ++ o :: r) o]) r
  end.
Definition set_load_coordinates (l : list cobj) : list cobj := set_from [] l.
End Coordinates.
