(** Shared vocabulary of the model: Python exceptions as values, Python
    dictionaries as insertion-ordered association lists, ASCII string helpers.
    Nothing in this file models a particular function of /repo; it fixes the
    meaning of the Python constructs the other model files use. *)
From Coq Require Export String Ascii List Bool Arith ZArith Lia.
Export ListNotations.
Local Open Scope list_scope.

(** The exception classes that the modelled code can raise. *)
Inductive exn :=
| EKey | EValue | EType | EAttr | EIndex | EStop | ENotImpl | EName
| EZeroDiv | ENodeNotFound | ENetworkX | EAssert | EFuel.

(** Outcome of a Python call. *)
Inductive res (A : Type) :=
| Ok (a : A)
| Err (e : exn).
Arguments Ok {A} a.
Arguments Err {A} e.

Definition bind {A B} (r : res A) (f : A -> res B) : res B :=
  match r with Ok a => f a | Err e => Err e end.

Declare Scope res_scope.
Delimit Scope res_scope with res.
Notation "'do' x <- r ; k" := (bind r (fun x => k))
  (at level 200, x name, r at level 100, k at level 200) : res_scope.
Notation "'do' ' p <- r ; k" := (bind r (fun x => match x with p => k end))
  (at level 200, p pattern, r at level 100, k at level 200) : res_scope.
Open Scope res_scope.

Definition of_opt {A} (e : exn) (o : option A) : res A :=
  match o with Some a => Ok a | None => Err e end.

(** [for x in l: acc = f(acc, x)], stopping at the first exception. *)
Fixpoint foldM {A S} (f : S -> A -> res S) (l : list A) (s : S) : res S :=
  match l with
  | [] => Ok s
  | x :: t => match f s x with Ok s' => foldM f t s' | Err e => Err e end
  end.

(** [[f(x) for x in l]], stopping at the first exception. *)
Fixpoint mapM {A B} (f : A -> res B) (l : list A) : res (list B) :=
  match l with
  | [] => Ok []
  | x :: t => match f x with
              | Ok y => match mapM f t with Ok ys => Ok (y :: ys) | Err e => Err e end
              | Err e => Err e
              end
  end.

(** ** Python dictionaries with string keys *)
Section Dict.
  Context {V : Type}.
  Definition dict := list (string * V).

  (** [d[k]] / [d.get(k)] *)
  Fixpoint dget (d : dict) (k : string) : option V :=
    match d with
    | [] => None
    | (k', v) :: t => if String.eqb k' k then Some v else dget t k
    end.

  (** [d[k] = v]: the key keeps its place if present, else it goes last. *)
  Fixpoint dset (d : dict) (k : string) (v : V) : dict :=
    match d with
    | [] => [(k, v)]
    | (k', v') :: t => if String.eqb k' k then (k', v) :: t else (k', v') :: dset t k v
    end.

  (** [k in d] *)
  Definition dmem (d : dict) (k : string) : bool :=
    match dget d k with Some _ => true | None => false end.

  (** [d.pop(k)] restricted to its effect on the dictionary. *)
  Fixpoint ddel (d : dict) (k : string) : dict :=
    match d with
    | [] => []
    | (k', v') :: t => if String.eqb k' k then t else (k', v') :: ddel t k
    end.

  Definition dkeys (d : dict) : list string := map fst d.
End Dict.
Arguments dict : clear implicits.

(** ** ASCII strings *)

(** [str.lower()] on one ASCII character (non-ASCII case mapping is not modelled). *)
Definition lower_ascii (c : ascii) : ascii :=
  let n := nat_of_ascii c in
  if (65 <=? n) && (n <=? 90) then ascii_of_nat (n + 32) else c.

(** [str.lower()] *)
Fixpoint lower (s : string) : string :=
  match s with
  | EmptyString => EmptyString
  | String c t => String (lower_ascii c) (lower t)
  end.

(** [s in l] for a list of strings. *)
Definition smem (s : string) (l : list string) : bool := existsb (String.eqb s) l.

(** [sub in s] for strings. *)
Fixpoint substr_in (sub s : string) : bool :=
  if String.prefix sub s then true
  else match s with EmptyString => false | String _ t => substr_in sub t end.

(** A Python value as far as the type tests of the modelled code distinguish it. *)
Inductive pyunit :=
| PNone              (* None *)
| PStr (s : string)  (* a str *)
| POther.            (* anything that is neither *)
