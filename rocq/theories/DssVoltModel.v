(** Nominal voltages of the OpenDSS reader.
    Models ditto/readers/opendss/read.py 259-309 (set_nominal_voltages), with ditto/store.py 76-77, 119-123 and
    ditto/models/base.py 26-36 (the names of a model).

    Simplifications: an object is its name (None when it has no attribute "name"), its place in the network and its
    voltage: None when it has no attribute "nominal_voltage", Some None when it is not set. Voltages are reals. Names are
    texts, so that nothing is found under None. The voltage of a node, and of the objects with one connecting element or
    with two ends, is an attribute; that of a transformer or regulator belongs to its windings. *)
From Verif Require Import Base.
From Coq Require Import Reals.
Local Open Scope string_scope.
Local Open Scope nat_scope.
Local Open Scope list_scope.

Inductive place := PNode | PAt (c : option string) | PFrom (f : option string) | PTrafo (f t : option string) (windings : list (option R)) | POther.
Record vobj := mkV { v_name : option string; v_place : place; v_volt : option (option R) }.

(** store.py 119-123, base.py 26-36: the last object of a name *)
Fixpoint index_of (objs : list vobj) (k : string) : option nat :=
  match objs with
  | [] => None
  | o :: t =>
    match index_of t k with
    | Some i => Some (S i)
    | None => match v_name o with Some n => if String.eqb n k then Some 0 else None | None => None end
    end
  end.
Fixpoint put {A} (l : list A) (i : nat) (x : A) : list A :=
  match l, i with [], _ => [] | _ :: t, O => x :: t | h :: t, S j => h :: put t j x end.
(** [model[k].nominal_voltage]; None when there is an exception *)
Definition volt_of (objs : list vobj) (k : option string) : option (option R) :=
  match k with
  | None => None
  | Some n => match index_of objs n with Some i => match nth_error objs i with Some o => v_volt o | None => None end | None => None end
  end.
(** 266-276 *)
Definition bus_step (objs : list vobj) (b : string * R) : list vobj :=
  match index_of objs (lower (fst b)) with
  | Some i => match nth_error objs i with Some o => put objs i (mkV (v_name o) (v_place o) (Some (Some (snd b * sqrt 3 * 1000)%R))) | None => objs end
  | None => objs
  end.
(** 293-309 *)
Definition winding_step (objs : list vobj) (f t : option string) (ws : list (option R)) (x : nat) : list (option R) :=
  match nth_error ws x with
  | Some None => match volt_of objs (match x with O => f | _ => t end) with Some v => put ws x v | None => ws end
  | _ => ws
  end.
(** 279-309 *)
Definition obj_step (objs : list vobj) (i : nat) : list vobj :=
  match nth_error objs i with
  | None => objs
  | Some o =>
    match v_volt o with
    | Some None =>
      match v_place o with
      | PAt k | PFrom k => match volt_of objs k with Some v => put objs i (mkV (v_name o) (v_place o) (Some v)) | None => objs end
      | _ => objs
      end
    | _ =>
      match v_place o with
      | PTrafo f t ws => put objs i (mkV (v_name o) (PTrafo f t (fold_left (winding_step objs f t) [0; 1; 2] ws)) (v_volt o))
      | _ => objs
      end
    end
  end.
(** 259-309; [buses]: the buses of the circuit and their base voltages in kV *)
Definition set_nominal_voltages (buses : list (string * R)) (objs : list vobj) : list vobj :=
  fold_left obj_step (seq 0 (length objs)) (fold_left bus_step buses objs).
