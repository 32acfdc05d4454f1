(** The voltages that the objects of a model should have. *)
From Verif Require Import Base DssVoltModel.
From Coq Require Import Reals.
Local Open Scope string_scope.
Local Open Scope nat_scope.
Local Open Scope list_scope.

(** the voltage of the bus [n] in volts, from phase to phase *)
Definition bus_volt (buses : list (string * R)) (n : string) (v : R) : Prop := exists b kv, In (b, kv) buses /\ lower b = n /\ v = (kv * sqrt 3 * 1000)%R.
Definition no_bus (buses : list (string * R)) (n : option string) : Prop := forall m v, n = Some m -> ~ bus_volt buses m v.
Definition names (objs : list vobj) : list string := flat_map (fun o => match v_name o with Some n => [n] | None => [] end) objs.
Definition has_node (objs : list vobj) (n : string) : Prop := exists o, In o objs /\ v_name o = Some n /\ v_place o = PNode.
(** the bus that an object takes its voltage from *)
Definition stands_at (o : vobj) (n : string) : Prop := v_place o = PAt (Some n) \/ v_place o = PFrom (Some n).
(** what stays: everything but the voltages *)
Definition same_place (p q : place) : Prop :=
  match p, q with PTrafo f t ws, PTrafo f' t' ws' => f = f' /\ t = t' /\ length ws = length ws' | PTrafo _ _ _, _ | _, PTrafo _ _ _ => False | _, _ => p = q end.
Definition same_object (o o' : vobj) : Prop := v_name o = v_name o' /\ same_place (v_place o) (v_place o').
(** the winding [x] of a transformer between [f] and [t] *)
Definition side (f t : option string) (x : nat) : option string := match x with 0 => f | _ => t end.
