(** Voltages of nodes from their transformers.
    Models ditto/store.py 186-199 (set_node_voltages).

    Simplifications: as in VoltModel.v.  [windings p] are the nominal voltages of the windings of the object at the
    position [p], AttributeError if its class has no windings.  set_names has no effect on what is read: [lookup] is
    the dictionary it makes (NetworkModel.v).  get_upstream_transformer has its [fuel]. *)
From Verif Require Import Base StoreModel NetworkModel VoltModel.
From Coq Require Import QArith.
Local Open Scope string_scope.
Local Open Scope nat_scope.
Local Open Scope list_scope.

Section NodeVolt.
Variable es : list elem.
Variable windings : nat -> res (list (option Q)).
Variable fuel : nat.
Variable n : network.

(** [l[-1]] *)
Fixpoint final {A} (l : list A) : res A := match l with [] => Err EIndex | [x] => Ok x | _ :: r => final r end.

(** Lines 190-199.  [model[None]] is the last object whose name is None. *)
Definition set_one (vs : volts) (p : nat * elem) : res volts :=
  match e_name (snd p) with
  | Some (Some x) =>
    if String.eqb (e_cls (snd p)) "Node" then
      do t <- get_upstream_transformer fuel n x;
      match lookup es t with
      | None => Ok vs
      | Some q => do ws <- windings q; do v <- final ws; Ok (vset vs (fst p) v)
      end
    else Ok vs
  | _ => Ok vs
  end.
Fixpoint numbered (k : nat) (l : list elem) : list (nat * elem) := match l with [] => [] | e :: r => (k, e) :: numbered (S k) r end.
Definition set_node_voltages (vs : volts) : res volts := foldM set_one (numbered 0 es) vs.
End NodeVolt.
