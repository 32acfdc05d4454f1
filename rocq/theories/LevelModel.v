(** Nominal voltages by groups of nodes.
    Models ditto/modify/system_structure.py 523-640 (set_nominal_voltages).

    Simplifications:
    - As in VoltModel.v: voltages are rationals and kept by position; an object whose class has no nominal_voltage
      keeps none (Python sets an attribute there that is not a trait).
    - A component is a set: [order] gives the sequence in which [group.pop()] and the loop take its names.  The
      theorems quantify over all of them.
    - The edges that are removed are put back: the graph is the same up to the order of its edges, which nothing
      here observes.
    - A [windings] that fails stands for a transformer without windings (hasattr, None).
    - get_upstream_transformer has its [fuel] (NetworkModel.v). *)
From Verif Require Import Base StoreModel NetworkModel VoltModel SplitModel.
From Coq Require Import QArith.
Local Open Scope string_scope.
Local Open Scope nat_scope.
Local Open Scope list_scope.

(** Lines 547-555: the graph without the edges of transformers. *)
Definition is_trafo (e : edge) : bool :=
  match snd e with Some a => String.eqb (ea_cls a) "PowerTransformer" | None => false end.
Definition without_trafos (g : graph) : graph := mkGraph (g_nodes g) (filter (fun e => negb (is_trafo e)) (g_edges g)).

(** Lines 558-561: [nx.connected_components] *)
Fixpoint components (g : graph) (todo seen : list string) : res (list (list string)) :=
  match todo with
  | [] => Ok []
  | x :: t =>
    if smem x seen then components g t seen
    else do c <- component g x; do r <- components g t (c ++ seen); Ok (c :: r)
  end.

Section Level.
Variable es : list elem.
Variable windings : nat -> res (list (option Q)).
Variable order : list string -> list string.
Variable fuel : nat.
Variable n : network.

Definition is_cls (c : string) (i : nat) : bool :=
  match nth_error es i with Some e => String.eqb (e_cls e) c | None => false end.

(** Lines 577-579: pops until a Node comes; KeyError from [model[...]] or from the empty set. *)
Fixpoint volunteer (group : list string) : res (string * list string) :=
  match group with
  | [] => Err EKey
  | x :: t => do i <- of_opt EKey (lookup es (Some x)); if is_cls "Node" i then Ok (x, t) else volunteer t
  end.

(** Lines 582-609: the voltage and the transformer of a group. *)
Definition secondary (x : string) : res (option Q * option string) :=
  do t <- get_upstream_transformer fuel n x;
  match t with
  | None => Ok (None, None)
  | Some t =>
    do p <- of_opt EKey (lookup es (Some t));
    match windings p with
    | Err _ => Ok (None, Some t)
    | Ok ws => do v <- py_min (keep ws); Ok (Some v, Some t)
    end
  end.

(** Lines 574-609 for one group: what is left of it, its voltage and its transformer. *)
Definition look_at_group (c : list string) : res (list string * (option Q * option string)) :=
  do vr <- volunteer (order c);
  do s <- secondary (fst vr);
  Ok (snd vr, s).

(** upstream_transformer_name of the loads, by position. *)
Fixpoint uset (us : list (option string)) (i : nat) (t : option string) : list (option string) :=
  match us, i with
  | [], _ => []
  | _ :: r, O => t :: r
  | x :: r, S k => x :: uset r k t
  end.

Definition lstate := (volts * list (option string))%type.

(** Lines 618-623 *)
Definition assign (s : option Q * option string) (st : lstate) (x : string) : res lstate :=
  do i <- of_opt EKey (lookup es (Some x));
  Ok (vset (fst st) i (fst s), if is_cls "Load" i then uset (snd st) i (snd s) else snd st).

(** Lines 612-623 *)
Definition assign_group (st : lstate) (g : list string * (option Q * option string)) : res lstate :=
  foldM (assign (snd g)) (fst g) st.

(** Lines 545-623 *)
Definition set_groups (st : lstate) : res lstate :=
  let g := net_graph n in
  do cs <- components (without_trafos g) (g_nodes g) [];
  do c <- is_connected g;
  if c then
    do gs <- mapM look_at_group cs;
    foldM assign_group gs st
  else Err EAssert.

(** Lines 523-640 *)
Definition set_nominal_voltages (vs : volts) (us : list (option string)) : res lstate :=
  do st <- set_groups (vs, us);
  do vs' <- set_nominal_voltages_recur_line es (fst st);
  Ok (vs', snd st).
End Level.
