(** The structure modifier: construction and voltage propagation.
    Models ditto/modify/system_structure.py 44-106 and 214-273.

    Simplifications:
    - The objects of a model are split into what the network reads ([elem], NetworkModel.v), their
      nominal_voltage ([volts], by position) and the winding voltages of the transformers.
    - Voltages are rationals.
    - edge_equipment and edge_equipment_name (lines 103-106) hold each edge of the undirected graph
      in one of its two orientations and every lookup of the code tries both, which is [edge_attr].
    - Python's recursion limit is not modelled. *)
From Verif Require Import Base StoreModel NetworkModel.
From Coq Require Import QArith.
Local Open Scope string_scope.
Local Open Scope nat_scope.
Local Open Scope list_scope.

(** ** Construction: 44-106 *)

(** A PowerSource: name, is_sourcebus, nominal_voltage. *)
Record source_obj := mkSource { s_name : option string; s_bus : bool; s_volt : option Q }.

(** [np.unique] on a list of names: sorting compares names, and None with anything is a TypeError. *)
Definition np_unique (l : list (option string)) : res (list (option string)) :=
  match l with
  | [] => Ok []
  | [x] => Ok [x]
  | _ => do names <- mapM (of_opt EType) l; Ok (map Some (dedup (node_sort names)))
  end.

(** Lines 58-75 *)
Definition find_source (srcs : list source_obj) (args : list string) : res (option string) :=
  match args with
  | [a] => Ok (Some a)
  | _ =>
    do u <- np_unique (map s_name (filter s_bus srcs));
    match u with
    | [] => Err EValue
    | [x] => Ok x
    | _ => Err EValue
    end
  end.

(** Lines 79-86: the last one wins; None: the attribute source_voltage is not set. *)
Definition source_voltage (srcs : list source_obj) : option Q :=
  fold_left (fun acc x => if s_bus x then match s_volt x with Some v => Some v | None => acc end else acc) srcs None.

Record modifier := mkModifier { m_source : string; m_voltage : option Q; m_net : network }.

(** Lines 44-106.  A source named None is no node of the graph. *)
Definition modifier_init (es : list elem) (srcs : list source_obj) (args : list string) : res modifier :=
  do s <- find_source srcs args;
  match s with
  | None => Err EKey
  | Some s => do n <- build es s; Ok (mkModifier s (source_voltage srcs) n)
  end.

(** ** Nominal voltages: 214-254 *)

(** nominal_voltage of each object; the outer None: the class has no such attribute. *)
Definition volts := list (option (option Q)).

Fixpoint vset (vs : volts) (i : nat) (v : option Q) : volts :=
  match vs, i with
  | [], _ => []
  | x :: t, O => (match x with Some _ => Some v | None => None end) :: t
  | x :: t, S k => x :: vset t k v
  end.

(** [min([w.nominal_voltage for w in windings if w.nominal_voltage is not None])] *)
Fixpoint keep {A} (l : list (option A)) : list A :=
  match l with [] => [] | Some x :: t => x :: keep t | None :: t => keep t end.
Definition py_min (l : list Q) : res Q :=
  match l with
  | [] => Err EValue
  | x :: t => Ok (fold_left (fun m y => if Qle_bool m y then m else y) t x)
  end.

Section Recur.
Variable es : list elem.
(** [model[...].windings]: the nominal voltages of the windings of the object at a position. *)
Variable windings : nat -> res (list (option Q)).

(** [G.digraph.successors(v)] *)
Definition succ (d : digraph) (v : string) : res (list string) :=
  if smem v (d_nodes d) then Ok (successors d v) else Err ENetworkX.

(** Lines 227-249 *)
Definition new_value (n : network) (prev node : string) (voltage : Q) : res Q :=
  match edge_attr (net_graph n) prev node with
  | Some a =>
    if String.eqb (ea_cls a) "PowerTransformer" then
      do i <- of_opt EKey (lookup es (ea_name a));
      do ws <- windings i;
      py_min (keep ws)
    else Ok voltage
  | None => Ok voltage
  end.

Fixpoint recur (fuel : nat) (n : network) (node : string) (voltage : Q) (prev : string) (vs : volts) : res volts :=
  match fuel with
  | O => Err EFuel
  | S fuel' =>
    do v <- new_value n prev node voltage;
    do i <- of_opt EKey (lookup es (Some node));                       (* 250-251 *)
    do children <- succ (net_di n) node;                               (* 252 *)
    foldM (fun vs c => recur fuel' n c v node vs) children (vset vs i (Some v))
  end.

(** Lines 221-224; the attribute source_voltage may be missing. *)
Definition set_nominal_voltages_recur (fuel : nat) (m : modifier) (vs : volts) : res volts :=
  do v <- of_opt EAttr (m_voltage m);
  recur fuel (m_net m) (m_source m) v (m_source m) vs.

(** ** Lines: 256-273 *)
Definition volt (vs : volts) (i : nat) : option Q := match nth_error vs i with Some (Some v) => v | _ => None end.

Definition line_step (vs : volts) (ie : nat * elem) : res volts :=
  let '(i, e) := ie in
  if String.eqb (e_cls e) "Line" then
    match volt vs i with
    | Some _ => Ok vs
    | None =>
      match e_from e with
      | None => Ok vs
      | Some f =>
        do p <- of_opt EKey (lookup es (Some f));
        match volt vs p with
        | Some v => Ok (vset vs i (Some v))
        | None => Ok vs
        end
      end
    end
  else Ok vs.
Definition set_nominal_voltages_recur_line (vs : volts) : res volts :=
  foldM line_step (combine (seq 0 (length es)) es) vs.
End Recur.
