(** The phases of secondary windings taken from the loads.
    Models ditto/modify/system_structure.py 974-1078 (terminals_to_phases).

    Simplifications:
    - The phases of the phase loads, the upstream_transformer_name of the loads and the windings of the
      transformers are lists beside the objects of the network ([elem], NetworkModel.v), by position.
    - Of a phase winding only the phase is kept; a new PhaseWinding has phase None.
    - A new PhaseWinding registers itself at the end of the model; it has no name, no network attribute and is no
      Load, and [models] is a tuple made before the loop (store.py 100-102), so the registration is left out.
    - No two objects share a list of phase windings, or an element of one.
    - The climb has [fuel]. *)
From Verif Require Import Base StoreModel NetworkModel VoltModel CenterTapModel.
Local Open Scope string_scope.
Local Open Scope nat_scope.
Local Open Scope list_scope.

Definition phase := option string.
(** [phase_windings] of one winding; None: the attribute is None. *)
Definition coils := option (list phase).
(** The windings by position; the outer None: the object has no such attribute, the inner one: it is None. *)
Definition coiling := list (option (option (list coils))).
(** The phases of the phase loads by position; None: there is no list of phase loads. *)
Definition load_phases := list (option (list phase)).

(** Lines 1005-1056: the name of the first transformer above [node], if any. *)
Fixpoint find_up (n : network) (fuel : nat) (node : string) : res (option (option string)) :=
  match fuel with
  | O => Err EFuel
  | S fuel' =>
    match predecessors (net_di n) node with
    | Err _ => Ok None                                                        (* 1013-1014 *)
    | Ok [] => Ok None                                                        (* 1013-1014: StopIteration *)
    | Ok ((p, _, _) :: _) =>
      match edge_attr (net_graph n) p node with
      | Some a => if String.eqb (ea_cls a) "PowerTransformer" then Ok (Some (ea_name a)) else find_up n fuel' p
      | None => find_up n fuel' p
      end
    end
  end.

(** Lines 1067-1070 and 1075-1078: [for w, x in zip(windings, phases): w.phase = x]. *)
Fixpoint overwrite (old new : list phase) : list phase :=
  match old, new with
  | _ :: o, x :: r => x :: overwrite o r
  | _, _ => old
  end.

(** Lines 1061-1078 for the transformer at position [q]. *)
Definition set_secondary (phs : list phase) (q : nat) (ws : coiling) : res coiling :=
  do w <- match nth_error ws q with Some (Some w) => Ok w | _ => Err EAttr end;
  do w <- of_opt EType w;                                                     (* 1063: len(None) *)
  match w with
  | [a; b] => do b <- of_opt EType b; Ok (put ws q (Some (Some [a; Some (overwrite b phs)])))
  | [a; b; c] => do b <- of_opt EAttr b; Ok (put ws q (Some (Some [a; Some (overwrite (b ++ [None]) phs); c])))
  | _ => Ok ws
  end.

Section Terminals.
Variable es : list elem.
Variable n : network.
Variable lp : load_phases.

(** One object in the loop 990-1078. *)
Definition terminal_step (fuel : nat) (st : list (option string) * coiling) (e : elem) : res (list (option string) * coiling) :=
  let '(ups, ws) := st in
  if String.eqb (e_cls e) "Load" then
    do p <- of_opt EValue (lookup es (key e));
    do phs <- match nth_error lp p with Some (Some l) => Ok l | _ => Err EValue end;
    do t <- match e_conn e with Some c => find_up n fuel c | None => Ok None end;
    match t with
    | None => Ok st
    | Some t =>
      let ups' := put ups p t in
      match t with
      | None => Ok (ups', ws)
      | Some m => do q <- of_opt EKey (lookup es (Some m)); do ws' <- set_secondary phs q ws; Ok (ups', ws')
      end
    end
  else Ok st.

Definition terminals_to_phases (fuel : nat) (ups : list (option string)) (ws : coiling) : res (list (option string) * coiling) :=
  foldM (terminal_step fuel) es (ups, ws).
End Terminals.
