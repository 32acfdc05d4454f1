(** The voltages of the edges of a Windmil graph.
    Models ditto/readers/windmil_ascii/wm_reader.py lines 112-132
    ([get_base_kv], [get_edge_attribute], [iterate_nodes]).
    Simplifications: the first edge into a node is a parameter; the recursion has
    fuel, and running out of it stands for Python's RecursionError. *)
From Verif Require Import Base.
Local Open Scope string_scope.
Local Open Scope list_scope.

Definition edge : Type := string * string.
Definition edge_eqb (a b : edge) : bool := String.eqb (fst a) (fst b) && String.eqb (snd a) (snd b).

Section Graph.
Context {V : Type}.
(** [nxGraph.in_edges([node])[0]], if there is one. *)
Variable into : string -> option edge.

(** The attribute "kv" of the edges: missing, or there with a value that may be
    Python's None. *)
Definition attr := edge -> option (option V).

(** [nxGraph[u][v]["kv"] = value] *)
Definition set_attr (st : attr) (e : edge) (x : option V) : attr :=
  fun e' => if edge_eqb e e' then Some x else st e'.

(** wm_reader.py 124-132 [iterate_nodes]: the edges walked (EdgePath) and the value. *)
Fixpoint iterate_nodes (fuel : nat) (st : attr) (e : edge) : res (list edge * option V) :=
  match fuel with
  | O => Err EFuel
  | S f =>
      match st e with
      | Some x => Ok ([e], x)
      | None =>
          match into (fst e) with
          | Some e' => do px <- iterate_nodes f st e'; Ok (e :: fst px, snd px)
          | None => Ok ([e], None)
          end
      end
  end.

(** wm_reader.py 117-122 [get_edge_attribute]: the value is put on the whole path. *)
Definition get_edge_attribute (fuel : nat) (st : attr) (e : edge) : res attr :=
  do px <- iterate_nodes fuel st e;
  Ok (fold_left (fun s e' => set_attr s e' (snd px)) (fst px) st).

(** wm_reader.py 112-115 [get_base_kv]. *)
Definition get_base_kv (fuel : nat) (es : list edge) (st : attr) : res attr :=
  foldM (fun s e => match s e with Some _ => Ok s | None => get_edge_attribute fuel s e end) es st.
End Graph.
