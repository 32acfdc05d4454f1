(** The networks of the feeders.
    Models ditto/metrics/network_analysis.py 202-267 (add_feeder_information, split_network_into_feeders)
    and 545-588 (connect_disconnected_components).

    Simplifications:
    - Names of feeders and nodes are strings; a name in feeder_nodes that is no node of the graph is ignored by
      networkx's [subgraph].
    - The order of the components of a subgraph and of a set is not specified: [pick] gives the two nodes n1, n2
      that the code takes from the first two components, [path] the shortest path that networkx returns.  The
      theorems quantify over all of them.
    - The feeder networks are their lists of nodes: [subgraph] adds all edges of the graph between them.
    - No two entries of feeder_nodes are the same list object.
    - The loop has [fuel]. *)
From Verif Require Import Base StoreModel NetworkModel.
Local Open Scope string_scope.
Local Open Scope nat_scope.
Local Open Scope list_scope.

(** feeder_types: a string, a list or anything else. *)
Inductive types := TOne (t : string) | TList (ts : list string) | TOther.

(** Lines 202-234; [old]: feeder_types before (None: no such attribute). *)
Definition add_feeder_information (old : option (dict string)) (names : list string) (nodes : list (list string)) (ts : types) : res (option (dict string)) :=
  if Nat.eqb (length names) (length nodes) then
    match ts with
    | TOne t => Ok (Some (fold_left (fun d k => dset d k t) names []))
    | TList l => if Nat.eqb (length names) (length l)
                 then Ok (Some (fold_left (fun d (kv : string * string) => dset d (fst kv) (snd kv)) (combine names l) []))
                 else Err EValue
    | TOther => Ok old
    end
  else Err EValue.

(** [G.subgraph(l)] *)
Definition subgraph (g : graph) (l : list string) : graph :=
  mkGraph (filter (fun x => smem x l) (g_nodes g))
          (filter (fun e : edge => let '(x, y, _) := e in smem x l && smem y l) (g_edges g)).

(** The nodes that a breadth-first search from [x] meets. *)
Definition component (g : graph) (x : string) : res (list string) :=
  do t <- bfs_order g x; Ok (x :: map snd t).

(** [nx.is_connected]: NetworkXPointlessConcept for the graph without nodes. *)
Definition is_connected (g : graph) : res bool :=
  match g_nodes g with
  | [] => Err ENetworkX
  | x :: _ => do c <- component g x; Ok (Nat.eqb (length c) (length (g_nodes g)))
  end.

(** [l.index(x)] *)
Fixpoint index (x : string) (l : list string) : option nat :=
  match l with
  | [] => None
  | y :: t => if String.eqb y x then Some 0 else match index x t with Some i => Some (S i) | None => None end
  end.

Fixpoint put {A} (l : list A) (i : nat) (x : A) : list A :=
  match l, i with
  | [], _ => []
  | _ :: t, O => x :: t
  | y :: t, S k => y :: put t k x
  end.

(** Lines 584-588 *)
Definition add_missing (l : list string) (path : list string) : list string :=
  fold_left (fun l x => if smem x l then l else l ++ [x]) path l.

Section Split.
Variable g : graph.
Variable pick : graph -> string * string.
Variable path : string -> string -> list string.

(** Lines 545-588; [next(cc)] raises StopIteration if there are not two components. *)
Definition connect_disconnected_components (names : list string) (nodes : list (list string)) (name : string) : res (list (list string)) :=
  do idx <- of_opt EValue (index name names);
  do l <- of_opt EIndex (nth_error nodes idx);
  let sub := subgraph g l in
  match is_connected sub with
  | Ok false =>
    let '(n1, n2) := pick sub in
    if String.eqb n1 n2 then Err EValue                                       (* 577-580 *)
    else
      do c <- component g n1;
      if smem n2 c then Ok (put nodes idx (add_missing l (path n1 n2)))       (* 582-588 *)
      else Err ENetworkX                                                      (* NetworkXNoPath *)
  | Ok true => Err EStop
  | Err ENetworkX => Err EStop
  | Err e => Err e
  end.

(** Lines 248-262: the loop for the feeder number [cpt]. *)
Fixpoint connect_loop (fuel : nat) (names : list string) (nodes : list (list string)) (cpt : nat) (name : string) : res (list (list string)) :=
  do l <- of_opt EIndex (nth_error nodes cpt);
  do c <- is_connected (subgraph g l);
  if c then Ok nodes
  else match fuel with
       | O => Err EFuel
       | S fuel' => do nodes' <- connect_disconnected_components names nodes name; connect_loop fuel' names nodes' cpt name
       end.

(** feeder_nodes, feeder_networks, node_feeder_mapping *)
Definition split_state := (list (list string) * dict (list string) * dict string)%type.

(** Lines 247-267 for one feeder. *)
Definition split_one (fuel : nat) (names : list string) (st : split_state) (cn : nat * string) : res split_state :=
  let '(nodes, nets, m) := st in
  let '(cpt, name) := cn in
  do nodes' <- connect_loop fuel names nodes cpt name;
  do l <- of_opt EIndex (nth_error nodes' cpt);
  let net := g_nodes (subgraph g l) in
  Ok (nodes', dset nets name net, fold_left (fun m x => dset m x name) net m).

(** Lines 236-267; feeder_networks and node_feeder_mapping are empty before. *)
Definition split_network_into_feeders (fuel : nat) (names : list string) (nodes : list (list string)) : res split_state :=
  foldM (split_one fuel names) (combine (seq 0 (length names)) names) (nodes, [], []).
End Split.
