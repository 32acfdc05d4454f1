(** The network graph of a model.  Models ditto/network/network.py and the network functions
    of ditto/store.py.

    Simplifications:
    - A model is the list of its objects in registration order, each reduced to the attributes
      that network.py reads ([elem]; [view] computes it from an object of StoreModel.v).
      from_element, to_element, connecting_element and name are Unicode traits of
      /repo/ditto/models, hence strings or None.
    - nx.Graph is its node list and its edge list in insertion order; the adjacency of a node in
      networkx is then the list of the other ends of its edges in that order.  [graph_nodes]
      and [graph_edges] of Network.build only avoid adding a node or edge twice, which networkx
      ignores anyway, and are left out.
    - nx.DiGraph likewise.  set_attributes (network.py 240-320) copies object attributes into the
      graphs without changing their topology or the attributes [equipment], [equipment_name]
      and is left out.
    - A node named None raises ValueError (networkx 2.5 documents that None is not a node). *)
From Verif Require Import Base StoreModel.
Local Open Scope string_scope.
Local Open Scope nat_scope.
Local Open Scope list_scope.

Record elem := mkElem {
  e_cls : string;
  e_name : option (option string);      (* None: the class has no [name] attribute *)
  e_from : option string;
  e_to : option string;
  e_conn : option string;               (* connecting_element *)
  e_length : option scalar;
  e_switch : option (option bool * option bool);  (* None: no is_switch attribute; else (is_switch, is_breaker) *)
  e_wires : option (list (option bool)) (* None: wires is None; else is_open of each wire, None if absent or None *)
}.

Record eattr := mkEattr { ea_cls : string; ea_name : option string; ea_len : scalar }.

(** An edge and its attribute dictionary; [None]: the edge carries no attributes. *)
Definition edge := (string * string * option eattr)%type.
Record graph := mkGraph { g_nodes : list string; g_edges : list edge }.
Definition empty_graph : graph := mkGraph [] [].

Definition same_pair (u v : string) (e : edge) : bool :=
  let '(x, y, _) := e in
  (String.eqb x u && String.eqb y v) || (String.eqb x v && String.eqb y u).

Definition has_edge (g : graph) (u v : string) : bool := existsb (same_pair u v) (g_edges g).

(** [G.add_node(n)] *)
Definition add_node (g : graph) (n : string) : graph :=
  if smem n (g_nodes g) then g else mkGraph (g_nodes g ++ [n]) (g_edges g).

(** The edge list after [G.add_edge(u, v, **attrs)]; attributes of an existing edge are updated. *)
Fixpoint put_edge (l : list edge) (u v : string) (a : option eattr) : list edge :=
  match l with
  | [] => [(u, v, a)]
  | e :: t => if same_pair u v e
              then (fst e, match a with Some _ => a | None => snd e end) :: t
              else e :: put_edge t u v a
  end.

(** [G.add_edge(u, v, **attrs)] *)
Definition add_edge (g : graph) (u v : string) (a : option eattr) : graph :=
  let g' := add_node (add_node g u) v in
  mkGraph (g_nodes g') (put_edge (g_edges g') u v a).

(** Network.build's loop state: the graph and the variable [object_type] (None: not yet bound). *)
Definition bstate := (graph * option string)%type.

(** network.py 50-118: the loop body of Network.build. *)
Definition build_step (st : bstate) (i : elem) : res bstate :=
  let (g, ot) := st in
  let ot := match e_name i with Some (Some _) => Some (e_cls i) | _ => ot end in   (* 54-55 *)
  do g1 <- match e_from i, e_to i with                                             (* 57-62 *)
           | Some f, Some t =>
             let len := match e_length i with Some l => l | None => SVal 0 end in  (* 64-67 *)
             match ot with
             | None => Err EName                                                   (* 93 *)
             | Some c =>
               match e_name i with
               | None => Err EAttr                                                 (* 94 *)
               | Some n => Ok (add_edge (add_node (add_node g t) f) f t            (* 75-97 *)
                                        (Some (mkEattr c n len)))
               end
             end
           | _, _ => Ok g
           end;
  do g2 <- match e_conn i with                                                     (* 99 *)
           | Some c =>
             match e_name i with
             | None => Err EAttr
             | Some None => Err EValue
             | Some (Some n) => Ok (add_edge (add_node (add_node g1 c) n) c n None) (* 100-118 *)
             end
           | None => Ok g1
           end;
  Ok (g2, ot).

(** network.py 47-118: the undirected graph of a model. *)
Definition build_graph (es : list elem) : res graph :=
  do st <- foldM build_step es (empty_graph, None);
  Ok (fst st).

(** [G[u]]: the neighbours in adjacency order (a self-loop appears once). *)
Definition other_end (u : string) (e : edge) : list string :=
  let '(x, y, _) := e in
  if String.eqb x u then [y] else if String.eqb y u then [x] else [].
Definition neighbors (g : graph) (u : string) : list string := flat_map (other_end u) (g_edges g).

(** nx.bfs_edges: a FIFO queue, every node visited once; a tree edge is emitted when its far end
    is first seen.  [fuel] bounds the number of dequeued nodes. *)
Fixpoint bfs (g : graph) (fuel : nat) (queue visited : list string) : res (list (string * string)) :=
  match queue with
  | [] => Ok []
  | u :: q =>
    match fuel with
    | O => Err EFuel
    | S fuel' =>
      let new := filter (fun v => negb (smem v visited)) (neighbors g u) in
      do rest <- bfs g fuel' (q ++ new) (visited ++ new);
      Ok (map (fun v => (u, v)) new ++ rest)
    end
  end.

(** network.py 442-444 [Network.bfs_order]: the set of BFS tree edges. *)
Definition bfs_order (g : graph) (source : string) : res (list (string * string)) :=
  if smem source (g_nodes g) then bfs g (S (length (g_nodes g))) [source] [source]
  else Err EKey.

(** Attributes of the undirected edge between two nodes; None also if there is no such edge. *)
Fixpoint find_attr (l : list edge) (u v : string) : option eattr :=
  match l with
  | [] => None
  | e :: t => if same_pair u v e then snd e else find_attr t u v
  end.
Definition edge_attr (g : graph) (u v : string) : option eattr := find_attr (g_edges g) u v.

(** A directed graph: its nodes and its directed edges. *)
Record digraph := mkDigraph { d_nodes : list string; d_edges : list edge }.

Fixpoint dedup (l : list string) : list string :=
  match l with
  | [] => []
  | x :: t => if smem x t then dedup t else x :: dedup t
  end.

Record network := mkNet { net_graph : graph; net_di : digraph }.

(** network.py 127-147 (also 156-177): the digraph holds the BFS edges; [equipment] and
    [equipment_name] are copied from the undirected edge onto the directed edge.  The code loops
    over the undirected edges and writes the one orientation the digraph has. *)
Definition make_digraph (g : graph) (t : list (string * string)) : digraph :=
  mkDigraph (dedup (flat_map (fun e => [fst e; snd e]) t))
            (map (fun e => (fst e, snd e, edge_attr g (fst e) (snd e))) t).

(** network.py 46-149 [Network.build]. *)
Definition build (es : list elem) (source : string) : res network :=
  do g <- build_graph es;
  do t <- bfs_order g source;
  Ok (mkNet g (make_digraph g t)).

(** [digraph.has_edge(u, v)] *)
Definition is_dedge (u v : string) (e : edge) : bool :=
  let '(x, y, _) := e in String.eqb x u && String.eqb y v.
Definition d_has_edge (d : digraph) (u v : string) : bool := existsb (is_dedge u v) (d_edges d).

(** [list(digraph.predecessors(v))]; NetworkXError if v is not a node. *)
Definition predecessors (d : digraph) (v : string) : res (list edge) :=
  if smem v (d_nodes d) then Ok (filter (fun e : edge => String.eqb (snd (fst e)) v) (d_edges d))
  else Err ENetworkX.

(** [list(digraph.successors(v))] *)
Definition successors (d : digraph) (v : string) : list string :=
  map (fun e : edge => snd (fst e)) (filter (fun e : edge => String.eqb (fst (fst e)) v) (d_edges d)).

(** network.py 349-362 [Network.get_upstream_transformer].  The edge is looked up by the first
    predecessor. *)
Fixpoint upstream_loop (fuel : nat) (d : digraph) (node : string) : res (option string) :=
  match fuel with
  | O => Err EFuel
  | S fuel' =>
    match predecessors d node with
    | Err e => Err e
    | Ok [] => Ok None                                                 (* 362 *)
    | Ok ((p, _, a) :: _) =>
      match a with
      | None => Err EKey                                               (* 357 *)
      | Some at_ =>
        if String.eqb (ea_cls at_) "PowerTransformer" then Ok (ea_name at_)  (* 358-359 *)
        else upstream_loop fuel' d p                                   (* 360-361 *)
      end
    end
  end.
Definition get_upstream_transformer (fuel : nat) (n : network) (node : string) : res (option string) :=
  upstream_loop fuel (net_di n) node.

(** nx.dfs_edges from one node: children in adjacency order, each node entered once.  State:
    visited nodes and emitted tree edges.  [fuel] bounds the stack depth. *)
Definition dfs_state := (list string * list (string * string))%type.
Fixpoint dfs (d : digraph) (fuel : nat) (u : string) (st : dfs_state) : res dfs_state :=
  match fuel with
  | O => Err EFuel
  | S fuel' =>
    foldM (fun (st : dfs_state) c =>
             if smem c (fst st) then Ok st
             else dfs d fuel' c (c :: fst st, snd st ++ [(u, c)])) (successors d u) st
  end.

(** nx.dfs_successors as the set of its (parent, child) pairs; KeyError if the start is no node. *)
Definition dfs_edges (d : digraph) (source : string) : res (list (string * string)) :=
  if smem source (d_nodes d) then
    do st <- dfs d (S (length (d_nodes d))) source ([source], []);
    Ok (snd st)
  else Err EKey.

Definition okey_eqb (a b : option string) : bool :=
  match a, b with
  | None, None => true
  | Some x, Some y => String.eqb x y
  | _, _ => false
  end.

(** [model[x]] after set_names (network.py 369): the last object with that name, as its position
    in [model.models]. *)
Fixpoint lookup_from (k : nat) (es : list elem) (x : option string) : option nat :=
  match es with
  | [] => None
  | e :: t =>
    match lookup_from (S k) t x with
    | Some i => Some i
    | None => match e_name e with
              | Some n => if okey_eqb n x then Some k else None
              | None => None
              end
    end
  end.
Definition lookup (es : list elem) (x : option string) : option nat := lookup_from 0 es x.

Fixpoint dedup_keys (l : list (option string)) : list (option string) :=
  match l with
  | [] => []
  | x :: t => if existsb (okey_eqb x) t then dedup_keys t else x :: dedup_keys t
  end.

(** network.py 364-422 [Network.get_all_elements_downstream] on a built network.  The result is
    the list of positions of the objects; the code iterates over a set, so its order is not
    specified. *)
Definition downstream_names (n : network) (source : string) : res (list (option string)) :=
  match dfs_edges (net_di n) source with
  | Err _ => Err EValue                                                (* 389-393 *)
  | Ok t =>
    Ok (dedup_keys (flat_map (fun e =>                                 (* 403-411 *)
          Some (fst e) :: Some (snd e) ::
          match edge_attr (net_graph n) (fst e) (snd e) with
          | Some a => [ea_name a]
          | None => []
          end) t))
  end.
Definition get_all_elements_downstream (es : list elem) (n : network) (source : string) : res (list nat) :=
  do names <- downstream_names n source;
  mapM (fun x => of_opt EValue (lookup es x)) names.                   (* 416-420 *)

(** network.py 446-463 [Network.find_internal_edges]: names of the equipment on edges with both
    ends in the set; an edge without attributes contributes nothing. *)
Definition find_internal_edges (g : graph) (nodeset : list string) : list (option string) :=
  dedup_keys
    (flat_map (fun u =>
       flat_map (fun v =>
         if smem v nodeset then
           match edge_attr g u v with Some a => [ea_name a] | None => [] end
         else []) (neighbors g u)) nodeset).

(** [G.remove_edge(u, v)]: NetworkXError if there is no such edge. *)
Definition remove_edge (g : graph) (u v : string) : res graph :=
  if has_edge g u v
  then Ok (mkGraph (g_nodes g) (filter (fun e => negb (same_pair u v e)) (g_edges g)))
  else Err ENetworkX.

(** Removal of both orientations from the digraph if present (342-347); nodes stay. *)
Definition d_remove (d : digraph) (u v : string) : digraph :=
  mkDigraph (d_nodes d)
            (filter (fun e => negb (is_dedge u v e || is_dedge v u e)) (d_edges d)).

(** network.py 324-332: [hasattr(m, "is_switch") and (m.is_switch or m.is_breaker) is not None ...];
    Python's [or] yields its second operand if the first is falsy.  TypeError for [len(None)]. *)
Definition open_candidate (m : elem) : res (option (string * string)) :=
  match e_switch m with
  | None => Ok None
  | Some (sw, br) =>
    let v := match sw with Some true => Some true | _ => br end in
    match v, e_from m, e_to m with
    | Some _, Some f, Some t =>
      match e_wires m with
      | None => Err EType
      | Some [] => Ok None
      | Some ws =>
        (* 333-340: open unless some wire is known to be closed *)
        if existsb (fun w => match w with Some false => true | _ => false end) ws
        then Ok None else Ok (Some (f, t))
      end
    | _, _, _ => Ok None
    end
  end.

(** network.py 322-347 [Network.remove_open_switches]. *)
Definition remove_open_switches (es : list elem) (n : network) : res network :=
  foldM (fun n m =>
           do c <- open_candidate m;
           match c with
           | None => Ok n
           | Some (f, t) =>
             do g <- remove_edge (net_graph n) f t;                    (* 342 *)
             Ok (mkNet g (d_remove (net_di n) f t))                    (* 343-347 *)
           end) es n.

(** store.py 154-171 [Store.direct_from_source]: the objects afterwards. *)
Definition mem_pair (u v : string) (t : list (string * string)) : bool :=
  existsb (fun e => String.eqb (fst e) u && String.eqb (snd e) v) t.
Definition flip (t : list (string * string)) (i : elem) : elem :=
  match e_from i, e_to i with
  | Some f, Some o =>
    if mem_pair o f t && negb (mem_pair f o t)
    then mkElem (e_cls i) (e_name i) (Some o) (Some f) (e_conn i) (e_length i) (e_switch i) (e_wires i)
    else i
  | _, _ => i
  end.
Definition direct_from_source (es : list elem) (g : graph) (source : string) : res (list elem) :=
  do t <- bfs_order g source;
  Ok (map (flip t) es).

(** network.py 465-478 [Network.find_cycles].  [cycles] is what nx.simple_cycles returns (a list
    of node lists, in an order that networkx does not specify); duplicates up to reordering are
    dropped.  [node_sort] is list.sort on strings. *)
Fixpoint str_leb (a b : string) : bool :=
  match a, b with
  | EmptyString, _ => true
  | String _ _, EmptyString => false
  | String x s, String y t =>
    if nat_of_ascii x <? nat_of_ascii y then true
    else if nat_of_ascii y <? nat_of_ascii x then false else str_leb s t
  end.
Fixpoint insert_str (x : string) (l : list string) : list string :=
  match l with
  | [] => [x]
  | y :: t => if str_leb x y then x :: y :: t else y :: insert_str x t
  end.
Definition node_sort (l : list string) : list string := fold_right insert_str [] l.
Fixpoint list_eqb (a b : list string) : bool :=
  match a, b with
  | [], [] => true
  | x :: s, y :: t => String.eqb x y && list_eqb s t
  | _, _ => false
  end.
Fixpoint find_cycles_from (seen : list (list string)) (cycles : list (list string)) : list (list string) :=
  match cycles with
  | [] => []
  | c :: t => let k := node_sort c in
              if existsb (list_eqb k) seen then find_cycles_from seen t
              else c :: find_cycles_from (seen ++ [k]) t
  end.
Definition find_cycles (cycles : list (list string)) : list (list string) := find_cycles_from [] cycles.

(** ** Objects of the store as the network sees them *)

Definition str_attr (ob : obj) (a : string) : option string :=
  match dget (attrs ob) a with Some (Scal (Some (SStr s))) => Some s | _ => None end.
Definition bool_attr (ob : obj) (a : string) : option bool :=
  match dget (attrs ob) a with Some (Scal (Some (SVal z))) => Some (negb (Z.eqb z 0)) | _ => None end.

Definition view (h : heap) (o : oid) : elem :=
  match nth_error h o with
  | None => mkElem "" None None None None None None (Some [])
  | Some ob =>
    mkElem (cls ob)
      (match dget (attrs ob) "name" with
       | Some (Scal (Some (SStr s))) => Some (Some s)
       | Some (Scal _) => Some None
       | _ => None
       end)
      (str_attr ob "from_element") (str_attr ob "to_element") (str_attr ob "connecting_element")
      (match dget (attrs ob) "length" with Some (Scal (Some v)) => Some v | _ => None end)
      (match dget (attrs ob) "is_switch" with
       | Some _ => Some (bool_attr ob "is_switch", bool_attr ob "is_breaker")
       | None => None
       end)
      (match dget (attrs ob) "wires" with
       | Some (Lst (Some l)) =>
         Some (map (fun e => match e with
                             | EObj w => match nth_error h w with
                                         | Some wb => bool_attr wb "is_open"
                                         | None => None
                                         end
                             | ERaw _ => None
                             end) l)
       | _ => None
       end)
  end.

(** The network of a store. *)
Definition build_store (h : heap) (s : store) (source : string) : res network :=
  build (map (view h) (elems s)) source.

(** store.py 173-184 [Store.delete_disconnected_nodes].  [g] is the graph built earlier; the
    final rebuild uses the default source "sourcebus".  The state after the deletions is returned
    together with the outcome of that rebuild, because an exception there does not undo them. *)
Definition is_node (h : heap) (o : oid) : bool :=
  match cls_of h o with Some c => String.eqb c "Node" | None => false end.
Definition delete_disconnected_nodes (fuel : nat) (h : heap) (s : store) (g : graph)
  : res (store * res network) :=
  do s' <- foldM (fun s o =>
             if is_node h o then
               match e_name (view h o) with
               | None => Ok s
               | Some (Some n) =>
                 if smem n (g_nodes g) then Ok s else delete_element fuel h s o     (* 175-180 *)
               | Some None => remove_element s o                                    (* 182-183 *)
               end
             else Ok s) (models s) s;
  Ok (s', build_store h s' "sourcebus").                                            (* 184 *)

(** store.py 137-152 [Store.delete_cycles].  [cycles] is what nx.simple_cycles yields on the
    directed graph, [middle] stands for Network.middle_single_phase (network.py 487-540), whose
    result is the name of the edge to cut. *)
Definition delete_cycles (fuel : nat) (middle : list string -> res string) (h : heap) (s : store)
    (cycles : list (list string)) : res (store * res network) :=
  do s' <- foldM (fun s c =>
             if 2 <? length c then                                                  (* 144 *)
               do e <- middle c;                                                    (* 146 *)
               foldM (fun s o =>                                                    (* 147-151 *)
                        if okey_eqb (match e_name (view h o) with Some n => n | None => None end) (Some e)
                        then delete_element fuel h s o else Ok s) (models s) s
             else Ok s) (find_cycles cycles) s;
  Ok (s', build_store h s' "sourcebus").                                            (* 152 *)
