(** Property theorems on the network: C16 - C24. *)
From Verif Require Import Base BaseFacts StoreModel StoreSpec StoreProofs NetworkModel NetworkSpec
  NetworkProofs NetworkBfs NetworkQueries NetworkDown NetworkEdit NetworkTop SortProofs.
From Coq Require Import Permutation.
Local Open Scope string_scope.
Local Open Scope nat_scope.
Local Open Scope list_scope.

(** ** C16 *)

(** Edges, nodes and edge attributes of the built graph. *)
Theorem C16_graph_contents :
  forall es s n, build es s = Ok n ->
    (forall u v, has_edge (net_graph n) u v = true <-> linked es u v) /\
    (forall x, In x (g_nodes (net_graph n)) <-> exists y, linked es x y) /\
    (forall u v i m, last_span es u v i -> e_name i = Some (Some m) ->
       edge_attr (net_graph n) u v = Some (mkEattr (e_cls i) (Some m) (length_or_zero i))) /\
    (forall u v, (forall i, In i es -> ~ spans i u v /\ ~ spans i v u) ->
       edge_attr (net_graph n) u v = None).
Proof. exact build_contents. Qed.
Print Assumptions C16_graph_contents.

(** An object whose name is None gets the class of the named object before it. *)
Theorem C16_unnamed_class_refuted :
  exists es s n u v i a, build es s = Ok n /\ last_span es u v i /\
    edge_attr (net_graph n) u v = Some a /\ ea_cls a <> e_cls i.
Proof.
  exists [xnode "s"; mkElem "Line" (Some None) (Some "s") (Some "a") None None None None], "s".
  eexists; exists "s", "a"; eexists; eexists. split; [reflexivity|]. split.
  - exists [xnode "s"], []. split; [reflexivity|]. split; [left; split; reflexivity|]. intros j [].
  - split; [reflexivity|]. cbn. discriminate.
Qed.
Print Assumptions C16_unnamed_class_refuted.

Example C16_hypotheses_met :
  build xes "s" = Ok xnet /\ has_edge (net_graph xnet) "b" "d" = true /\
  last_span xes "b" "d" (xline "l2" "d" "b" 3) /\
  edge_attr (net_graph xnet) "b" "d" = Some (mkEattr "Line" (Some "l2") (SVal 3)) /\
  (* the edge of a load carries nothing *)
  has_edge (net_graph xnet) "d" "ld" = true /\ edge_attr (net_graph xnet) "d" "ld" = None.
Proof.
  split; [exact xnet_built|]. split; [reflexivity|]. split.
  - exists (firstn 8 xes), (skipn 9 xes). split; [reflexivity|]. split; [right; split; reflexivity|].
    intros j Hj. cbn in Hj. unfold spans.
    repeat (destruct Hj as [<-|Hj]; [split; intros [Q1 Q2]; discriminate|]). destruct Hj.
  - repeat split; reflexivity.
Qed.

(** ** C17 *)

Theorem C17_shortest_path_tree :
  forall es s n, build es s = Ok n ->
    (forall u v, arc (net_di n) u v ->
       linked es u v /\ exists k, dist (linked es) s u k /\ dist (linked es) s v (S k)) /\
    (forall x, In x (d_nodes (net_di n)) <-> reach (linked es) s x /\ exists y, linked es s y /\ y <> s) /\
    (forall u u' v, arc (net_di n) u v -> arc (net_di n) u' v -> u = u') /\
    (forall v, In v (d_nodes (net_di n)) -> v <> s -> exists u, arc (net_di n) u v) /\
    (forall u, ~ arc (net_di n) u s) /\
    (forall v, reach (arc (net_di n)) s v <-> reach (linked es) s v) /\
    (forall u v a, In (u, v, a) (d_edges (net_di n)) -> a = edge_attr (net_graph n) u v).
Proof. exact build_tree. Qed.
Print Assumptions C17_shortest_path_tree.

(** Building terminates and succeeds exactly when some object touches the source; otherwise
    KeyError. *)
Theorem C17_build_succeeds_iff :
  forall es s, all_named es ->
    ((exists n, build es s = Ok n) <-> exists y, linked es s y) /\
    ((forall y, ~ linked es s y) -> build es s = Err EKey).
Proof. exact build_ok_iff. Qed.
Print Assumptions C17_build_succeeds_iff.

Example C17_hypotheses_met :
  build xes "s" = Ok xnet /\ all_named xes /\
  map fst (d_edges (net_di xnet)) = [("s", "a"); ("s", "c"); ("a", "b"); ("b", "d"); ("d", "ld")] /\
  build xes "z" = Err EKey.
Proof. split; [exact xnet_built|]. split; [exact xes_named|]. split; vm_compute; reflexivity. Qed.

(** ** C18 *)

Theorem C18_nearest_upstream_transformer :
  forall es s n x fuel,
    all_named es -> build es s = Ok n -> In x (d_nodes (net_di n)) -> length (d_nodes (net_di n)) < fuel ->
    (forall t, get_upstream_transformer fuel n x = Ok (Some t) <->
       exists z y i, climbs_over es (net_di n) x z /\ arc (net_di n) y z /\ last_span es y z i /\
         e_cls i = "PowerTransformer" /\ e_name i = Some (Some t)) /\
    (get_upstream_transformer fuel n x = Ok None <-> climbs_over es (net_di n) x s) /\
    (forall e, get_upstream_transformer fuel n x = Err e <->
       e = EKey /\ exists z y, climbs_over es (net_di n) x z /\ arc (net_di n) y z /\
         forall i, In i es -> ~ spans i y z /\ ~ spans i z y).
Proof. exact upstream_objects. Qed.
Print Assumptions C18_nearest_upstream_transformer.

Example C18_hypotheses_met :
  In "d" (d_nodes (net_di xnet)) /\ length (d_nodes (net_di xnet)) < 10 /\
  get_upstream_transformer 10 xnet "d" = Ok (Some "t1") /\
  get_upstream_transformer 10 xnet "c" = Ok None /\
  (* the name of a load is a node of the network, but its edge has no equipment *)
  get_upstream_transformer 10 xnet "ld" = Err EKey.
Proof. split; [vm_compute; tauto|]. split; [vm_compute; lia|]. repeat split; vm_compute; reflexivity. Qed.

(** ** C19 *)

Theorem C19_downstream_elements :
  forall es s n src, build es s = Ok n -> all_named es ->
    (forall l, get_all_elements_downstream es n src = Ok l ->
       In src (d_nodes (net_di n)) /\ NoDup l /\
       (forall p, In p l <-> exists x, downstream_name es (net_di n) src x /\ bears es x p) /\
       (forall x, downstream_name es (net_di n) src x -> exists p, bears es x p)) /\
    (forall e, get_all_elements_downstream es n src = Err e ->
       e = EValue /\
       (~ In src (d_nodes (net_di n)) \/
        exists x, downstream_name es (net_di n) src x /\ forall p, ~ bears es x p)).
Proof. exact downstream_result. Qed.
Print Assumptions C19_downstream_elements.

Example C19_hypotheses_met :
  build xes "s" = Ok xnet /\ all_named xes /\
  get_all_elements_downstream xes xnet "a" = Ok [1; 7; 2; 8; 4; 11] /\
  get_all_elements_downstream xes xnet "ld" = Ok [] /\
  get_all_elements_downstream xes xnet "z" = Err EValue.
Proof. split; [exact xnet_built|]. split; [exact xes_named|]. repeat split; vm_compute; reflexivity. Qed.

(** ** C20 *)

Theorem C20_direct_from_source :
  forall es s n, build es s = Ok n ->
    exists es', direct_from_source es (net_graph n) s = Ok es' /\
      Forall2 (fun i i' => (opposed (net_di n) i /\ swapped i i') \/ (~ opposed (net_di n) i /\ i' = i)) es es' /\
      (forall i' u v, In i' es' -> spans i' u v -> ~ arc (net_di n) v u) /\
      (forall u v, linked es' u v <-> linked es u v) /\
      exists n', build es' s = Ok n' /\ net_di n' = net_di n /\
                 direct_from_source es' (net_graph n') s = Ok es'.
Proof. exact direct_result. Qed.
Print Assumptions C20_direct_from_source.

Example C20_hypotheses_met :
  build xes "s" = Ok xnet /\
  match direct_from_source xes (net_graph xnet) "s" with
  | Ok l => map (fun i => (e_from i, e_to i)) (skipn 6 l) =
            [(Some "s", Some "a"); (Some "a", Some "b"); (Some "b", Some "d"); (Some "c", Some "b");
             (Some "s", Some "c"); (None, None)]
  | Err _ => False
  end.
Proof. split; [exact xnet_built|vm_compute; reflexivity]. Qed.

(** ** C21 *)

(** The exact effect.  [open_pair] is defined by what the code takes for an open line; a line that
    really is open is always among them, the converse is refuted below. *)
Theorem C21_removed_edges_partial :
  forall es s n n', build es s = Ok n -> remove_open_switches es n = Ok n' ->
    g_nodes (net_graph n') = g_nodes (net_graph n) /\ d_nodes (net_di n') = d_nodes (net_di n) /\
    (forall u v, has_edge (net_graph n') u v = true <-> linked es u v /\ ~ open_pair es u v) /\
    (forall u v, ~ open_pair es u v -> edge_attr (net_graph n') u v = edge_attr (net_graph n) u v) /\
    (forall u v a, In (u, v, a) (d_edges (net_di n')) <->
       In (u, v, a) (d_edges (net_di n)) /\ ~ open_pair es u v).
Proof. exact open_switches_result. Qed.
Print Assumptions C21_removed_edges_partial.

Theorem C21_open_lines_are_removed :
  forall i u v, really_open i u v -> taken_as_open i u v.
Proof. exact really_taken. Qed.
Print Assumptions C21_open_lines_are_removed.

Theorem C21_removal_succeeds :
  forall es s n, build es s = Ok n ->
    (forall i, In i es -> ~ wires_none i) ->
    (forall pre i mid j post u v, es = pre ++ i :: mid ++ j :: post ->
       taken_as_open i u v -> ~ taken_as_open j u v /\ ~ taken_as_open j v u) ->
    exists n', remove_open_switches es n = Ok n'.
Proof. exact open_switches_succeed. Qed.
Print Assumptions C21_removal_succeeds.

(** A line that is declared to be neither a switch nor a breaker, with wires of unknown state,
    loses its edge. *)
Theorem C21_plain_line_removed_refuted :
  exists es n n', build es "s" = Ok n /\ remove_open_switches es n = Ok n' /\
    linked es "s" "a" /\ (forall i u v, In i es -> ~ really_open i u v) /\
    has_edge (net_graph n') "s" "a" = false.
Proof.
  exists [xswitch "l" "s" "a" (Some false) (Some false) (Some [None])].
  eexists; eexists. split; [reflexivity|]. split; [reflexivity|]. split.
  - eexists. split; [left; reflexivity|]. left. split; reflexivity.
  - split; [|reflexivity]. intros i u v [<-|[]] (_ & (a & b & Q & R) & _).
    cbn in Q. injection Q as <- <-. destruct R; discriminate.
Qed.
Print Assumptions C21_plain_line_removed_refuted.

(** Parallel lines share one edge, so an open switch takes a closed line with it. *)
Theorem C21_parallel_line_removed_refuted :
  exists es n n' i, build es "s" = Ok n /\ remove_open_switches es n = Ok n' /\
    In i es /\ spans i "s" "a" /\ ~ taken_as_open i "s" "a" /\ has_edge (net_graph n') "s" "a" = false.
Proof.
  exists [xswitch "sw" "s" "a" (Some true) None (Some [Some true]); xline "l" "s" "a" 1].
  eexists; eexists; exists (xline "l" "s" "a" 1). split; [reflexivity|]. split; [reflexivity|].
  split; [right; left; reflexivity|]. split; [split; reflexivity|]. split; [|reflexivity].
  intros (_ & (a & b & Q & R) & _). cbn in Q. injection Q as <- <-. destruct R as [R|R]; [discriminate|exact (R eq_refl)].
Qed.
Print Assumptions C21_parallel_line_removed_refuted.

(** Two open switches on one pair of nodes: NetworkXError.  A switch with wires None: TypeError. *)
Theorem C21_removal_raises_refuted :
  exists es es' n n',
    build es "s" = Ok n /\ (forall i, In i es -> exists u v, really_open i u v) /\
    remove_open_switches es n = Err ENetworkX /\
    build es' "s" = Ok n' /\ remove_open_switches es' n' = Err EType.
Proof.
  exists [xswitch "s1" "s" "a" (Some true) None (Some [Some true]);
          xswitch "s2" "s" "a" (Some true) None (Some [Some true])],
         [xswitch "s1" "s" "a" (Some true) None None].
  eexists; eexists. split; [reflexivity|]. split.
  - intros i [<-|[<-|[]]]; exists "s", "a"; (split; [split; reflexivity|]);
      (split; [eexists; eexists; split; [reflexivity|left; reflexivity]|]);
      eexists; (split; [reflexivity|]); (split; [discriminate|]); intros w [<-|[]]; reflexivity.
  - repeat split; reflexivity.
Qed.
Print Assumptions C21_removal_raises_refuted.

Definition xes_sw : list elem :=
  xes ++ [xswitch "sw1" "c" "e" (Some true) None (Some [Some true; Some true]);
          xswitch "sw2" "e" "f" None (Some true) (Some [Some true; Some false])].

Example C21_hypotheses_met :
  match build xes_sw "s" with
  | Ok n => match remove_open_switches xes_sw n with
            | Ok n' => has_edge (net_graph n') "c" "e" = false /\ has_edge (net_graph n') "e" "f" = true /\
                       has_edge (net_graph n') "s" "a" = true
            | Err _ => False
            end
  | Err _ => False
  end /\
  really_open (xswitch "sw1" "c" "e" (Some true) None (Some [Some true; Some true])) "c" "e".
Proof.
  split; [vm_compute; auto|]. split; [split; reflexivity|]. split.
  - exists (Some true), None. auto.
  - eexists. split; [reflexivity|]. split; [discriminate|]. intros w [<-|[<-|[]]]; reflexivity.
Qed.

(** ** C22 *)

(** Exact contents; of several parallel objects only the last one is reported. *)
Theorem C22_internal_edges_partial :
  forall es s n nodeset, build es s = Ok n -> all_named es ->
    NoDup (find_internal_edges (net_graph n) nodeset) /\
    forall k, In k (find_internal_edges (net_graph n) nodeset) <->
      exists x u v i, k = Some x /\ In u nodeset /\ In v nodeset /\ last_span es u v i /\ e_name i = Some (Some x).
Proof. exact internal_result. Qed.
Print Assumptions C22_internal_edges_partial.

(** Of two parallel lines only the last is reported. *)
Theorem C22_parallel_objects_missing_refuted :
  exists es n i x, build es "s" = Ok n /\ all_named es /\ In i es /\ spans i "s" "a" /\
    e_name i = Some (Some x) /\ ~ In (Some x) (find_internal_edges (net_graph n) ["s"; "a"]).
Proof.
  exists [xline "l1" "s" "a" 1; xline "l2" "a" "s" 2].
  eexists; exists (xline "l1" "s" "a" 1), "l1". split; [reflexivity|]. split.
  - intros i [<-|[<-|[]]] _; eexists; reflexivity.
  - split; [left; reflexivity|]. split; [split; reflexivity|]. split; [reflexivity|].
    intros F. vm_compute in F. destruct F as [Q|[]]. discriminate.
Qed.
Print Assumptions C22_parallel_objects_missing_refuted.

Example C22_hypotheses_met :
  build xes "s" = Ok xnet /\ all_named xes /\
  find_internal_edges (net_graph xnet) ["a"; "b"; "c"; "d"; "ld"; "q"] = [Some "t1"; Some "l3"; Some "l2"].
Proof. split; [exact xnet_built|]. split; [exact xes_named|]. vm_compute. reflexivity. Qed.

(** ** C23 *)

(** The directed network is a tree, so whatever loops the model has, find_cycles is empty ... *)
Theorem C23_no_cycle_is_found :
  forall es s n cycles, build es s = Ok n ->
    (forall c, In c cycles -> cycle_of (net_di n) c) -> find_cycles cycles = [].
Proof. exact no_cycles. Qed.
Print Assumptions C23_no_cycle_is_found.

(** ... and delete_cycles deletes nothing. *)
Theorem C23_delete_cycles_deletes_nothing :
  forall fuel middle h s src n cycles, build_store h s src = Ok n ->
    (forall c, In c cycles -> cycle_of (net_di n) c) ->
    delete_cycles fuel middle h s cycles = Ok (s, build_store h s "sourcebus").
Proof. exact delete_cycles_nothing. Qed.
Print Assumptions C23_delete_cycles_deletes_nothing.

(** On whatever list of cycles networkx returns, find_cycles keeps each cycle once, up to the order of its nodes. *)
Theorem C23_each_cycle_once :
  forall cycles,
    (forall c, In c (find_cycles cycles) -> In c cycles) /\
    (forall c, In c cycles -> exists c', In c' (find_cycles cycles) /\ Permutation c c') /\
    ForallOrdPairs (fun a b => ~ Permutation a b) (find_cycles cycles).
Proof. exact find_cycles_spec. Qed.
Print Assumptions C23_each_cycle_once.

(** delete_cycles ignores cycles of two nodes ... *)
Theorem C23_short_cycles_are_kept :
  forall fuel middle h s cycles, (forall c, In c cycles -> length c <= 2) ->
    delete_cycles fuel middle h s cycles = Ok (s, build_store h s "sourcebus").
Proof. exact delete_cycles_small. Qed.
Print Assumptions C23_short_cycles_are_kept.

(** ... and of every longer cycle it deletes the objects that bear the name chosen for it. *)
Theorem C23_long_cycles_are_cut :
  forall fuel middle h s cycles s' r, NoDup (elems s) -> delete_cycles fuel middle h s cycles = Ok (s', r) ->
    (forall c, In c cycles -> 2 < length c ->
       exists c' e, In c' cycles /\ Permutation c c' /\ middle c' = Ok e /\
         forall o, In o (elems s') -> e_name (view h o) <> Some (Some e)) /\
    incl (elems s') (elems s) /\ r = build_store h s' "sourcebus".
Proof. exact delete_cycles_cuts. Qed.
Print Assumptions C23_long_cycles_are_cut.

Definition xobj_line (n f t : string) : obj :=
  mkObj "Line" [("name", Scal (Some (SStr n))); ("from_element", Scal (Some (SStr f)));
                ("to_element", Scal (Some (SStr t))); ("wires", Lst (Some []))].
Definition xloop : heap :=
  [xobj_line "l1" "sourcebus" "a"; xobj_line "l2" "a" "b"; xobj_line "l3" "b" "sourcebus"].
Definition xloop_store : store := mkStore [0; 1; 2] [].

(** A three-line loop survives delete_cycles: after it the same loop is in the network, whatever
    nx.simple_cycles and middle_single_phase return. *)
Theorem C23_loops_are_not_broken_refuted :
  exists n, build_store xloop xloop_store "sourcebus" = Ok n /\
    (forall u v, In (u, v) [("sourcebus", "a"); ("a", "b"); ("b", "sourcebus")] -> has_edge (net_graph n) u v = true) /\
    forall fuel middle cycles, (forall c, In c cycles -> cycle_of (net_di n) c) ->
      delete_cycles fuel middle xloop xloop_store cycles = Ok (xloop_store, Ok n).
Proof.
  eexists. split; [reflexivity|]. split.
  - intros u v H. cbn [In] in H. repeat (destruct H as [H|H]; [injection H as <- <-; reflexivity|]). destruct H.
  - intros fuel middle cycles Hc.
    exact (delete_cycles_nothing fuel middle xloop xloop_store "sourcebus" _ cycles eq_refl Hc).
Qed.
Print Assumptions C23_loops_are_not_broken_refuted.

Example C23_hypotheses_met :
  build xes "s" = Ok xnet /\
  (* the undirected graph has a loop *)
  linked xes "s" "a" /\ linked xes "a" "b" /\ linked xes "b" "c" /\ linked xes "c" "s" /\
  (* find_cycles does report cycles of other digraphs *)
  find_cycles [["b"; "a"]; ["a"; "b"]; ["c"; "a"; "b"]] = [["b"; "a"]; ["c"; "a"; "b"]] /\
  (* a cycle of three nodes is cut *)
  match delete_cycles 5 (fun _ => Ok "l2") xloop xloop_store [["a"; "b"; "sourcebus"]] with
  | Ok (s', _) => elems s' = [0; 2]
  | Err _ => False
  end /\
  cycle_of (mkDigraph ["a"; "b"] [("a", "b", None); ("b", "a", None)]) ["a"; "b"].
Proof.
  assert (B := proj1 (build_contents _ _ _ xnet_built)).
  split; [exact xnet_built|].
  repeat (split; [first [apply (proj1 (B _ _)); vm_compute; reflexivity|vm_compute; reflexivity]|]).
  cbn. split; [exists None; simpl; auto|]. split; [exists None; simpl; auto|exact I].
Qed.

(** ** C24 *)

(** Exact effect of a deletion that gets to the final rebuild.  Missing for the full claim: the
    parts of nodes named None stay registered (refuted below). *)
Theorem C24_delete_disconnected_partial :
  forall fuel h s g s' r, string_names h -> NoDup (elems s) ->
    delete_disconnected_nodes fuel h s g = Ok (s', r) ->
    names s' = names s /\ r = build_store h s' "sourcebus" /\
    exists keep, (forall x, keep x = true <-> ~ doomed h g (elems s) x) /\ elems s' = filter keep (elems s).
Proof. exact disconnected_result. Qed.
Print Assumptions C24_delete_disconnected_partial.

Theorem C24_deletion_succeeds :
  forall h s g, string_names h -> NoDup (elems s) -> nodes_own_parts h (elems s) ->
    exists n, forall fuel, n <= fuel -> exists s' r, delete_disconnected_nodes fuel h s g = Ok (s', r).
Proof. exact disconnected_succeeds. Qed.
Print Assumptions C24_deletion_succeeds.

Definition xobj_node (n : option string) (p : list elt) : obj :=
  mkObj "Node" [("name", Scal (option_map SStr n)); ("positions", Lst (Some p))].
Definition xobj_pos : obj := mkObj "Position" [("lat", Scal (Some (SVal 1)))].
Definition xheap : heap :=
  [xobj_node (Some "s") [EObj 1]; xobj_pos; xobj_node (Some "q") [EObj 3]; xobj_pos;
   xobj_node None [EObj 5]; xobj_pos; xobj_node (Some "a") []; xobj_line "l" "s" "a"].
Definition xstore : store := mkStore [0; 1; 2; 3; 4; 5; 6; 7] [].

(** The position of an unnamed node outlives it; and on a model whose source is not called
    "sourcebus" the call raises KeyError after the deletions. *)
Theorem C24_unnamed_parts_stay_refuted :
  exists n s', build_store xheap xstore "s" = Ok n /\
    delete_disconnected_nodes 5 xheap xstore (net_graph n) = Ok (s', Err EKey) /\
    node_obj xheap 4 /\ named xheap 4 None /\ part_of xheap 4 5 /\
    ~ In 4 (elems s') /\ In 5 (elems s') /\ ~ In 2 (elems s') /\ ~ In 3 (elems s').
Proof.
  eexists; exists (mkStore [0; 1; 5; 6; 7] []). split; [reflexivity|]. split; [reflexivity|].
  split; [eexists; split; reflexivity|]. split; [eexists; split; reflexivity|]. split.
  - eapply part_sub; [reflexivity| |apply part_self].
    exists "positions", [EObj 5]. split; [right; left; reflexivity|]. split; [|left; reflexivity].
    intros [K|[K|[K|K]]]; discriminate K.
  - cbn. intuition congruence.
Qed.
Print Assumptions C24_unnamed_parts_stay_refuted.

Example C24_hypotheses_met :
  string_names xheap /\ NoDup (elems xstore) /\ nodes_own_parts xheap (elems xstore).
Proof.
  split; [|split].
  - intros o k (ob & Ho & Hk).
    do 8 (destruct o as [|o]; [injection Ho as <-; vm_compute in Hk; try discriminate; injection Hk as <-; eauto|]).
    destruct o; discriminate.
  - repeat constructor; simpl; intuition discriminate.
  - assert (Leaf : forall o, In o [1; 3; 5] -> tree_of xheap o [o]).
    { intros o Ho. apply (tree_node xheap o xobj_pos []).
      - destruct Ho as [<-|[<-|[<-|[]]]]; reflexivity.
      - constructor. }
    assert (T : forall o, In o (elems xstore) -> node_obj xheap o ->
      (o = 0 /\ tree_of xheap o [1; 0]) \/ (o = 2 /\ tree_of xheap o [3; 2]) \/
      (o = 4 /\ tree_of xheap o [5; 4]) \/ (o = 6 /\ tree_of xheap o [6])).
    { intros o Ho (ob & Eo & Ec). cbn in Ho.
      repeat (destruct Ho as [<-|Ho]; [cbn in Eo; injection Eo as <-; first [discriminate Ec|idtac]|]); [| | | |destruct Ho].
      - left. split; [reflexivity|]. apply (tree_node xheap 0 (xobj_node (Some "s") [EObj 1]) [1]); [reflexivity|].
        apply (forest_cons xheap 1 [] [1] []); [apply Leaf; simpl; auto|constructor].
      - right; left. split; [reflexivity|]. apply (tree_node xheap 2 (xobj_node (Some "q") [EObj 3]) [3]); [reflexivity|].
        apply (forest_cons xheap 3 [] [3] []); [apply Leaf; simpl; auto|constructor].
      - right; right; left. split; [reflexivity|]. apply (tree_node xheap 4 (xobj_node None [EObj 5]) [5]); [reflexivity|].
        apply (forest_cons xheap 5 [] [5] []); [apply Leaf; simpl; auto|constructor].
      - right; right; right. split; [reflexivity|]. apply (tree_node xheap 6 (xobj_node (Some "a") []) []); [reflexivity|constructor]. }
    split.
    + intros o Ho No. destruct (T o Ho No) as [[_ Q]|[[_ Q]|[[_ Q]|[_ Q]]]]; eexists; (split; [exact Q|]);
        (split; [repeat constructor; simpl; intuition discriminate|intros x Hx; simpl in *; tauto]).
    + intros o o' x Ho Ho' N No No' Hx Hx'.
      destruct (T o Ho No) as [[E Q]|[[E Q]|[[E Q]|[E Q]]]], (T o' Ho' No') as [[E' Q']|[[E' Q']|[[E' Q']|[E' Q']]]];
        try congruence; apply (proj1 (ModifyProofs.tree_parts xheap) _ _ Q) in Hx;
        apply (proj1 (ModifyProofs.tree_parts xheap) _ _ Q') in Hx'; simpl in Hx, Hx'; intuition congruence.
Qed.
