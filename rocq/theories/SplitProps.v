(** C63: the networks of the feeders. *)
From Verif Require Import Base BaseFacts StoreModel NetworkModel NetworkSpec NetworkProofs NetworkBfs NetworkTop NetworkQueries NetworkDown ConsistencyModel ConsistencySpec PathProofs
  SplitModel SplitSpec SplitProofs.
From Coq Require Import Lia.
Local Open Scope string_scope.
Local Open Scope nat_scope.
Local Open Scope list_scope.

(** After a run every feeder network is connected; it consists of the nodes given for the feeder and the nodes of
    shortest paths that were necessary to connect them; a connected feeder stays as it is. *)
Theorem C63_connected : forall es s n pick path fuel names nodes nodes' nets m,
  build es s = Ok n -> picks_apart es (net_graph n) pick -> finds_paths es path -> NoDup names ->
  split_network_into_feeders (net_graph n) pick path fuel names nodes = Ok (nodes', nets, m) ->
  length nodes' = length nodes /\
  (forall i name, nth_error names i = Some name -> exists l l' net, nth_error nodes i = Some l /\ nth_error nodes' i = Some l' /\ dget nets name = Some net /\
     (forall x, In x net <-> In x l' /\ node es x) /\ completed es l l' /\ whole es l' /\ (whole es l -> l' = l)) /\
  (forall name, dget nets name <> None -> In name names) /\
  (forall i, nth_error names i = None -> nth_error nodes' i = nth_error nodes i).
Proof.
  intros es s n pick path fuel names nodes nodes' nets m Hb Pk Pa Nd E.
  destruct (split_done es s n (build_built _ _ _ Hb) pick path Pk Pa names Nd nodes fuel names [] (nodes, [], []) _ eq_refl (done_zero es names nodes) E) as (D1 & D2 & D3 & D4 & _).
  split; [exact D1|]. split; [|split].
  - intros i name Hi. apply D3; [apply nth_error_Some; congruence|exact Hi].
  - intros name H. destruct (D4 name H) as (i & _ & Hi). eapply nth_error_In. exact Hi.
  - intros i Hi. apply D2. apply nth_error_None. exact Hi.
Qed.
Print Assumptions C63_connected.

(** node_feeder_mapping gives the last feeder whose network has the node. *)
Theorem C63_mapping : forall es s n pick path fuel names nodes nodes' nets m,
  build es s = Ok n -> picks_apart es (net_graph n) pick -> finds_paths es path -> NoDup names ->
  split_network_into_feeders (net_graph n) pick path fuel names nodes = Ok (nodes', nets, m) ->
  forall x name, dget m x = Some name <->
    exists i net, nth_error names i = Some name /\ dget nets name = Some net /\ In x net /\
      forall j name' net', i < j -> nth_error names j = Some name' -> dget nets name' = Some net' -> ~ In x net'.
Proof.
  intros es s n pick path fuel names nodes nodes' nets m Hb Pk Pa Nd E x name.
  destruct (split_done es s n (build_built _ _ _ Hb) pick path Pk Pa names Nd nodes fuel names [] (nodes, [], []) _ eq_refl (done_zero es names nodes) E) as (_ & _ & D3 & _ & D5).
  assert (Lt : forall i y, nth_error names i = Some y -> i < length names) by (intros i y H; apply nth_error_Some; congruence).
  rewrite D5. split.
  - intros (i & l' & Hi & Hn & Hl & Hx & Nx & K). destruct (D3 i name Hi Hn) as (l & l1 & net & _ & Q1 & Q2 & Q3 & _). assert (l1 = l') by congruence. subst l1.
    exists i, net. split; [exact Hn|]. split; [exact Q2|]. split; [apply Q3; auto|]. intros j name' net' Hj Hn' Q' Hx'.
    destruct (D3 j name' (Lt _ _ Hn') Hn') as (_ & l2 & net2 & _ & P1 & P2 & P3 & _). assert (net2 = net') by congruence. subst net2. apply P3 in Hx'.
    apply (K j l2); [split; [exact Hj|eauto]|exact P1|apply Hx'].
  - intros (i & net & Hn & Q2 & Hx & K). destruct (D3 i name (Lt _ _ Hn) Hn) as (l & l' & net1 & _ & Q1 & Q2' & Q3 & _). assert (net1 = net) by congruence. subst net1. apply Q3 in Hx.
    exists i, l'. split; [eauto|]. split; [exact Hn|]. split; [exact Q1|]. split; [apply Hx|]. split; [apply Hx|]. intros j l'' [Hj Hj'] P1 Hx'.
    destruct (nth_error names j) as [name'|] eqn:Hn'; [|apply nth_error_None in Hn'; lia].
    destruct (D3 j name' Hj' Hn') as (_ & l2 & net2 & _ & P1' & P2 & P3 & _). assert (l2 = l'') by congruence. subst l2. apply (K j name' net2 Hj Hn' P2). apply P3. split; [exact Hx'|apply Hx].
Qed.
Print Assumptions C63_mapping.

(** The loop ends, and the run succeeds, if the nodes of every feeder are connected in the network. *)
Theorem C63_terminates : forall es s n pick path fuel names nodes,
  build es s = Ok n -> picks_apart es (net_graph n) pick -> finds_paths es path -> NoDup names -> length names <= length nodes ->
  length (g_nodes (net_graph n)) <= fuel -> (forall i l, nth_error nodes i = Some l -> i < length names -> joinable es l) ->
  exists r, split_network_into_feeders (net_graph n) pick path fuel names nodes = Ok r.
Proof.
  intros es s n pick path fuel names nodes Hb Pk Pa Nd Ln Fu J.
  exact (split_total es s n (build_built _ _ _ Hb) pick path Pk Pa names Nd nodes fuel Fu Ln J names [] (nodes, [], []) eq_refl (done_zero es names nodes)).
Qed.
Print Assumptions C63_terminates.

(** Completion keeps the given nodes at the front and adds only nodes connected with them. *)
Theorem C63_completed : forall es l l', completed es l l' ->
  exists more, l' = l ++ more /\ NoDup more /\ forall x, In x more -> ~ In x l /\ exists a, In a l /\ reach (linked es) a x.
Proof.
  intros es l l' C. induction C as [l|l a b p more l' Ha Na Hb Nb Nr Sr Nm M C IH].
  - exists []. rewrite app_nil_r. split; [reflexivity|]. split; [constructor|]. intros x [].
  - destruct IH as (more' & -> & N' & H'). exists (more ++ more'). split; [symmetry; apply app_assoc|]. split.
    + apply NoDup_app_intro; [exact Nm|exact N'|]. intros x Hx Q. apply (proj1 (H' x Q)). apply in_app_iff. right. exact Hx.
    + assert (R : forall x, In x more -> reach (linked es) a x) by (intros x Hx; apply (route_member _ _ b p); [apply Sr|apply M, Hx]).
      intros x Hx. apply in_app_iff in Hx. destruct Hx as [Hx|Hx]; [split; [apply M, Hx|exists a; auto]|].
      destruct (H' x Hx) as [Q (c & Hc & Rc)]. split; [intros Q'; apply Q, in_app_iff; left; exact Q'|]. apply in_app_iff in Hc. destruct Hc as [Hc|Hc]; [exists c; auto|].
      exists a. split; [exact Ha|]. eapply reach_trans; [apply R, Hc|exact Rc].
Qed.
Print Assumptions C63_completed.

(** add_feeder_information accepts lists of equal length only, and files each type under its feeder. *)
Theorem C63_information : forall old names nodes ts,
  (forall r, add_feeder_information old names nodes ts = Ok r ->
     length names = length nodes /\
     (forall t, ts = TOne t -> exists d, r = Some d /\ forall k, dget d k = if smem k names then Some t else None) /\
     (forall l, ts = TList l -> length l = length names /\ exists d, r = Some d /\
        (NoDup names -> forall i k, nth_error names i = Some k -> dget d k = nth_error l i) /\ forall k, ~ In k names -> dget d k = None) /\
     (ts = TOther -> r = old)) /\
  (length names = length nodes -> (forall l, ts = TList l -> length l = length names) -> exists r, add_feeder_information old names nodes ts = Ok r).
Proof.
  intros old names nodes ts. unfold add_feeder_information. split.
  - intros r. destruct (Nat.eqb_spec (length names) (length nodes)) as [Ln|]; [|discriminate]. destruct ts as [t|l|].
    + intros E. injection E as <-. split; [exact Ln|]. split; [|split; discriminate]. intros t' Q. injection Q as <-. eexists. split; [reflexivity|]. intros k.
      assert (G : forall names d, dget (fold_left (fun d k => dset d k t) names d) k = if smem k names then Some t else dget d k).
      { clear. induction names as [|y names IH]; intros d; cbn [fold_left]; [reflexivity|]. rewrite IH, dget_dset. unfold smem. cbn [existsb]. fold (smem k names).
        destruct (smem k names); [rewrite orb_true_r; reflexivity|]. rewrite orb_false_r, String.eqb_sym. destruct (String.eqb k y); reflexivity. }
      rewrite G. reflexivity.
    + destruct (Nat.eqb_spec (length names) (length l)) as [Ll|]; [|discriminate]. intros E. injection E as <-. split; [exact Ln|]. split; [discriminate|]. split; [|discriminate].
      intros l' Q. injection Q as <-. split; [auto|]. eexists. split; [reflexivity|].
      assert (O : forall ks (vs : list string) d k, ~ In k ks -> dget (fold_left (fun d (kv : string * string) => dset d (fst kv) (snd kv)) (combine ks vs) d) k = dget d k).
      { clear. induction ks as [|y ks IH]; intros [|v vs] d k N; cbn [combine fold_left fst snd]; try reflexivity. rewrite IH by (intros Q; apply N; right; exact Q).
        rewrite dget_dset. destruct (String.eqb_spec y k) as [->|]; [exfalso; apply N; left; reflexivity|reflexivity]. }
      split; [|intros k N; rewrite O by exact N; reflexivity].
      intros Nd i k Hk. clear Ln nodes. generalize (@nil (string * string)) as d. revert l Ll i Hk. induction names as [|y names IH]; intros [|v vs] Ll i Hk d; try discriminate; [destruct i; discriminate|].
      cbn [combine fold_left fst snd]. injection Ll as Ll. apply NoDup_cons_iff in Nd. destruct Nd as [N0 Nd]. destruct i as [|i]; cbn in Hk |- *.
      * injection Hk as ->. rewrite O by exact N0. rewrite dget_dset, String.eqb_refl. reflexivity.
      * apply IH; auto.
    + intros E. injection E as <-. split; [exact Ln|]. split; [discriminate|]. split; [discriminate|]. reflexivity.
  - intros Ln Hl. rewrite (proj2 (Nat.eqb_eq _ _) Ln). destruct ts as [t|l|]; [eauto| |eauto]. rewrite (proj2 (Nat.eqb_eq _ _) (eq_sym (Hl l eq_refl))). eauto.
Qed.
Print Assumptions C63_information.

(** ** The contracts can be met, by breadth-first search. *)
Definition first_pick (g : graph) : string * string :=
  match g_nodes g with
  | [] => ("", "")
  | x :: _ => match component g x with
              | Ok c => match find (fun y => negb (smem y c)) (g_nodes g) with Some y => (x, y) | None => (x, x) end
              | Err _ => (x, x)
              end
  end.
Definition bfs_path (g : graph) (x y : string) : list string :=
  match shortest_paths g x with Ok ps => match dget ps y with Some p => p | None => [] end | Err _ => [] end.

Example C63_contracts_met : forall es s n, build es s = Ok n -> picks_apart es (net_graph n) first_pick /\ finds_paths es (bfs_path (net_graph n)).
Proof.
  intros es s n Hb. assert (B := build_built _ _ _ Hb). split.
  - intros l x y Hx Nx Hy Ny Nr. set (h := subgraph (net_graph n) l). assert (Wh : wf_graph h) by (apply sub_wf, B).
    assert (Ix : In x (g_nodes h)) by (apply (sub_node es s n B); auto). assert (Iy : In y (g_nodes h)) by (apply (sub_node es s n B); auto).
    unfold first_pick. destruct (g_nodes h) as [|z r] eqn:En; [destruct Ix|]. rewrite <- En. assert (Iz : In z (g_nodes h)) by (rewrite En; left; reflexivity). rewrite <- En in Ix, Iy.
    destruct (component_spec h z Wh Iz) as (c & -> & _ & Hc). destruct (find (fun y => negb (smem y c)) (g_nodes h)) as [w|] eqn:F.
    + apply find_some in F. destruct F as [Iw F]. apply negb_true_iff in F. exists z, w. split; [reflexivity|]. apply (sub_node es s n B) in Iz, Iw. repeat (split; [tauto|]).
      intros R. apply (sub_reach es s n B), Hc, smem_In in R. congruence.
    + exfalso. apply Nr. apply (sub_reach es s n B). assert (A : forall u, In u (g_nodes h) -> reach (adj h) z u).
      { intros u Hu. apply Hc, smem_In. apply (find_none _ _ F) in Hu. apply negb_false_iff in Hu. exact Hu. }
      eapply reach_trans; [apply reach_sym, A, Ix|apply A, Iy].
  - intros x y Nx R. apply (graph_node es s n B) in Nx. destruct (shortest_paths_spec (net_graph n) x (b_wf _ _ _ B) Nx) as (ps & E & H1 & H2). unfold bfs_path. rewrite E.
    destruct (dget ps y) as [p|] eqn:Ep; [|exfalso; apply (proj2 (H1 y)); [apply (link_reach es s n B), R|exact Ep]].
    destruct (H2 y p Ep) as [(q & Q1 & Q2 & Q3) Q4]. split.
    + exists q. split; [exact Q1|]. split; [exact Q2|]. revert Q3. apply steps_mono. intros a b. apply (b_edge _ _ _ B).
    + intros p' (q' & P1 & P2 & P3). apply Q4. exists q'. split; [exact P1|]. split; [exact P2|]. revert P3. apply steps_mono. intros a b. apply (b_edge _ _ _ B).
Qed.

(** A chain a - b - c - d - e. *)
Definition ses : list elem := [xline "l1" "a" "b" 1; xline "l2" "b" "c" 1; xline "l3" "c" "d" 1; xline "l4" "d" "e" 1].
Definition snet : network := net_or_empty (build ses "a").
Definition srun (names : list string) (nodes : list (list string)) := split_network_into_feeders (net_graph snet) first_pick (bfs_path (net_graph snet)) 5 names nodes.

Example C63_hypotheses_met :
  build ses "a" = Ok snet /\ length (g_nodes (net_graph snet)) <= 5 /\
  srun ["f"; "g"] [["a"; "c"; "ghost"]; ["e"; "d"]] =
    Ok ([["a"; "c"; "ghost"; "b"]; ["e"; "d"]], [("f", ["b"; "a"; "c"]); ("g", ["d"; "e"])], [("b", "f"); ("a", "f"); ("c", "f"); ("d", "g"); ("e", "g")]).
Proof. split; [vm_compute; reflexivity|]. split; [vm_compute; lia|vm_compute; reflexivity]. Qed.

(** The full statement fails: a node given for one feeder only can end up in another one, because a path that
    connects a later feeder runs over it. *)
Theorem C63_listed_node_refuted : exists names nodes nodes' nets m x l,
  srun names nodes = Ok (nodes', nets, m) /\ NoDup names /\ NoDup (concat nodes) /\ nth_error names 0 = Some "f" /\ nth_error nodes 0 = Some l /\ In x l /\ dget m x <> Some "f".
Proof.
  exists ["f"; "g"], [["b"]; ["a"; "c"]]. do 3 eexists. exists "b", ["b"]. split; [vm_compute; reflexivity|].
  split; [repeat constructor; cbn; intuition discriminate|]. split; [repeat constructor; cbn; intuition discriminate|]. repeat (split; [reflexivity|]). split; [left; reflexivity|]. vm_compute. discriminate.
Qed.
Print Assumptions C63_listed_node_refuted.

(** Two feeders with the same name: the second one is never connected, the run ends with StopIteration. *)
Theorem C63_same_name_refuted : exists names nodes, length names = length nodes /\ (forall l, In l nodes -> joinable ses l) /\ srun names nodes = Err EStop.
Proof.
  exists ["f"; "f"], [["a"]; ["a"; "c"]]. split; [reflexivity|]. split; [|vm_compute; reflexivity].
  assert (R : forall x y, In x ["a"; "c"] -> In y ["a"; "c"] -> reach (linked ses) x y).
  { assert (Ls : forall u v, linked ses u v -> linked ses v u) by (intros u v (i & Hi & H); exists i; split; [exact Hi|tauto]).
    assert (AB : linked ses "a" "b") by (eexists; split; [left; reflexivity|left; split; reflexivity]).
    assert (BC : linked ses "b" "c") by (eexists; split; [right; left; reflexivity|left; split; reflexivity]).
    assert (AC : reach (linked ses) "a" "c") by (exists 2; eapply walk_snoc; [eapply walk_snoc; [constructor|exact AB]|exact BC]).
    assert (CA : reach (linked ses) "c" "a") by (exists 2; eapply walk_snoc; [eapply walk_snoc; [constructor|exact (Ls _ _ BC)]|exact (Ls _ _ AB)]).
    intros x y [<-|[<-|[]]] [<-|[<-|[]]]; auto using reach_refl. }
  assert (Na : node ses "a") by (exists "b"; eexists; split; [left; reflexivity|left; split; reflexivity]).
  intros l [<-|[<-|[]]]; (split; [exists "a"; split; [left; reflexivity|exact Na]|]); intros x y Hx _ Hy _; apply R; cbn in *; tauto.
Qed.
Print Assumptions C63_same_name_refuted.
