From Verif Require Import Base BaseFacts StoreModel NetworkModel NetworkSpec NetworkProofs NetworkBfs NetworkQueries NetworkDown ConsistencyModel ConsistencySpec PathProofs SplitModel SplitSpec.
From Coq Require Import Lia.
Local Open Scope string_scope.
Local Open Scope nat_scope.
Local Open Scope list_scope.

(** ** Graphs *)

Lemma same_pair_spec u v x y a : same_pair u v (x, y, a) = true <-> (x = u /\ y = v) \/ (x = v /\ y = u).
Proof.
  unfold same_pair. rewrite orb_true_iff, !andb_true_iff, !String.eqb_eq. tauto.
Qed.
Lemma sub_edge g l u v : has_edge (subgraph g l) u v = true <-> has_edge g u v = true /\ In u l /\ In v l.
Proof.
  unfold has_edge, subgraph. cbn [g_edges]. rewrite !existsb_exists. split.
  - intros ([[x y] a] & Hin & Hs). apply filter_In in Hin. destruct Hin as [Hin K]. apply andb_true_iff in K. destruct K as [K1 K2]. apply smem_In in K1, K2.
    split; [exists (x, y, a); auto|]. apply same_pair_spec in Hs. destruct Hs as [[-> ->]|[-> ->]]; auto.
  - intros [([[x y] a] & Hin & Hs) [Hu Hv]]. exists (x, y, a). split; [|exact Hs]. apply filter_In. split; [exact Hin|].
    apply same_pair_spec in Hs. apply andb_true_iff. rewrite !smem_In. destruct Hs as [[-> ->]|[-> ->]]; auto.
Qed.
Lemma sub_nodes g l x : In x (g_nodes (subgraph g l)) <-> In x (g_nodes g) /\ In x l.
Proof. unfold subgraph. cbn [g_nodes]. rewrite filter_In, smem_In. reflexivity. Qed.
Lemma uniq_filter (f : edge -> bool) l : uniq_edges l -> uniq_edges (filter f l).
Proof.
  induction l as [|[[x y] a] l IH]; cbn [filter uniq_edges]; [auto|]. intros [H1 H2]. destruct (f (x, y, a)); [|auto]. cbn [uniq_edges]. split; [|auto].
  destruct (existsb (same_pair x y) (filter f l)) eqn:E; [|reflexivity]. apply existsb_exists in E. destruct E as (e & Hin & Hs). apply filter_In in Hin.
  rewrite <- H1. symmetry. apply existsb_exists. exists e. tauto.
Qed.
Lemma sub_wf g l : wf_graph g -> wf_graph (subgraph g l).
Proof.
  intros (N & E & U). split; [|split].
  - unfold subgraph. cbn [g_nodes]. apply NoDup_filter. exact N.
  - intros x y a Hin. rewrite !sub_nodes. unfold subgraph in Hin. cbn [g_edges] in Hin. apply filter_In in Hin. destruct Hin as [Hin K]. apply andb_true_iff in K. rewrite !smem_In in K.
    destruct (E _ _ _ Hin). tauto.
  - apply uniq_filter. exact U.
Qed.

Lemma reach_nodes g x y : wf_graph g -> In x (g_nodes g) -> reach (adj g) x y -> In y (g_nodes g).
Proof.
  intros W Hx [k H]. induction H as [|x y z k H IH Hr]; [exact Hx|]. apply (has_edge_nodes g y z W Hr).
Qed.
Lemma component_spec g x : wf_graph g -> In x (g_nodes g) -> exists c, component g x = Ok c /\ NoDup c /\ forall y, In y c <-> reach (adj g) x y.
Proof.
  intros W Hx. destruct (bfs_order_spec g x W Hx) as (t & Et & T1 & T2 & T3). unfold component. rewrite Et. cbn [bind]. eexists. split; [reflexivity|]. split.
  - constructor; [|exact T2]. intros H. apply in_map_iff in H. destruct H as ([u v] & E & Hu). cbn in E. subst v. destruct (T1 _ _ Hu) as (_ & k & _ & D).
    assert (Q := dist_fun _ _ _ _ _ D (dist_refl _ _)). discriminate.
  - intros y. cbn [In]. split.
    + intros [<-|H]; [apply reach_refl|]. apply in_map_iff in H. destruct H as ([u v] & E & Hu). cbn in E. subst v. destruct (T1 _ _ Hu) as (_ & k & _ & D). exists (S k). apply D.
    + intros R. destruct (String.eqb_spec x y) as [->|N]; [left; reflexivity|]. right. destruct (T3 y R (fun Q => N (eq_sym Q))) as [u Hu]. apply in_map_iff. exists (u, y). auto.
Qed.
Lemma adj_sym g u v : adj g u v -> adj g v u.
Proof. unfold adj, has_edge. rewrite !existsb_exists. intros ([[x y] a] & H & S). exists (x, y, a). split; [exact H|]. apply same_pair_spec in S. apply same_pair_spec. tauto. Qed.
Lemma reach_sym g u v : reach (adj g) u v -> reach (adj g) v u.
Proof.
  intros [k H]. induction H as [|x y z k H IH Hr]; [apply reach_refl|]. eapply reach_trans; [|exact IH]. exists 1. apply walk_one. apply adj_sym. exact Hr.
Qed.
Lemma connected_spec g : wf_graph g -> g_nodes g <> [] ->
  (is_connected g = Ok true /\ forall x y, In x (g_nodes g) -> In y (g_nodes g) -> reach (adj g) x y) \/
  (is_connected g = Ok false /\ exists x y, In x (g_nodes g) /\ In y (g_nodes g) /\ ~ reach (adj g) x y).
Proof.
  intros W Ne. unfold is_connected. destruct (g_nodes g) as [|x l] eqn:En; [contradiction|]. rewrite <- En. assert (Hx : In x (g_nodes g)) by (rewrite En; left; reflexivity).
  destruct (component_spec g x W Hx) as (c & -> & Nc & Hc). cbn [bind].
  assert (Inc : incl c (g_nodes g)) by (intros y Hy; apply (reach_nodes g x); auto; apply Hc; exact Hy).
  destruct (Nat.eqb_spec (length c) (length (g_nodes g))) as [E|E].
  - left. split; [reflexivity|]. assert (Inc' : incl (g_nodes g) c) by (apply NoDup_length_incl; [exact Nc|lia|exact Inc]).
    assert (R : forall y, In y (g_nodes g) -> reach (adj g) x y) by (intros y Hy; apply Hc, Inc', Hy).
    intros y z Hy Hz. eapply reach_trans; [apply reach_sym, R, Hy|apply R, Hz].
  - right. split; [reflexivity|].
    assert (exists y, In y (g_nodes g) /\ ~ In y c) as (y & Hy & Ny).
    { destruct (forallb (fun y => smem y c) (g_nodes g)) eqn:F.
      - exfalso. apply E. apply Nat.le_antisymm; [apply NoDup_incl_length; assumption|]. apply NoDup_incl_length; [apply W|]. rewrite forallb_forall in F. intros y Hy. apply smem_In, F, Hy.
      - assert (G : forall m, forallb (fun y => smem y c) m = false -> exists y, In y m /\ ~ In y c).
        { induction m as [|z m IH]; cbn [forallb]; [discriminate|]. destruct (smem z c) eqn:Sz; cbn [andb]; intros Q; [destruct (IH Q) as (y & H1 & H2); exists y; split; [right; exact H1|exact H2]|].
          exists z. split; [left; reflexivity|]. intros Q'. apply smem_In in Q'. congruence. }
        exact (G _ F). }
    exists x, y. split; [exact Hx|]. split; [exact Hy|]. intros R. apply Ny, Hc, R.
Qed.

(** ** Lists *)

Lemma index_spec x l i : NoDup l -> nth_error l i = Some x -> index x l = Some i.
Proof.
  revert i. induction l as [|y l IH]; intros i N H; [destruct i; discriminate|]. cbn [index]. apply NoDup_cons_iff in N. destruct N as [N0 N].
  destruct i as [|i]; cbn in H; [injection H as ->; rewrite String.eqb_refl; reflexivity|].
  destruct (String.eqb_spec y x) as [->|]; [exfalso; apply N0; eapply nth_error_In; eauto|]. rewrite (IH i N H). reflexivity.
Qed.
Lemma nth_put {A} (l : list A) : forall i x j, nth_error (put l i x) j = if Nat.eqb i j then match nth_error l i with Some _ => Some x | None => None end else nth_error l j.
Proof. induction l as [|y l IH]; intros [|i] x [|j]; cbn [put nth_error Nat.eqb]; try reflexivity; [destruct (Nat.eqb i j); reflexivity|apply IH]. Qed.
Lemma put_length {A} (l : list A) : forall i x, length (put l i x) = length l.
Proof. induction l as [|y l IH]; intros [|i] x; cbn [put length]; auto. Qed.
Lemma add_missing_spec p : forall l, exists more, add_missing l p = l ++ more /\ NoDup more /\ (forall x, In x more -> In x p /\ ~ In x l) /\ forall x, In x p -> In x (l ++ more).
Proof.
  induction p as [|y p IH]; intros l; unfold add_missing; cbn [fold_left].
  - exists []. rewrite app_nil_r. split; [reflexivity|]. split; [constructor|]. split; [intros x []|intros x []].
  - destruct (smem y l) eqn:E.
    + destruct (IH l) as (more & E1 & N & H1 & H2). exists more. split; [exact E1|]. split; [exact N|]. split.
      * intros x Hx. destruct (H1 x Hx). split; [right; assumption|assumption].
      * intros x [<-|Hx]; [apply in_app_iff; left; apply smem_In; exact E|auto].
    + assert (Ny : ~ In y l) by (intros Q; apply smem_In in Q; congruence).
      destruct (IH (l ++ [y])) as (more & E1 & N & H1 & H2). exists (y :: more). split; [rewrite <- app_assoc in E1; exact E1|]. split.
      * constructor; [|exact N]. intros Q. apply H1 in Q. apply (proj2 Q). apply in_app_iff. right. left. reflexivity.
      * split.
        -- intros x [<-|Hx]; [split; [left; reflexivity|exact Ny]|]. destruct (H1 x Hx) as [Q1 Q2]. split; [right; exact Q1|]. intros Q. apply Q2. apply in_app_iff. left. exact Q.
        -- intros x [<-|Hx]; [apply in_app_iff; right; left; reflexivity|]. specialize (H2 x Hx). rewrite <- app_assoc in H2. exact H2.
Qed.

Section Feeder.
Variables (es : list elem) (s : string) (n : network).
Hypothesis B : built es s n.
Variables (pick : graph -> string * string) (path : string -> string -> list string).
Hypothesis Pk : picks_apart es (net_graph n) pick.
Hypothesis Pa : finds_paths es path.
Notation g := (net_graph n).

Lemma W : wf_graph g. Proof. exact (b_wf _ _ _ B). Qed.
Lemma edge_link u v : adj g u v <-> linked es u v. Proof. exact (b_edge _ _ _ B u v). Qed.
Lemma graph_node x : In x (g_nodes g) <-> node es x.
Proof. exact (proj1 (proj2 (build_graph_contents _ _ (b_graph _ _ _ B))) x). Qed.
Lemma sub_node l x : In x (g_nodes (subgraph g l)) <-> In x l /\ node es x.
Proof. rewrite sub_nodes, graph_node. tauto. Qed.
Lemma sub_adj l u v : adj (subgraph g l) u v <-> inside es l u v.
Proof. unfold adj, inside. rewrite sub_edge. rewrite (b_edge _ _ _ B). tauto. Qed.
Lemma sub_reach l u v : reach (adj (subgraph g l)) u v <-> reach (inside es l) u v.
Proof. split; intros [k H]; exists k; revert H; apply walk_mono; intros a b; apply sub_adj. Qed.
Lemma link_reach u v : reach (adj g) u v <-> reach (linked es) u v.
Proof. split; intros [k H]; exists k; revert H; apply walk_mono; intros a b; apply edge_link. Qed.

Lemma whole_true l : is_connected (subgraph g l) = Ok true -> whole es l.
Proof.
  intros E. assert (Ne : g_nodes (subgraph g l) <> []) by (intros Q; unfold is_connected in E; rewrite Q in E; discriminate).
  destruct (connected_spec _ (sub_wf _ l W) Ne) as [[_ H]|[E' _]]; [|congruence]. split.
  - destruct (g_nodes (subgraph g l)) as [|x r] eqn:En; [contradiction|]. exists x. apply sub_node. rewrite En. left. reflexivity.
  - intros x y Hx Nx Hy Ny. apply sub_reach. apply H; apply sub_node; auto.
Qed.
Lemma whole_connected l : whole es l -> is_connected (subgraph g l) = Ok true.
Proof.
  intros [(x & Hx & Nx) H]. assert (Ix : In x (g_nodes (subgraph g l))) by (apply sub_node; auto).
  assert (Ne : g_nodes (subgraph g l) <> []) by (intros Q; rewrite Q in Ix; destruct Ix).
  destruct (connected_spec _ (sub_wf _ l W) Ne) as [[E _]|[_ (y & z & Hy & Hz & Nr)]]; [exact E|].
  exfalso. apply Nr, sub_reach. apply sub_node in Hy, Hz. apply H; tauto.
Qed.

(** ** One connection *)

Definition free (l : list string) : nat := length (filter (fun x => negb (smem x l)) (g_nodes g)).
Lemma filter_le {A} (f f' : A -> bool) m : (forall x, f' x = true -> f x = true) -> length (filter f' m) <= length (filter f m).
Proof.
  intros H. induction m as [|x m IH]; cbn [filter]; [lia|]. destruct (f' x) eqn:E; [rewrite (H x E); cbn [length]; lia|]. destruct (f x); cbn [length]; lia.
Qed.
Lemma filter_lt {A} (f f' : A -> bool) m y : (forall x, f' x = true -> f x = true) -> In y m -> f y = true -> f' y = false -> length (filter f' m) < length (filter f m).
Proof.
  intros H. induction m as [|x m IH]; intros Hy E1 E2; [destruct Hy|]. cbn [filter]. destruct Hy as [->|Hy].
  - rewrite E1, E2. cbn [length]. assert (Q := filter_le f f' m H). lia.
  - specialize (IH Hy E1 E2). destruct (f' x) eqn:E; [rewrite (H x E); cbn [length]; lia|]. destruct (f x); cbn [length]; lia.
Qed.
Lemma route_member (R : string -> string -> Prop) a b p x : route R a b p -> In x p -> reach R a x.
Proof.
  intros (q & -> & _ & S) Hx. revert a S Hx. induction q as [|c q IH]; intros a S [<-|Hx]; try apply reach_refl; [destruct Hx|].
  cbn [steps] in S. destruct S as [S1 S2]. eapply reach_trans; [exists 1; apply walk_one; exact S1|]. apply IH; assumption.
Qed.
Lemma route_inside l a b p : route (linked es) a b p -> (forall x, In x p -> In x l) -> reach (inside es l) a b.
Proof.
  intros (q & -> & L & S) H. assert (Rt : route (inside es l) a b (a :: q)).
  { exists q. split; [reflexivity|]. split; [exact L|]. clear L. revert a S H. induction q as [|c q IH]; intros a S H; cbn [steps] in *; [exact I|].
    destruct S as [S1 S2]. split; [split; [exact S1|split; apply H; [left; reflexivity|right; left; reflexivity]]|]. apply IH; [exact S2|]. intros x Hx. apply H. right. exact Hx. }
  apply route_walk in Rt. eexists. exact Rt.
Qed.
Lemma node_reach a x : node es a -> reach (linked es) a x -> node es x.
Proof. intros Na R. apply graph_node. apply graph_node in Na. apply (reach_nodes g a); [exact W|exact Na|]. apply link_reach. exact R. Qed.

Lemma linked_reach_sym x y : reach (linked es) x y -> reach (linked es) y x.
Proof. intros R. apply link_reach, reach_sym, link_reach, R. Qed.

Lemma connect_step names nodes name idx l nodes' : index name names = Some idx -> nth_error nodes idx = Some l ->
  connect_disconnected_components g pick path names nodes name = Ok nodes' ->
  exists l', nodes' = put nodes idx l' /\ (forall l2, completed es l' l2 -> completed es l l2) /\ free l' < free l /\ ~ whole es l /\ (joinable es l -> joinable es l').
Proof.
  intros Ei El. unfold connect_disconnected_components. rewrite Ei. cbn [of_opt bind]. rewrite El. cbn [of_opt bind].
  destruct (is_connected (subgraph g l)) as [[|]|e] eqn:Ec; [discriminate| |destruct e; discriminate].
  assert (Ne : g_nodes (subgraph g l) <> []) by (intros Q; unfold is_connected in Ec; rewrite Q in Ec; discriminate).
  destruct (connected_spec _ (sub_wf _ l W) Ne) as [[E' _]|[_ (x & y & Hx & Hy & Nr)]]; [congruence|].
  apply sub_node in Hx, Hy. destruct (Pk l x y) as (n1 & n2 & -> & I1 & I2 & I3 & I4 & N12); [tauto|tauto|tauto|tauto|intros Q; apply Nr, sub_reach, Q|].
  assert (H1 : In n1 l /\ node es n1) by auto. assert (H2 : In n2 l /\ node es n2) by auto.
  destruct (String.eqb_spec n1 n2) as [->|_]; [discriminate|].
  destruct (component_spec g n1 W (proj2 (graph_node n1) (proj2 H1))) as (c & -> & _ & Hc). cbn [bind].
  destruct (smem n2 c) eqn:Sm; [|discriminate]. apply smem_In in Sm. apply Hc, link_reach in Sm. intros E. injection E as <-.
  assert (Sr := Pa n1 n2 (proj2 H1) Sm). set (p := path n1 n2) in *. destruct (add_missing_spec p l) as (more & Em & Nm & M1 & M2).
  exists (add_missing l p). split; [reflexivity|]. split; [|split; [|split]].
  - intros l2 C. apply (completed_path es l n1 n2 p more); try tauto; [|rewrite <- Em; exact C].
    intros z. split; [apply M1|]. intros [Q1 Q2]. specialize (M2 z Q1). apply in_app_iff in M2. tauto.
  - assert (exists z, In z p /\ ~ In z l) as (z & Hz & Nz).
    { destruct more as [|z more]; [|exists z; apply M1; left; reflexivity]. exfalso. apply N12. apply (route_inside l n1 n2 p); [apply Sr|].
      intros z Hz. specialize (M2 z Hz). rewrite app_nil_r in M2. exact M2. }
    unfold free. apply (filter_lt _ _ _ z).
    + intros w. rewrite !negb_true_iff. intros Q. destruct (smem w l) eqn:Sw; [|reflexivity]. exfalso. apply smem_In in Sw.
      assert (Q' : In w (add_missing l p)) by (rewrite Em; apply in_app_iff; left; exact Sw). apply smem_In in Q'. congruence.
    + apply graph_node. apply (node_reach n1); [apply H1|]. apply (route_member _ _ n2 p); [apply Sr|exact Hz].
    + apply negb_true_iff. destruct (smem z l) eqn:Sz; [|reflexivity]. exfalso. apply Nz, smem_In. exact Sz.
    + apply negb_false_iff, smem_In. rewrite Em. apply M2, Hz.
  - intros Wh. apply whole_connected in Wh. congruence.
  - intros [_ J]. assert (R : forall z, In z (add_missing l p) -> node es z -> reach (linked es) n1 z).
    { intros z Hz Nz. rewrite Em in Hz. apply in_app_iff in Hz. destruct Hz as [Hz|Hz]; [apply J; tauto|]. apply (route_member _ _ n2 p); [apply Sr|apply M1, Hz]. }
    split; [exists n1; split; [rewrite Em; apply in_app_iff; left; apply H1|apply H1]|]. intros u v Hu Nu Hv Nv. eapply reach_trans; [apply linked_reach_sym, R; assumption|apply R; assumption].
Qed.

Lemma put_put {A} (l : list A) : forall i x y, put (put l i x) i y = put l i y.
Proof. induction l as [|z l IH]; intros [|i] x y; cbn [put]; [reflexivity|reflexivity|reflexivity|]. rewrite IH. reflexivity. Qed.
Lemma put_self {A} (l : list A) : forall i x, nth_error l i = Some x -> put l i x = l.
Proof. induction l as [|z l IH]; intros [|i] x; cbn; intros E; try discriminate; [congruence|]. rewrite IH; auto. Qed.

Lemma loop_spec fuel : forall names nodes cpt name nodes', index name names = Some cpt -> connect_loop g pick path fuel names nodes cpt name = Ok nodes' ->
  exists l l', nth_error nodes cpt = Some l /\ nodes' = put nodes cpt l' /\ completed es l l' /\ whole es l' /\ (whole es l -> l' = l).
Proof.
  induction fuel as [|fuel IH]; intros names nodes cpt name nodes' Ei; cbn [connect_loop];
    (destruct (nth_error nodes cpt) as [l|] eqn:El; cbn [of_opt bind]; [|discriminate]);
    (destruct (is_connected (subgraph g l)) as [[|]|] eqn:Ec; cbn [bind]; [| |discriminate]).
  - intros E. injection E as <-. exists l, l. split; [reflexivity|]. split; [symmetry; apply put_self, El|]. split; [apply completed_here|]. split; [apply whole_true, Ec|auto].
  - discriminate.
  - intros E. injection E as <-. exists l, l. split; [reflexivity|]. split; [symmetry; apply put_self, El|]. split; [apply completed_here|]. split; [apply whole_true, Ec|auto].
  - destruct (connect_disconnected_components g pick path names nodes name) as [nodes1|] eqn:E1; cbn [bind]; [|discriminate].
    destruct (connect_step _ _ _ _ _ _ Ei El E1) as (l1 & -> & C1 & _ & Nw & _). intros E. destruct (IH _ _ _ _ _ Ei E) as (l1' & l2 & Q1 & Q2 & Q3 & Q4 & _).
    rewrite nth_put, Nat.eqb_refl, El in Q1. injection Q1 as <-. exists l, l2. split; [reflexivity|]. split; [rewrite Q2; apply put_put|].
    split; [apply C1, Q3|]. split; [exact Q4|]. contradiction.
Qed.

Lemma connect_total names nodes name idx l : index name names = Some idx -> nth_error nodes idx = Some l -> joinable es l -> ~ whole es l ->
  exists nodes', connect_disconnected_components g pick path names nodes name = Ok nodes'.
Proof.
  intros Ei El J Nw. unfold connect_disconnected_components. rewrite Ei. cbn [of_opt bind]. rewrite El. cbn [of_opt bind].
  destruct J as [(x0 & H0 & N0) J]. assert (Ix : In x0 (g_nodes (subgraph g l))) by (apply sub_node; auto).
  assert (Ne : g_nodes (subgraph g l) <> []) by (intros Q; rewrite Q in Ix; destruct Ix).
  destruct (connected_spec _ (sub_wf _ l W) Ne) as [[E' _]|[-> (x & y & Hx & Hy & Nr)]]; [exfalso; apply Nw, whole_true, E'|].
  apply sub_node in Hx, Hy. destruct (Pk l x y) as (n1 & n2 & -> & I1 & I2 & I3 & I4 & N12); [tauto|tauto|tauto|tauto|intros Q; apply Nr, sub_reach, Q|].
  assert (H1 : In n1 l /\ node es n1) by auto. assert (H2 : In n2 l /\ node es n2) by auto.
  destruct (String.eqb_spec n1 n2) as [->|_]; [exfalso; apply N12, reach_refl|].
  destruct (component_spec g n1 W (proj2 (graph_node n1) (proj2 H1))) as (c & -> & _ & Hc). cbn [bind].
  assert (R : In n2 c) by (apply Hc, link_reach, J; tauto). apply smem_In in R. rewrite R. eauto.
Qed.

Lemma loop_total fuel : forall names nodes cpt name l, index name names = Some cpt -> nth_error nodes cpt = Some l -> joinable es l -> free l <= fuel ->
  exists nodes', connect_loop g pick path fuel names nodes cpt name = Ok nodes'.
Proof.
  induction fuel as [|fuel IH]; intros names nodes cpt name l Ei El J F; cbn [connect_loop]; rewrite El; cbn [of_opt bind];
    (assert (Ne : g_nodes (subgraph g l) <> []) by (destruct J as [(x0 & H0 & N0) _]; intros Q; assert (Ix : In x0 (g_nodes (subgraph g l))) by (apply sub_node; auto); rewrite Q in Ix; destruct Ix));
    (destruct (connected_spec _ (sub_wf _ l W) Ne) as [[E _]|[E (x & y & Hx & Hy & Nr)]]; rewrite E; cbn [bind]; [eauto|]);
    (assert (Nw : ~ whole es l) by (intros Q; apply whole_connected in Q; congruence));
    destruct (connect_total names nodes name cpt l Ei El J Nw) as [nodes1 E1]; destruct (connect_step _ _ _ _ _ _ Ei El E1) as (l1 & -> & _ & Lt & _ & J1); [lia|].
  rewrite E1. cbn [bind]. apply (IH _ _ _ _ l1); auto; [|lia]. rewrite nth_put, Nat.eqb_refl, El. reflexivity.
Qed.
Lemma free_bound l : free l <= length (g_nodes g).
Proof. unfold free. induction (g_nodes g) as [|x m IH]; cbn [filter length]; [lia|]. destruct (negb (smem x l)); cbn [length]; lia. Qed.

(** ** All feeders *)

Lemma map_all net name : forall (m : dict string) x, dget (fold_left (fun m x => dset m x name) net m) x = if smem x net then Some name else dget m x.
Proof.
  induction net as [|y net IH]; intros m x; cbn [fold_left]; [reflexivity|]. rewrite IH, dget_dset. unfold smem. cbn [existsb]. fold (smem x net).
  destruct (smem x net); [rewrite orb_true_r; reflexivity|]. rewrite orb_false_r. rewrite String.eqb_sym. destruct (String.eqb x y); reflexivity.
Qed.

Variable names : list string.
Hypothesis Nd : NoDup names.
Variable nodes0 : list (list string).

(** The state after the first [k] feeders. *)
Definition done (k : nat) (st : split_state) : Prop :=
  let '(nodes, nets, m) := st in
  length nodes = length nodes0 /\
  (forall i, k <= i -> nth_error nodes i = nth_error nodes0 i) /\
  (forall i name, i < k -> nth_error names i = Some name -> exists l l' net, nth_error nodes0 i = Some l /\ nth_error nodes i = Some l' /\ dget nets name = Some net /\
     (forall x, In x net <-> In x l' /\ node es x) /\ completed es l l' /\ whole es l' /\ (whole es l -> l' = l)) /\
  (forall name, dget nets name <> None -> exists i, i < k /\ nth_error names i = Some name) /\
  (forall x name, dget m x = Some name <-> exists i l', i < k /\ nth_error names i = Some name /\ nth_error nodes i = Some l' /\ In x l' /\ node es x /\
     forall j l'', i < j < k -> nth_error nodes j = Some l'' -> ~ In x l'').

Lemma done_step fuel k name st st' : nth_error names k = Some name -> done k st -> split_one g pick path fuel names st (k, name) = Ok st' -> done (S k) st'.
Proof.
  destruct st as [[nodes nets] m]. intros Hk (D1 & D2 & D3 & D4 & D5). unfold split_one.
  destruct (connect_loop g pick path fuel names nodes k name) as [nodes'|] eqn:El; cbn [bind]; [|discriminate].
  destruct (loop_spec _ _ _ _ _ _ (index_spec _ _ _ Nd Hk) El) as (l & l' & L1 & -> & L3 & L4 & L5).
  assert (Pn : forall j, nth_error (put nodes k l') j = if Nat.eqb k j then Some l' else nth_error nodes j) by (intros j; rewrite nth_put, L1; reflexivity).
  rewrite Pn, Nat.eqb_refl. cbn [of_opt bind]. intros E. injection E as <-.
  assert (Po : forall j, j <> k -> nth_error (put nodes k l') j = nth_error nodes j) by (intros j N; rewrite Pn; destruct (Nat.eqb_spec k j); [congruence|reflexivity]).
  assert (Pk' : nth_error (put nodes k l') k = Some l') by (rewrite Pn, Nat.eqb_refl; reflexivity).
  unfold done. split; [rewrite put_length; exact D1|]. split; [|split; [|split]].
  - intros i Hi. rewrite Po by lia. apply D2. lia.
  - intros i name' Hi Hn. destruct (Nat.eq_dec i k) as [->|Ni].
    + assert (name' = name) by congruence. subst name'. exists l, l', (g_nodes (subgraph g l')). rewrite dget_dset, String.eqb_refl.
      split; [rewrite <- D2 by lia; exact L1|]. split; [exact Pk'|]. split; [reflexivity|]. split; [apply sub_node|auto].
    + destruct (D3 i name') as (a & a' & net & Q1 & Q2 & Q3 & Q4); [lia|exact Hn|]. exists a, a', net. split; [exact Q1|]. rewrite Po by exact Ni. split; [exact Q2|]. split; [|exact Q4].
      rewrite dget_dset. destruct (String.eqb_spec name name') as [<-|]; [|exact Q3]. exfalso. apply Ni. rewrite NoDup_nth_error in Nd. apply Nd; [apply nth_error_Some; congruence|congruence].
  - intros name'. rewrite dget_dset. destruct (String.eqb_spec name name') as [<-|]; [intros _; exists k; split; [lia|exact Hk]|]. intros H. destruct (D4 name' H) as (i & Hi & Hn). exists i. split; [lia|exact Hn].
  - intros x name'. rewrite map_all. change (filter (fun x0 : string => smem x0 l') (g_nodes g)) with (g_nodes (subgraph g l')). destruct (smem x (g_nodes (subgraph g l'))) eqn:Sm.
    + apply smem_In, sub_node in Sm. destruct Sm as [Sx Nx]. split.
      * intros E. injection E as <-. exists k, l'. split; [lia|]. split; [exact Hk|]. split; [exact Pk'|]. split; [exact Sx|]. split; [exact Nx|]. intros j l'' Hj. lia.
      * intros (i & a & Hi & Hn & Ha & Hx & _ & Hl). destruct (Nat.eq_dec i k) as [->|Ni]; [congruence|]. exfalso. apply (Hl k l'); [lia|exact Pk'|exact Sx].
    + assert (Nx : ~ (In x l' /\ node es x)) by (intros Q; apply sub_node, smem_In in Q; congruence). rewrite D5. split.
      * intros (i & a & Hi & Hn & Ha & Hx & Nn & Hl). exists i, a. split; [lia|]. split; [exact Hn|]. rewrite Po by lia. split; [exact Ha|]. split; [exact Hx|]. split; [exact Nn|].
        intros j l'' Hj. destruct (Nat.eq_dec j k) as [->|Nj]; [|rewrite Po by exact Nj; apply Hl; lia]. rewrite Pk'. intros Q. injection Q as <-. intros Q. apply Nx. auto.
      * intros (i & a & Hi & Hn & Ha & Hx & Nn & Hl). destruct (Nat.eq_dec i k) as [->|Ni]; [exfalso; apply Nx; split; [|exact Nn]; congruence|].
        exists i, a. split; [lia|]. split; [exact Hn|]. rewrite Po in Ha by exact Ni. split; [exact Ha|]. split; [exact Hx|]. split; [exact Nn|].
        intros j l'' Hj Q. apply (Hl j); [lia|]. rewrite Po by lia. exact Q.
Qed.
Lemma done_zero : done 0 (nodes0, [], []).
Proof.
  unfold done. split; [reflexivity|]. split; [reflexivity|]. split; [intros; lia|]. split; [intros name H; contradiction|]. intros x name. cbn [dget]. split; [discriminate|]. intros (i & l & Hi & _). lia.
Qed.
Lemma split_done fuel : forall rest pre st st', names = pre ++ rest -> done (length pre) st ->
  foldM (split_one g pick path fuel names) (combine (seq (length pre) (length rest)) rest) st = Ok st' -> done (length names) st'.
Proof.
  induction rest as [|name rest IH]; intros pre st st' En D.
  - cbn. intros E. injection E as <-. rewrite En, app_nil_r. exact D.
  - cbn [length seq combine foldM]. destruct (split_one g pick path fuel names st (length pre, name)) as [st1|] eqn:E1; cbn [bind]; [|discriminate].
    intros E. apply (IH (pre ++ [name]) st1); [rewrite <- app_assoc; exact En| |rewrite app_length, Nat.add_1_r; exact E].
    rewrite app_length, Nat.add_1_r. eapply done_step; [|exact D|exact E1]. rewrite En, nth_error_app2, Nat.sub_diag by lia. reflexivity.
Qed.
Lemma split_total fuel : length (g_nodes g) <= fuel -> length names <= length nodes0 -> (forall i l, nth_error nodes0 i = Some l -> i < length names -> joinable es l) ->
  forall rest pre st, names = pre ++ rest -> done (length pre) st ->
  exists st', foldM (split_one g pick path fuel names) (combine (seq (length pre) (length rest)) rest) st = Ok st'.
Proof.
  intros Fu Ln J. induction rest as [|name rest IH]; intros pre st En D; [cbn; eauto|].
  cbn [length seq combine foldM]. assert (Hk : nth_error names (length pre) = Some name) by (rewrite En, nth_error_app2, Nat.sub_diag by lia; reflexivity).
  assert (Lp : length pre < length names) by (apply nth_error_Some; congruence).
  assert (S1 : exists st1, split_one g pick path fuel names st (length pre, name) = Ok st1).
  { destruct st as [[nodes nets] m]. destruct D as (D1 & D2 & _). unfold split_one.
    destruct (nth_error nodes0 (length pre)) as [l|] eqn:El; [|apply nth_error_None in El; lia].
    assert (El' : nth_error nodes (length pre) = Some l) by (rewrite D2 by lia; exact El).
    destruct (loop_total fuel names nodes (length pre) name l (index_spec _ _ _ Nd Hk) El' (J _ _ El Lp)) as [nodes' E]; [assert (Q := free_bound l); lia|].
    rewrite E. cbn [bind]. destruct (loop_spec _ _ _ _ _ _ (index_spec _ _ _ Nd Hk) E) as (l1 & l' & _ & -> & _). rewrite nth_put, Nat.eqb_refl, El'. cbn [of_opt bind]. eauto. }
  destruct S1 as [st1 E1]. rewrite E1. cbn [bind].
  destruct (IH (pre ++ [name]) st1) as [st' E]; [rewrite <- app_assoc; exact En| |rewrite app_length, Nat.add_1_r in E; eauto].
  rewrite app_length, Nat.add_1_r. eapply done_step; eauto.
Qed.
End Feeder.
