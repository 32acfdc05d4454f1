(** Lemmas on the built network and its queries. *)
From Verif Require Import Base BaseFacts StoreModel NetworkModel NetworkSpec NetworkProofs NetworkBfs.
Local Open Scope string_scope.
Local Open Scope nat_scope.
Local Open Scope list_scope.

Lemma dist_ext (R R' : string -> string -> Prop) u v d :
  (forall x y, R x y <-> R' x y) -> dist R u v d -> dist R' u v d.
Proof.
  intros H [W M]. split.
  - eapply walk_mono; [|exact W]. intros x y. apply H.
  - intros n Wn. apply M. eapply walk_mono; [|exact Wn]. intros x y. apply H.
Qed.

Lemma reach_ext (R R' : string -> string -> Prop) u v :
  (forall x y, R x y -> R' x y) -> reach R u v -> reach R' u v.
Proof. intros H [n W]. exists n. eapply walk_mono; eassumption. Qed.

Lemma arc_make g t u v : arc (make_digraph g t) u v <-> In (u, v) t.
Proof.
  unfold arc, make_digraph. cbn [d_edges]. split.
  - intros (a & Ha). apply in_map_iff in Ha as ([x y] & Q & Hin). cbn [fst snd] in Q. injection Q as <- <- _. exact Hin.
  - intros H. exists (edge_attr g u v). apply in_map_iff. exists (u, v). auto.
Qed.

Lemma make_attr g t u v a : In (u, v, a) (d_edges (make_digraph g t)) -> a = edge_attr g u v.
Proof.
  unfold make_digraph. cbn [d_edges]. intros Ha. apply in_map_iff in Ha as ([x y] & Q & Hin).
  cbn [fst snd] in Q. injection Q as <- <- <-. reflexivity.
Qed.

Lemma dedup_In l x : In x (dedup l) <-> In x l.
Proof.
  induction l as [|y t IH]; [reflexivity|]. cbn [dedup]. destruct (smem y t) eqn:E.
  - rewrite IH. apply smem_In in E. split; [right; auto|]. intros [<-|Q]; auto.
  - cbn [In]. rewrite IH. reflexivity.
Qed.

Lemma make_nodes g t x : In x (d_nodes (make_digraph g t)) <->
  exists y, arc (make_digraph g t) x y \/ arc (make_digraph g t) y x.
Proof.
  unfold make_digraph at 1. cbn [d_nodes]. rewrite dedup_In, in_flat_map. split.
  - intros ([u v] & Hin & Q). cbn [fst snd In] in Q. destruct Q as [->|[->|[]]].
    + exists v. left. apply arc_make, Hin.
    + exists u. right. apply arc_make, Hin.
  - intros (y & [Q|Q]); apply arc_make in Q; eexists; (split; [exact Q|]); cbn [fst snd In]; auto.
Qed.

(** ** The built network *)

Record built (es : list elem) (s : string) (n : network) : Prop := mkBuilt {
  b_graph : build_graph es = Ok (net_graph n);
  b_wf : wf_graph (net_graph n);
  b_edge : forall u v, has_edge (net_graph n) u v = true <-> linked es u v;
  b_source : exists y, linked es s y;
  b_arc : forall u v, arc (net_di n) u v -> linked es u v /\
            exists k, dist (linked es) s u k /\ dist (linked es) s v (S k);
  b_one : forall u u' v, arc (net_di n) u v -> arc (net_di n) u' v -> u = u';
  b_all : forall v, reach (linked es) s v -> v <> s -> exists u, arc (net_di n) u v;
  b_attr : forall u v a, In (u, v, a) (d_edges (net_di n)) -> a = edge_attr (net_graph n) u v;
  b_nodes : forall x, In x (d_nodes (net_di n)) <-> exists y, arc (net_di n) x y \/ arc (net_di n) y x;
  b_di : exists t, bfs_order (net_graph n) s = Ok t /\ net_di n = make_digraph (net_graph n) t
}.

Lemma NoDup_snd_unique (t : list (string * string)) u u' v :
  NoDup (map snd t) -> In (u, v) t -> In (u', v) t -> u = u'.
Proof.
  induction t as [|[a b] t IH]; cbn [map snd]; intros N H1 H2; [destruct H1|].
  inversion N; subst. destruct H1 as [E1|H1], H2 as [E2|H2].
  - congruence.
  - injection E1 as -> ->. exfalso. apply H3. apply in_map_iff. exists (u', v). auto.
  - injection E2 as -> ->. exfalso. apply H3. apply in_map_iff. exists (u, v). auto.
  - eauto.
Qed.

Lemma build_built es s n : build es s = Ok n -> built es s n.
Proof.
  unfold build. destruct (build_graph es) as [g|] eqn:Eg; [|discriminate]. cbn [bind].
  destruct (bfs_order g s) as [t|] eqn:Et; [|discriminate]. cbn [bind]. intros H. injection H as <-.
  destruct (build_graph_contents _ _ Eg) as (C1 & C2 & W).
  assert (Hs : In s (g_nodes g)).
  { unfold bfs_order in Et. destruct (smem s (g_nodes g)) eqn:E; [|discriminate]. apply smem_In, E. }
  destruct (bfs_order_spec g s W Hs) as (t' & Et' & P1 & P2 & P3).
  assert (t' = t) by congruence. subst t'.
  constructor; cbn [net_graph net_di]; auto.
  - apply C2, Hs.
  - intros u v Ha. apply arc_make in Ha. destruct (P1 u v Ha) as (Q1 & k & Q2 & Q3).
    split; [apply C1, Q1|]. exists k. split; (eapply dist_ext; [|eassumption]); exact C1.
  - intros u u' v Ha Hb. apply arc_make in Ha. apply arc_make in Hb. eapply NoDup_snd_unique; eassumption.
  - intros v Hr Hn. destruct (P3 v) as [u Hu]; [|exact Hn|exists u; apply arc_make, Hu].
    eapply reach_ext; [|exact Hr]. intros x y. apply C1.
  - intros u v a. apply make_attr.
  - intros x. apply make_nodes.
  - exists t. auto.
Qed.

Lemma built_no_pred_source es s n u : built es s n -> ~ arc (net_di n) u s.
Proof.
  intros B H. destruct (b_arc _ _ _ B _ _ H) as (_ & k & _ & D).
  assert (Q := dist_fun _ _ _ _ _ D (dist_refl _ _)). discriminate.
Qed.

Lemma built_reach_arc es s n : built es s n ->
  forall k v, dist (linked es) s v k -> walk (arc (net_di n)) s v k.
Proof.
  intros B. induction k as [|k IH]; intros v D.
  - apply dist_zero in D as ->. constructor.
  - assert (N : v <> s).
    { intros ->. assert (Q := dist_fun _ _ _ _ _ D (dist_refl _ _)). discriminate. }
    destruct (b_all _ _ _ B v) as [u Hu]; [exists (S k); apply D|exact N|].
    destruct (b_arc _ _ _ B _ _ Hu) as (_ & k' & D1 & D2).
    assert (Q := dist_fun _ _ _ _ _ D D2). injection Q as <-.
    econstructor; [apply IH, D1|exact Hu].
Qed.

Lemma built_dist es s n v : built es s n -> reach (linked es) s v -> exists k, dist (linked es) s v k.
Proof.
  intros B H. destruct (str_dec v s) as [->|N]; [exists 0; apply dist_refl|].
  destruct (b_all _ _ _ B v H N) as [u Hu]. destruct (b_arc _ _ _ B _ _ Hu) as (_ & k & _ & D). eauto.
Qed.

Lemma built_reach es s n v : built es s n -> (reach (arc (net_di n)) s v <-> reach (linked es) s v).
Proof.
  intros B. split.
  - apply reach_ext. intros x y H. apply (b_arc _ _ _ B _ _ H).
  - intros H. destruct (built_dist _ _ _ _ B H) as [k D]. exists k. eapply built_reach_arc; eassumption.
Qed.

Lemma built_arc_reach es s n u v : built es s n -> arc (net_di n) u v -> reach (arc (net_di n)) s u.
Proof.
  intros B H. apply (built_reach _ _ _ _ B). destruct (b_arc _ _ _ B _ _ H) as (_ & k & [W _] & _). exists k. exact W.
Qed.

Lemma built_node es s n x : built es s n ->
  (In x (d_nodes (net_di n)) <-> reach (linked es) s x /\ exists y, linked es s y /\ y <> s).
Proof.
  intros B. rewrite (b_nodes _ _ _ B). split.
  - intros (y & H).
    assert (R : reach (linked es) s x).
    { destruct H as [H|H]; destruct (b_arc _ _ _ B _ _ H) as (_ & k & [W1 _] & [W2 _]); [exists k|exists (S k)]; assumption. }
    split; [exact R|].
    (* the first arc on the way leaves the source *)
    assert (F : forall k v, walk (arc (net_di n)) s v (S k) -> exists y, arc (net_di n) s y).
    { induction k as [|k IH]; intros v W; inversion W as [|a b c m W' Hr]; subst.
      - inversion W'; subst. eauto.
      - eapply IH. exact W'. }
    assert (E : exists w k, walk (arc (net_di n)) s w (S k)).
    { destruct H as [H|H].
      - destruct (built_arc_reach _ _ _ _ _ B H) as [k W]. exists y, k. econstructor; eassumption.
      - destruct (built_arc_reach _ _ _ _ _ B H) as [k W]. exists x, k. econstructor; eassumption. }
    destruct E as (w & k & W). destruct (F k w W) as [z Hz]. exists z.
    split; [apply (b_arc _ _ _ B _ _ Hz)|]. intros ->. exact (built_no_pred_source _ _ _ _ B Hz).
  - intros [R (y & Hl & N)]. destruct (str_dec x s) as [->|Nx].
    + assert (Ry : reach (linked es) s y) by (exists 1; apply walk_one, Hl).
      destruct (b_all _ _ _ B y Ry N) as [u Hu].
      exists y. left. destruct (b_arc _ _ _ B _ _ Hu) as (_ & k & D1 & [W2 M2]).
      specialize (M2 1 (walk_one _ _ _ Hl)). assert (k = 0) by lia. subst k. apply dist_zero in D1 as <-. exact Hu.
    + destruct (b_all _ _ _ B x R Nx) as [u Hu]. exists u. right. exact Hu.
Qed.

(** Building succeeds exactly for sources that some object touches. *)
Lemma build_ok_iff es s : all_named es ->
  ((exists n, build es s = Ok n) <-> exists y, linked es s y) /\
  ((forall y, ~ linked es s y) -> build es s = Err EKey).
Proof.
  intros Hn. destruct (build_graph_ok es Hn) as [g Eg].
  destruct (build_graph_contents _ _ Eg) as (C1 & C2 & W). split; [split|].
  - intros [n H]. apply (b_source _ _ _ (build_built _ _ _ H)).
  - intros H. apply C2 in H. destruct (bfs_order_spec g s W H) as (t & Et & _).
    unfold build. rewrite Eg. cbn [bind]. rewrite Et. cbn [bind]. eauto.
  - intros H. unfold build. rewrite Eg. cbn [bind]. unfold bfs_order.
    destruct (smem s (g_nodes g)) eqn:E; [|reflexivity]. apply smem_In, C2 in E as [y E]. destruct (H y E).
Qed.

(** ** Upstream transformer *)

Lemma built_predecessors es s n x : built es s n -> In x (d_nodes (net_di n)) ->
  (x = s /\ predecessors (net_di n) x = Ok []) \/
  exists u a t, predecessors (net_di n) x = Ok ((u, x, a) :: t) /\ In (u, x, a) (d_edges (net_di n)) /\
              In u (d_nodes (net_di n)).
Proof.
  intros B Hx. unfold predecessors. rewrite (proj2 (smem_In _ _) Hx).
  destruct (filter _ (d_edges (net_di n))) as [|[[u v] a] t] eqn:E.
  - left. split; [|reflexivity]. destruct (str_dec x s) as [|N]; [assumption|]. exfalso.
    destruct (b_all _ _ _ B x) as [u [a Hu]]; [apply (built_node _ _ _ _ B) in Hx; apply Hx|exact N|].
    assert (Q : In (u, x, a) (filter (fun e : edge => String.eqb (snd (fst e)) x) (d_edges (net_di n)))).
    { apply filter_In. split; [exact Hu|]. cbn [fst snd]. apply String.eqb_refl. }
    rewrite E in Q. destruct Q.
  - right. assert (Q : In (u, v, a) (filter (fun e : edge => String.eqb (snd (fst e)) x) (d_edges (net_di n))))
      by (rewrite E; left; reflexivity).
    apply filter_In in Q as [Q1 Q2]. cbn [fst snd] in Q2. apply String.eqb_eq in Q2 as ->.
    exists u, a, t. split; [reflexivity|]. split; [exact Q1|]. apply (b_nodes _ _ _ B). exists x. left. exists a. exact Q1.
Qed.

Lemma upstream_spec es s n : built es s n ->
  forall k x fuel, dist (linked es) s x k -> In x (d_nodes (net_di n)) -> k < fuel ->
  (exists z y a, climbs (net_di n) x z /\ In (y, z, Some a) (d_edges (net_di n)) /\
     ea_cls a = "PowerTransformer" /\ upstream_loop fuel (net_di n) x = Ok (ea_name a)) \/
  (climbs (net_di n) x s /\ upstream_loop fuel (net_di n) x = Ok None) \/
  (exists z y, climbs (net_di n) x z /\ In (y, z, None) (d_edges (net_di n)) /\
     upstream_loop fuel (net_di n) x = Err EKey).
Proof.
  intros B. induction k as [|k IH]; intros x fuel D Hx L; (destruct fuel as [|fuel]; [lia|]); cbn [upstream_loop].
  - apply dist_zero in D as <-. destruct (built_predecessors _ _ _ _ B Hx) as [[_ E]|(u & a & t & E & Hin & _)]; rewrite E.
    + right; left. split; [constructor|reflexivity].
    + exfalso. apply (built_no_pred_source _ _ _ u B). exists a. exact Hin.
  - destruct (built_predecessors _ _ _ _ B Hx) as [[-> E]|(u & a & t & E & Hin & Hu)]; rewrite E.
    + right; left. split; [constructor|reflexivity].
    + destruct a as [a|].
      * destruct (String.eqb_spec (ea_cls a) "PowerTransformer") as [Ec|Ec].
        -- left. exists x, u, a. split; [constructor|]. auto.
        -- assert (Du : dist (linked es) s u k).
           { destruct (b_arc _ _ _ B u x) as (_ & k' & D1 & D2); [exists (Some a); exact Hin|].
             assert (Q := dist_fun _ _ _ _ _ D D2). injection Q as ->. exact D1. }
           destruct (IH u fuel Du Hu) as [(z & y & b & Q1 & Q2 & Q3)|[[Q1 Q2]|(z & y & Q1 & Q2)]]; [lia| | |].
           ++ left. exists z, y, b. split; [|auto]. econstructor; eassumption.
           ++ right; left. split; [|exact Q2]. econstructor; eassumption.
           ++ right; right. exists z, y. split; [|exact Q2]. econstructor; eassumption.
      * right; right. exists x, u. split; [constructor|]. auto.
Qed.

(** The three outcomes exclude each other because predecessors are unique. *)
Lemma dedge_attr_fun es s n u u' v a a' : built es s n ->
  In (u, v, a) (d_edges (net_di n)) -> In (u', v, a') (d_edges (net_di n)) -> u = u' /\ a = a'.
Proof.
  intros B H H'. assert (u = u') by (eapply (b_one _ _ _ B); [exists a; exact H|exists a'; exact H']).
  subst u'. split; [reflexivity|]. rewrite (b_attr _ _ _ B _ _ _ H), (b_attr _ _ _ B _ _ _ H'). reflexivity.
Qed.

(** [stop d z]: the search stops at [z]. *)
Definition stops (s : string) (d : digraph) (z : string) : Prop :=
  z = s \/ (exists y, In (y, z, None) (d_edges d)) \/
  (exists y a, In (y, z, Some a) (d_edges d) /\ ea_cls a = "PowerTransformer").

Lemma climbs_fun es s n x z z' : built es s n ->
  climbs (net_di n) x z -> climbs (net_di n) x z' -> stops s (net_di n) z -> stops s (net_di n) z' -> z = z'.
Proof.
  intros B C C' S S'.
  assert (NS : forall x y a, In (y, x, Some a) (d_edges (net_di n)) -> ea_cls a <> "PowerTransformer" ->
                 stops s (net_di n) x -> False).
  { intros p q a Hin Hc [->|[[y Hy]|(y & b & Hy & Hb)]].
    - apply (built_no_pred_source _ _ _ q B). exists (Some a). exact Hin.
    - destruct (dedge_attr_fun _ _ _ _ _ _ _ _ B Hin Hy) as [_ Q]. discriminate.
    - destruct (dedge_attr_fun _ _ _ _ _ _ _ _ B Hin Hy) as [_ Q]. injection Q as ->. auto. }
  revert z' C' S'. induction C as [x|x y z a Hin Hc C IH]; intros z' C' S'.
  - destruct C' as [x|x y z' a Hin Hc C']; [reflexivity|]. destruct (NS _ _ _ Hin Hc S).
  - destruct C' as [x|x y' z' a' Hin' Hc' C'].
    + destruct (NS _ _ _ Hin Hc S').
    + destruct (dedge_attr_fun _ _ _ _ _ _ _ _ B Hin Hin') as [<- _]. apply IH; auto.
Qed.

Lemma d_node_dist_bound es s n x k : built es s n -> dist (linked es) s x k ->
  k <= length (d_nodes (net_di n)).
Proof.
  intros B D. assert (W := built_reach_arc _ _ _ B _ _ D).
  (* the nodes on the walk are pairwise different *)
  assert (P : exists l, NoDup l /\ length l = k /\ incl l (d_nodes (net_di n)) /\
                forall y, In y l -> exists j, 0 < j <= k /\ dist (linked es) s y j).
  { clear W. revert x D. induction k as [|k IH]; intros x D.
    - exists []. split; [constructor|]. split; [reflexivity|]. split; [intros y []|intros y []].
    - assert (N : x <> s).
      { intros ->. assert (Q := dist_fun _ _ _ _ _ D (dist_refl _ _)). discriminate. }
      destruct (b_all _ _ _ B x) as [u Hu]; [exists (S k); apply D|exact N|].
      destruct (b_arc _ _ _ B _ _ Hu) as (_ & k' & D1 & D2).
      assert (Q := dist_fun _ _ _ _ _ D D2). injection Q as <-.
      destruct (IH u D1) as (l & L1 & L2 & L3 & L4). exists (x :: l). split; [|split; [|split]].
      + constructor; [|exact L1]. intros Hx. destruct (L4 x Hx) as (j & Hj & Dj).
        assert (Q := dist_fun _ _ _ _ _ D Dj). lia.
      + cbn [length]. lia.
      + intros y [<-|Hy]; [|auto]. apply (b_nodes _ _ _ B). exists u. right. exact Hu.
      + intros y [<-|Hy]; [exists (S k); split; [lia|exact D]|].
        destruct (L4 y Hy) as (j & Hj & Dj). exists j. split; [lia|exact Dj]. }
  destruct P as (l & L1 & L2 & L3 & _). rewrite <- L2. apply NoDup_incl_length; assumption.
Qed.

Theorem upstream_result es s n x fuel : build es s = Ok n -> In x (d_nodes (net_di n)) ->
  length (d_nodes (net_di n)) < fuel ->
  (forall r, get_upstream_transformer fuel n x = Ok r <->
     (exists z y a, climbs (net_di n) x z /\ In (y, z, Some a) (d_edges (net_di n)) /\
        ea_cls a = "PowerTransformer" /\ r = ea_name a) \/
     (climbs (net_di n) x s /\ r = None)) /\
  (forall e, get_upstream_transformer fuel n x = Err e <->
     e = EKey /\ exists z y, climbs (net_di n) x z /\ In (y, z, None) (d_edges (net_di n))).
Proof.
  intros H Hx L. assert (B := build_built _ _ _ H). unfold get_upstream_transformer.
  destruct (built_dist es s n x B) as [k D]; [apply (built_node _ _ _ _ B) in Hx; apply Hx|].
  assert (Lk := d_node_dist_bound _ _ _ _ _ B D).
  assert (F : forall z z', climbs (net_di n) x z -> climbs (net_di n) x z' ->
                stops s (net_di n) z -> stops s (net_di n) z' -> z = z').
  { intros z z'. apply (climbs_fun _ _ _ _ _ _ B). }
  destruct (upstream_spec es s n B k x fuel D Hx) as [(z & y & a & C & Hin & Hc & E)|[[C E]|(z & y & C & Hin & E)]]; [lia| | |]; rewrite E.
  - split.
    + intros r. split; [intros Q; injection Q as <-; left; exists z, y, a; auto|].
      intros [(z' & y' & a' & C' & Hin' & Hc' & ->)|[C' ->]].
      * assert (z = z') by (apply F; auto; right; right; eauto). subst z'.
        destruct (dedge_attr_fun _ _ _ _ _ _ _ _ B Hin Hin') as [_ Q]. injection Q as <-. reflexivity.
      * assert (z = s) by (apply F; auto; [right; right; eauto|left; reflexivity]). subst z. exfalso.
        apply (built_no_pred_source _ _ _ y B). eexists; exact Hin.
    + intros e. split; [discriminate|]. intros [-> (z' & y' & C' & Hin')].
      assert (z = z') by (apply F; auto; right; [right|left]; eauto). subst z'.
      destruct (dedge_attr_fun _ _ _ _ _ _ _ _ B Hin Hin') as [_ Q]. discriminate.
  - split.
    + intros r. split; [intros Q; injection Q as <-; right; auto|].
      intros [(z' & y' & a' & C' & Hin' & Hc' & ->)|[C' ->]]; [|reflexivity].
      assert (s = z') by (apply F; auto; [left; reflexivity|right; right; eauto]). subst z'. exfalso.
      apply (built_no_pred_source _ _ _ y' B). eexists; exact Hin'.
    + intros e. split; [discriminate|]. intros [-> (z' & y' & C' & Hin')].
      assert (s = z') by (apply F; auto; [left; reflexivity|right; left; eauto]). subst z'. exfalso.
      apply (built_no_pred_source _ _ _ y' B). eexists; exact Hin'.
  - split.
    + intros r. split; [discriminate|].
      intros [(z' & y' & a' & C' & Hin' & Hc' & ->)|[C' ->]].
      * assert (z = z') by (apply F; auto; right; [left|right]; eauto). subst z'.
        destruct (dedge_attr_fun _ _ _ _ _ _ _ _ B Hin Hin') as [_ Q]. discriminate.
      * assert (z = s) by (apply F; auto; [right; left; eauto|left; reflexivity]). subst z. exfalso.
        apply (built_no_pred_source _ _ _ y B). eexists; exact Hin.
    + intros e. split; [intros Q; injection Q as <-; split; [reflexivity|eauto]|]. intros [-> _]. reflexivity.
Qed.
