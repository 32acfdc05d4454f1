(** Paths in the graph: the model of nx.single_source_shortest_path finds shortest routes, the
    model of nx.all_simple_paths enumerates the simple routes. *)
From Verif Require Import Base BaseFacts StoreModel NetworkModel NetworkSpec NetworkProofs NetworkBfs
  NetworkQueries NetworkDown NetworkEdit NetworkTop ConsistencyModel ConsistencySpec.
Local Open Scope string_scope.
Local Open Scope nat_scope.
Local Open Scope list_scope.

Lemma steps_app R p q : steps R (p ++ q) -> steps R p /\ steps R q.
Proof.
  induction p as [|a p IH]; intros H; [split; [exact I|exact H]|].
  destruct p as [|b p]; cbn [app steps] in *.
  - split; [exact I|]. destruct q; [exact I|]. apply H.
  - destruct H as [H1 H2]. destruct (IH H2). auto.
Qed.

Lemma steps_mono (R R' : string -> string -> Prop) p : (forall x y, R x y -> R' x y) -> steps R p -> steps R' p.
Proof.
  intros H. induction p as [|a p IH]; [auto|]. destruct p as [|b p]; cbn [steps] in *; [auto|].
  intros [Q1 Q2]. split; [apply H; exact Q1|apply IH; exact Q2].
Qed.

Lemma NoDup_app_disj {A} (l m : list A) x : NoDup (l ++ m) -> In x l -> In x m -> False.
Proof.
  induction l as [|a l IH]; cbn [app]; intros N Hl Hm; [destruct Hl|]. inversion N as [|? ? N1 N2]; subst.
  destruct Hl as [->|Hl]; [apply N1, in_app_iff; auto|auto].
Qed.

Lemma last_cons {A} (a d : A) l : last (a :: l) d = last l a.
Proof.
  revert a d. induction l as [|b l IH]; intros a d; [reflexivity|].
  change (last (b :: l) d = last (b :: l) a). rewrite !IH. reflexivity.
Qed.

Lemma steps_snoc R p a v : steps R (a :: p) -> R (last p a) v -> steps R (a :: p ++ [v]).
Proof.
  revert a. induction p as [|b p IH]; intros a H Hr; cbn [app steps] in *; [auto|].
  destruct H as [H1 H2]. split; [exact H1|]. apply IH; [exact H2|]. rewrite last_cons in Hr. exact Hr.
Qed.

Lemma route_walk R s t p : route R s t p -> walk R s t (length p - 1).
Proof.
  intros (q & -> & L & S). cbn [length]. rewrite Nat.sub_succ, Nat.sub_0_r. rewrite last_cons in L.
  revert t L. induction q as [|v q IH] using rev_ind; intros t L.
  - cbn in L. subst. constructor.
  - rewrite last_last in L. subst v. rewrite app_length, Nat.add_comm. cbn [length Nat.add].
    apply (walk_snoc _ _ (last q s)).
    + apply IH; [|reflexivity]. rewrite app_comm_cons in S. apply steps_app in S as [S _]. exact S.
    + clear IH. revert s S. induction q as [|a q IH]; intros s S; cbn [app steps] in S; [apply S|].
      rewrite last_cons. apply IH. apply S.
Qed.

Lemma walk_route R s t n : walk R s t n -> exists p, route R s t p /\ length p = S n.
Proof.
  intros W. induction W as [x|x y z n W IH Hr].
  - exists [x]. split; [|reflexivity]. exists []. cbn. auto.
  - destruct IH as (p & (q & -> & L & S) & Len). exists (x :: q ++ [z]). split.
    + exists (q ++ [z]). split; [reflexivity|]. split; [rewrite last_cons, last_last; reflexivity|].
      apply steps_snoc; [exact S|]. rewrite last_cons in L. rewrite L. exact Hr.
    + cbn [length] in *. rewrite app_length. cbn [length]. lia.
Qed.

Lemma route_reach R s t : reach R s t <-> exists p, route R s t p.
Proof.
  split.
  - intros [n W]. destruct (walk_route _ _ _ _ W) as (p & H & _). eauto.
  - intros [p H]. eexists. apply route_walk. exact H.
Qed.

Lemma route_snoc R s u v p : route R s u p -> R u v -> route R s v (p ++ [v]).
Proof.
  intros (q & -> & L & S) Hr. exists (q ++ [v]). split; [reflexivity|].
  split; [rewrite last_last; reflexivity|]. cbn [app]. apply steps_snoc; [exact S|].
  rewrite last_cons in L. rewrite L. exact Hr.
Qed.

Lemma dist_shortest R s t p k : route R s t p -> dist R s t k -> length p = S k -> shortest_route R s t p.
Proof.
  intros H [_ D] L. split; [exact H|]. intros p' H'. apply route_walk in H' as W. apply D in W.
  destruct H' as (q & -> & _). cbn [length] in *. lia.
Qed.

(** ** Breadth-first paths *)

(** Every tree edge starts at a node that is already known. *)
Fixpoint ordered (K : list string) (T : list (string * string)) : Prop :=
  match T with
  | [] => True
  | (u, v) :: t => In u K /\ ordered (v :: K) t
  end.

Lemma ordered_incl T : forall K K', incl K K' -> ordered K T -> ordered K' T.
Proof.
  induction T as [|[u v] T IH]; intros K K' H; cbn [ordered]; [auto|]. intros [H1 H2]. split; [auto|].
  apply (IH (v :: K)); [|exact H2]. intros x [<-|Hx]; [left; reflexivity|right; auto].
Qed.

Lemma ordered_block u : forall new K rest, In u K -> ordered (new ++ K) rest -> ordered K (map (fun v => (u, v)) new ++ rest).
Proof.
  induction new as [|v new IH]; intros K rest H R; cbn [map app ordered] in *; [exact R|].
  split; [exact H|]. apply IH; [right; exact H|]. apply (ordered_incl _ (v :: new ++ K)); [|exact R].
  intros x [<-|Hx]; [apply in_app_iff; right; left; reflexivity|].
  apply in_app_iff in Hx as [Hx|Hx]; apply in_app_iff; [left; exact Hx|right; right; exact Hx].
Qed.

Lemma bfs_ordered g : forall fuel q vis K T, incl q K -> bfs g fuel q vis = Ok T -> ordered K T.
Proof.
  induction fuel as [|fuel IH]; intros q vis K T Hq H; destruct q as [|u q]; cbn [bfs] in H;
    try (injection H as <-; exact I); [discriminate|].
  destruct (bfs g fuel _ _) as [rest|] eqn:E; cbn [bind] in H; [|discriminate]. injection H as <-.
  apply ordered_block; [apply Hq; left; reflexivity|].
  eapply IH; [|exact E]. intros x Hx. apply in_app_iff in Hx as [Hx|Hx]; apply in_app_iff.
  - right. apply Hq. right; exact Hx.
  - left. exact Hx.
Qed.

Lemma shortest_paths_spec g s : wf_graph g -> In s (g_nodes g) ->
  exists ps, shortest_paths g s = Ok ps /\
    (forall x, dget ps x <> None <-> reach (adj g) s x) /\
    (forall x p, dget ps x = Some p -> shortest_route (adj g) s x p).
Proof.
  intros W Hs. destruct (bfs_order_spec g s W Hs) as (t & Et & T1 & T2 & T3).
  unfold bfs_order in Et. unfold shortest_paths. rewrite (proj2 (smem_In _ _) Hs) in *. rewrite Et. cbn [bind].
  eexists. split; [reflexivity|].
  assert (O : ordered [s] t) by (eapply bfs_ordered; [|exact Et]; apply incl_refl).
  assert (G : forall t ps, (forall u v, In (u, v) t -> adj g u v /\ exists k, dist (adj g) s u k /\ dist (adj g) s v (S k)) ->
    NoDup (map snd t) -> (forall v, In v (map snd t) -> ~ In v (dkeys ps)) -> ordered (dkeys ps) t ->
    (forall x p, dget ps x = Some p -> route (adj g) s x p /\ exists k, dist (adj g) s x k /\ length p = S k) ->
    let ps' := fold_left extend_path t ps in
    (forall x, In x (dkeys ps') <-> In x (dkeys ps) \/ In x (map snd t)) /\
    (forall x p, dget ps' x = Some p -> route (adj g) s x p /\ exists k, dist (adj g) s x k /\ length p = S k)).
  { clear. induction t as [|[u v] t IH]; intros ps H1 H2 H3 H4 H5; cbn [fold_left map snd].
    - split; [intros x; cbn; tauto|exact H5].
    - cbn [map snd] in *. inversion H2 as [|? ? N2 N2']; subst. destruct H4 as [Hu H4].
      unfold extend_path at 2 4. cbn [fst snd].
      destruct (dget ps u) as [p|] eqn:Ep; [|exfalso; apply dget_None in Ep; auto].
      assert (Hv : ~ In v (dkeys ps)) by (apply H3; left; reflexivity).
      destruct (H1 u v (or_introl eq_refl)) as (Hr & k & D1 & D2).
      destruct (IH (dset ps v (p ++ [v]))) as [I1 I2].
      + intros a b Hab. apply H1. right; exact Hab.
      + exact N2'.
      + intros w Hw Q. apply In_dkeys_dset in Q as [->|Q]; [auto|]. apply (H3 w); [right; exact Hw|exact Q].
      + rewrite dkeys_dset. unfold dmem. apply dget_None in Hv. rewrite Hv.
        apply (ordered_incl _ (v :: dkeys ps)); [|exact H4]. intros x [<-|Hx]; apply in_app_iff; [right; left; reflexivity|auto].
      + intros x q. rewrite dget_dset. destruct (String.eqb_spec v x) as [->|]; [|apply H5].
        intros E. injection E as <-. destruct (H5 u p Ep) as (R & k' & D & L).
        rewrite (dist_fun _ _ _ _ _ D D1) in L. split; [eapply route_snoc; eauto|].
        exists (S k). split; [exact D2|]. rewrite app_length. cbn [length]. lia.
      + split; [|exact I2]. intros x. rewrite I1, In_dkeys_dset. cbn [In]. intuition. }
  destruct (G t [(s, [s])] T1 T2) as [G1 G2].
  - intros v Hv [<-|[]]. apply in_map_iff in Hv as ([u w] & E & Hu). cbn in E; subst w.
    destruct (T1 _ _ Hu) as (_ & k & _ & D). assert (Q := dist_fun _ _ _ _ _ D (dist_refl _ _)). discriminate.
  - exact O.
  - intros x p H. cbn [dget] in H. destruct (String.eqb_spec s x) as [<-|]; [|discriminate]. injection H as <-.
    split; [exists []; cbn; auto|]. exists 0. split; [apply dist_refl|reflexivity].
  - split.
    + intros x. split.
      * intros H. destruct (dget _ x) as [p|] eqn:E; [|congruence]. apply G2 in E as (R & _). apply route_reach. eauto.
      * intros R E. apply dget_None in E. apply E, G1. destruct (String.eqb_spec s x) as [<-|N]; [left; left; reflexivity|].
        right. destruct (T3 x R (fun Q => N (eq_sym Q))) as [u Hu]. apply in_map_iff. exists (u, x). auto.
    + intros x p H. apply G2 in H as (R & k & D & L). eapply dist_shortest; eauto.
Qed.

(** ** Simple paths *)

Lemma mapM_concat {A B} (f : A -> res (list B)) (Q : A -> B -> Prop) (vs : list A) :
  (forall v, In v vs -> exists l, f v = Ok l /\ NoDup l /\ forall p, In p l <-> Q v p) ->
  NoDup vs -> (forall v v' p, Q v p -> Q v' p -> v = v') ->
  exists ls, mapM f vs = Ok ls /\ NoDup (concat ls) /\ forall p, In p (concat ls) <-> exists v, In v vs /\ Q v p.
Proof.
  intros H N D. induction vs as [|v vs IH].
  - exists []. split; [reflexivity|]. split; [constructor|]. intros p. split; [intros []|intros (v & [] & _)].
  - inversion N as [|? ? N1 N2]; subst. destruct (H v (or_introl eq_refl)) as (l & E & Nl & Hl).
    destruct IH as (ls & Els & Nls & Hls); [intros w Hw; apply H; right; exact Hw|exact N2|].
    exists (l :: ls). cbn [mapM]. rewrite E, Els. split; [reflexivity|]. cbn [concat]. split.
    + apply NoDup_app_intro; auto. intros p Hp Hp'. apply Hl in Hp. apply Hls in Hp' as (w & Hw & Qw).
      rewrite (D v w p Hp Qw) in N1. auto.
    + intros p. rewrite in_app_iff, Hl, Hls. split.
      * intros [Q1|(w & Hw & Qw)]; [exists v; simpl; auto|exists w; simpl; auto].
      * intros (w & [<-|Hw] & Qw); [left; exact Qw|right; eauto].
Qed.

Definition extends g (targets path : list string) (u : string) (p : list string) : Prop :=
  exists q, q <> [] /\ p = rev path ++ q /\ steps (adj g) (u :: q) /\ NoDup p /\ In (last q u) targets.

Lemma paths_from_spec g targets : wf_graph g -> forall fuel path u,
  NoDup (u :: path) -> incl (u :: path) (g_nodes g) -> length (g_nodes g) < fuel + S (length path) ->
  exists l, paths_from g targets fuel (u :: path) u = Ok l /\ NoDup l /\
    forall p, In p l <-> extends g targets (u :: path) u p.
Proof.
  intros W. induction fuel as [|fuel IH]; intros path u N H L.
  - exfalso. assert (Q := NoDup_incl_length N H). cbn [length] in *. lia.
  - cbn [paths_from].
    set (Q := fun v p => ~ In v (u :: path) /\ exists q, p = rev (u :: path) ++ v :: q /\
       adj g u v /\ steps (adj g) (v :: q) /\ NoDup p /\ In (last q v) targets).
    destruct (mapM_concat (fun v => if smem v (u :: path) then Ok []
        else do rest <- paths_from g targets fuel (v :: u :: path) v;
             Ok ((if smem v targets then [rev (v :: u :: path)] else []) ++ rest)) Q (neighbors g u)) as (ls & E & Nl & Hl).
    + intros v Hv. apply neighbors_spec in Hv. destruct (smem v (u :: path)) eqn:Em.
      * exists []. split; [reflexivity|]. split; [constructor|]. intros p. split; [intros []|].
        intros (F & _). apply smem_In in Em. exact (False_ind _ (F Em)).
      * apply smem_not_In in Em. assert (N' : NoDup (v :: u :: path)) by (constructor; auto).
        destruct (IH (u :: path) v N') as (rest & Er & Nr & Hr).
        { intros x [<-|Hx]; [|apply H; exact Hx]. apply (has_edge_nodes g u v W Hv). }
        { cbn [length] in *. lia. }
        rewrite Er. cbn [bind]. eexists. split; [reflexivity|].
        assert (NR : NoDup (rev (v :: u :: path))) by (apply NoDup_rev; exact N').
        split.
        -- destruct (smem v targets); [|exact Nr]. cbn [app]. constructor; [|exact Nr].
           intros F. apply Hr in F as (q & Nq & E & _). rewrite <- (app_nil_r (rev _)) in E at 1.
           apply app_inv_head in E. congruence.
        -- intros p. rewrite in_app_iff, Hr. unfold Q, extends. split.
           ++ intros [F|(q & Nq & E & S & Np & T)].
              ** destruct (smem v targets) eqn:Et; [|destruct F]. destruct F as [<-|[]]. split; [exact Em|].
                 exists []. split; [reflexivity|]. split; [exact Hv|]. split; [exact I|].
                 split; [exact NR|]. apply smem_In. exact Et.
              ** split; [exact Em|]. exists q. cbn [rev] in E. rewrite <- app_assoc in E. cbn [app] in E.
                 split; [exact E|]. auto.
           ++ intros (_ & q & E & Ha & S & Np & T). destruct q as [|w q].
              ** left. cbn [last] in T. apply smem_In in T. rewrite T. left. rewrite E. reflexivity.
              ** right. exists (w :: q). split; [discriminate|]. split; [|auto].
                 rewrite E. cbn [rev]. rewrite <- !app_assoc. reflexivity.
    + apply neighbors_NoDup. apply W.
    + intros v v' p (_ & q & E & _) (_ & q' & E' & _). rewrite E in E'. apply app_inv_head in E'. congruence.
    + rewrite E. cbn [bind]. exists (concat ls). split; [reflexivity|]. split; [exact Nl|].
      intros p. rewrite Hl. unfold Q, extends. split.
      * intros (v & Hv & Nv & q & E' & Ha & S & Np & T). exists (v :: q). split; [discriminate|].
        split; [exact E'|]. split; [split; [exact Ha|exact S]|]. split; [exact Np|]. rewrite last_cons. exact T.
      * intros (q & Nq & E' & S & Np & T). destruct q as [|v q]; [congruence|]. destruct S as [Ha S].
        exists v. split; [apply neighbors_spec; exact Ha|]. split.
        -- rewrite E' in Np. intros F. apply (NoDup_app_disj _ _ v Np); [apply in_rev in F; exact F|left; reflexivity].
        -- exists q. rewrite last_cons in T. auto.
Qed.

Lemma all_simple_paths_spec g s x : wf_graph g -> In s (g_nodes g) -> In x (g_nodes g) -> s <> x ->
  exists l, all_simple_paths g s (Some x) = Ok l /\ NoDup l /\
    forall p, In p l <-> simple_route (adj g) s x p.
Proof.
  intros W Hs Hx N. unfold all_simple_paths. rewrite (proj2 (smem_In _ _) Hs), (proj2 (smem_In _ _) Hx).
  assert (E : smem s [x] = false) by (apply smem_not_In; intros [Q|[]]; congruence). rewrite E.
  destruct (paths_from_spec g [x] W (S (length (g_nodes g))) [] s) as (l & El & Nl & Hl).
  - constructor; [intros []|constructor].
  - intros y [<-|[]]. exact Hs.
  - lia.
  - exists l. split; [exact El|]. split; [exact Nl|]. intros p. rewrite Hl. unfold extends, simple_route, route.
    cbn [rev app]. split.
    + intros (q & Nq & -> & S & Np & [T|[]]). split; [|exact Np]. exists q. rewrite last_cons. auto.
    + intros [(q & -> & L & S) Np]. rewrite last_cons in L. exists q. split; [intros ->; cbn in L; congruence|].
      split; [reflexivity|]. split; [exact S|]. split; [exact Np|]. left. congruence.
Qed.

(** ** The closed network *)

Lemma wf_remove g u v g' : wf_graph g -> remove_edge g u v = Ok g' -> wf_graph g'.
Proof.
  unfold remove_edge. destruct (has_edge g u v); [|discriminate]. intros (W1 & W2 & W3) E. injection E as <-.
  split; [exact W1|]. cbn [g_nodes g_edges]. split.
  - intros x y a Hx. apply filter_In in Hx as [Hx _]. eauto.
  - clear - W3. induction (g_edges g) as [|[[x y] a] t IH]; cbn [filter]; [exact I|].
    destruct W3 as [H1 H2]. destruct (negb _); [|auto]. cbn [uniq_edges]. split; [|auto].
    apply not_true_is_false. intros Q. apply existsb_exists in Q as (e & He & Hp). apply filter_In in He as [He _].
    assert (F : existsb (same_pair x y) t = true) by (apply existsb_exists; eauto). congruence.
Qed.

Lemma wf_open es n n' : wf_graph (net_graph n) -> remove_open_switches es n = Ok n' -> wf_graph (net_graph n').
Proof.
  apply (foldM_inv _ (fun n => wf_graph (net_graph n))). intros n0 m n1 _ W H.
  destruct (open_candidate m) as [[[f t]|]|]; cbn [bind] in H; [| |discriminate].
  - destruct (remove_edge _ f t) as [g'|] eqn:E; cbn [bind] in H; [|discriminate]. injection H as <-.
    cbn [net_graph]. eapply wf_remove; eauto.
  - injection H as <-. exact W.
Qed.

Record closed (m : list cobj) (s : string) (n n' : network) : Prop := mkClosed {
  k_built : build (objs m) s = Ok n;
  k_open : remove_open_switches (objs m) n = Ok n';
  k_wf : wf_graph (net_graph n');
  k_adj : forall u v, adj (net_graph n') u v <-> closed_link (objs m) u v;
  k_nodes : forall x, In x (g_nodes (net_graph n')) <-> exists y, linked (objs m) x y;
  k_source : In s (g_nodes (net_graph n'))
}.

Lemma closed_network_spec m s n n' : closed_network m s = Ok (n, n') -> closed m s n n'.
Proof.
  unfold closed_network. fold (objs m). destruct (build (objs m) s) as [n0|] eqn:Eb; cbn [bind]; [|discriminate].
  destruct (remove_open_switches (objs m) n0) as [n1|] eqn:Er; cbn [bind]; [|discriminate].
  intros E. injection E as <- <-. assert (B := build_built _ _ _ Eb).
  destruct (open_switches_result _ _ _ _ Eb Er) as (R1 & R2 & R3 & R4 & R5).
  destruct (build_contents _ _ _ Eb) as (C1 & C2 & _).
  constructor; auto.
  - eapply wf_open; [exact (b_wf _ _ _ B)|exact Er].
  - intros x. rewrite R1. apply C2.
  - rewrite R1. apply C2. exact (b_source _ _ _ B).
Qed.

Lemma closed_network_ok m c s : buildable m -> In c m -> source_at c s -> exists n n', closed_network m s = Ok (n, n').
Proof.
  intros (H1 & H2 & H3) Hc (_ & Hs). unfold closed_network. fold (objs m).
  assert (Hi : In (c_e c) (objs m)) by (apply in_map; exact Hc).
  destruct (H1 _ Hi) as [x Hx]; [right; congruence|].
  destruct (proj2 (proj1 (build_ok_iff (objs m) s H1))) as [n En].
  { exists x. exists (c_e c). split; [exact Hi|]. right; right; left. split; assumption. }
  rewrite En. cbn [bind]. destruct (open_switches_succeed _ _ _ En H2 H3) as [n' En']. rewrite En'. cbn [bind]. eauto.
Qed.

Lemma in_sources m c : In c (sources m) <-> In c m /\ source_at c (source_bus c).
Proof.
  unfold sources, source_at, is_class, source_bus. rewrite filter_In, andb_true_iff, String.eqb_eq.
  destruct (e_conn (c_e c)); intuition congruence.
Qed.

Lemma source_at_bus c s : source_at c s -> source_bus c = s.
Proof. intros [_ H]. unfold source_bus. rewrite H. reflexivity. Qed.

Lemma in_loads m c : In c (loads m) <-> In c m /\ is_load c.
Proof. unfold loads, is_load, is_class. rewrite filter_In, String.eqb_eq. tauto. Qed.

Lemma reach_iff (R R' : string -> string -> Prop) s x : (forall u v, R u v <-> R' u v) -> (reach R s x <-> reach R' s x).
Proof. intros H. split; intros [n W]; exists n; (eapply walk_mono; [|exact W]); intros u v; apply H. Qed.

Lemma route_iff (R R' : string -> string -> Prop) s x p : (forall u v, R u v <-> R' u v) -> (route R s x p <-> route R' s x p).
Proof.
  intros H. split; intros (q & E & L & S); exists q; (split; [exact E|]); (split; [exact L|]);
    (eapply steps_mono; [|exact S]); intros u v; apply H.
Qed.

Lemma closed_paths m s n n' : closed m s n n' ->
  exists ps, shortest_paths (net_graph n') s = Ok ps /\
    (forall x, dget ps x <> None <-> reach (closed_link (objs m)) s x) /\
    (forall x p, dget ps x = Some p -> shortest_route (closed_link (objs m)) s x p) /\
    (forall c, supplied ps c = true <-> fed m s c).
Proof.
  intros K. destruct (shortest_paths_spec _ s (k_wf _ _ _ _ K) (k_source _ _ _ _ K)) as (ps & E & H1 & H2).
  assert (H3 : forall x, dget ps x <> None <-> reach (closed_link (objs m)) s x).
  { intros x. rewrite H1. apply reach_iff. exact (k_adj _ _ _ _ K). }
  exists ps. split; [exact E|]. split; [exact H3|]. split.
  - intros x p Hp. destruct (H2 x p Hp) as [R M]. split; [eapply route_iff; [|exact R]; intros; symmetry; apply (k_adj _ _ _ _ K)|].
    intros p' R'. apply M. eapply route_iff; [|exact R']. intros; apply (k_adj _ _ _ _ K).
  - intros c. unfold supplied, fed, dmem. destruct (e_conn (c_e c)) as [x|].
    + split.
      * intros Q. exists x. split; [reflexivity|]. apply H3. destruct (dget ps x); congruence.
      * intros (y & Ey & R). injection Ey as <-. apply H3 in R. destruct (dget ps x); [reflexivity|congruence].
    + split; [discriminate|]. intros (y & Ey & _). discriminate.
Qed.
