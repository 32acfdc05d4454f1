(** Lemmas on orienting lines, removing open switches, internal edges, cycles and
    disconnected nodes. *)
From Verif Require Import Base BaseFacts StoreModel StoreSpec StoreProofs ModifyProofs
  NetworkModel NetworkSpec NetworkProofs NetworkBfs NetworkQueries NetworkDown.
Local Open Scope string_scope.
Local Open Scope nat_scope.
Local Open Scope list_scope.

(** ** direct_from_source *)

Definition esim (e e' : edge) : Prop :=
  let '(x, y, a) := e in e' = (x, y, a) \/ e' = (y, x, a).

Lemma esim_pair u v e e' : esim e e' -> same_pair u v e = same_pair u v e'.
Proof.
  destruct e as [[x y] a]. intros [->| ->]; [reflexivity|]. unfold same_pair.
  rewrite (orb_comm (String.eqb y u && _)), (andb_comm (String.eqb y v)), (andb_comm (String.eqb y u)). reflexivity.
Qed.

Lemma esim_snd e e' : esim e e' -> snd e = snd e'.
Proof. destruct e as [[x y] a]. intros [->| ->]; reflexivity. Qed.

Lemma esim_other u e e' : esim e e' -> other_end u e = other_end u e'.
Proof.
  destruct e as [[x y] a]. intros [->| ->]; [reflexivity|]. unfold other_end.
  destruct (String.eqb_spec x u) as [->|], (String.eqb_spec y u) as [->|]; reflexivity.
Qed.

Lemma esim_attr e e' (a : option eattr) : esim e e' -> esim (fst e, a) (fst e', a).
Proof. destruct e as [[x y] b]. intros [->| ->]; cbn [fst]; [left|right]; reflexivity. Qed.

Lemma put_edge_sim l l' u v a : Forall2 esim l l' ->
  Forall2 esim (put_edge l u v a) (put_edge l' u v a) /\
  Forall2 esim (put_edge l u v a) (put_edge l' v u a).
Proof.
  intros H. induction H as [|e e' t t' He Ht [IH1 IH2]]; cbn [put_edge].
  - split; (constructor; [|constructor]); [left|right]; reflexivity.
  - assert (Q1 := esim_pair u v e e' He).
    rewrite (same_pair_sym v u e'), <- Q1, (esim_snd _ _ He). destruct (same_pair u v e).
    + split; (constructor; [apply esim_attr, He|exact Ht]).
    + split; (constructor; [exact He|assumption]).
Qed.

Record gsim (g g' : graph) : Prop := mkGsim {
  gs_edges : Forall2 esim (g_edges g) (g_edges g');
  gs_nodes : forall x, In x (g_nodes g) <-> In x (g_nodes g')
}.

Lemma gsim_add_edge g g' u v a : gsim g g' ->
  gsim (add_edge g u v a) (add_edge g' u v a) /\ gsim (add_edge g u v a) (add_edge g' v u a).
Proof.
  intros [E N]. destruct (put_edge_sim _ _ u v a E) as [P1 P2].
  split; constructor; try (intros x; rewrite !add_edge_nodes, N; tauto);
    unfold add_edge; cbn [g_edges]; rewrite !add_node_edges; assumption.
Qed.

Lemma gsim_add_node g g' x : gsim g g' -> gsim (add_node g x) (add_node g' x).
Proof.
  intros [E N]. constructor; [rewrite !add_node_edges; exact E|]. intros y. rewrite !add_node_nodes, N. tauto.
Qed.

Lemma gsim_swap_nodes g g' x y : gsim g g' -> gsim (add_node (add_node g x) y) (add_node (add_node g' y) x).
Proof.
  intros [E N]. constructor; [rewrite !add_node_edges; exact E|]. intros z. rewrite !add_node_nodes, N. tauto.
Qed.

Definition reoriented (i i' : elem) : Prop := i' = i \/ swapped i i'.

Lemma build_step_sim g g' ot i i' r : gsim g g' -> reoriented i i' -> build_step (g, ot) i = Ok r ->
  exists r', build_step (g', ot) i' = Ok r' /\ snd r' = snd r /\ gsim (fst r) (fst r').
Proof.
  intros G R H. unfold build_step in *.
  assert (Ep : e_name i' = e_name i /\ e_cls i' = e_cls i /\ e_conn i' = e_conn i /\ e_length i' = e_length i).
  { destruct R as [->|(u & v & _ & ->)]; cbn [e_name e_cls e_conn e_length]; auto. }
  destruct Ep as (En & Ec & Eo & El). rewrite En, Ec, Eo, El.
  set (ot1 := match e_name i with Some (Some _) => Some (e_cls i) | _ => ot end) in *.
  assert (P : forall g1, match e_from i, e_to i with
              | Some f, Some t =>
                match ot1 with
                | Some c => match e_name i with
                            | Some n => Ok (add_edge (add_node (add_node g t) f) f t
                                (Some (mkEattr c n match e_length i with Some l => l | None => SVal 0 end)))
                            | None => Err EAttr
                            end
                | None => Err EName
                end
              | _, _ => Ok g end = Ok g1 ->
            exists g1', match e_from i', e_to i' with
              | Some f, Some t =>
                match ot1 with
                | Some c => match e_name i with
                            | Some n => Ok (add_edge (add_node (add_node g' t) f) f t
                                (Some (mkEattr c n match e_length i with Some l => l | None => SVal 0 end)))
                            | None => Err EAttr
                            end
                | None => Err EName
                end
              | _, _ => Ok g' end = Ok g1' /\ gsim g1 g1').
  { intros g1. destruct R as [->|(u & v & [Ef Et] & ->)].
    - destruct (e_from i) as [f|]; [|intros Q; injection Q as <-; eauto].
      destruct (e_to i) as [t|]; [|intros Q; injection Q as <-; eauto].
      destruct ot1 as [c|]; [|discriminate]. destruct (e_name i) as [m|]; [|discriminate].
      intros Q. injection Q as <-. eexists. split; [reflexivity|]. apply gsim_add_edge. repeat apply gsim_add_node. exact G.
    - cbn [e_from e_to]. rewrite Ef, Et. destruct ot1 as [c|]; [|discriminate]. destruct (e_name i) as [m|]; [|discriminate].
      intros Q. injection Q as <-. eexists. split; [reflexivity|]. apply gsim_add_edge, gsim_swap_nodes, G. }
  match type of H with bind ?X _ = _ => destruct X as [g1|] eqn:E1; [|discriminate] end.
  destruct (P g1 eq_refl) as (g1' & E1' & G1). rewrite E1'. cbn [bind] in *.
  destruct (e_conn i) as [c|].
  - destruct (e_name i) as [[m|]|]; cbn [bind] in *; try discriminate. injection H as <-.
    eexists. split; [reflexivity|]. split; [reflexivity|]. cbn [fst]. apply gsim_add_edge. repeat apply gsim_add_node. exact G1.
  - cbn [bind] in *. injection H as <-. eexists. split; [reflexivity|]. split; [reflexivity|]. exact G1.
Qed.

Lemma build_loop_sim es es' : Forall2 reoriented es es' -> forall g g' ot r, gsim g g' ->
  foldM build_step es (g, ot) = Ok r ->
  exists r', foldM build_step es' (g', ot) = Ok r' /\ snd r' = snd r /\ gsim (fst r) (fst r').
Proof.
  intros F. induction F as [|i i' es es' R F IH]; intros g g' ot r G H; cbn [foldM] in *.
  - injection H as <-. exists (g', ot). auto.
  - destruct (build_step (g, ot) i) as [[g1 ot1]|] eqn:E; [|discriminate].
    destruct (build_step_sim _ _ _ _ _ _ G R E) as ([g1' ot1'] & E' & Q & G1). cbn [fst snd] in *. subst ot1'.
    rewrite E'. apply (IH _ _ _ _ G1 H).
Qed.

Lemma gsim_neighbors g g' u : gsim g g' -> neighbors g u = neighbors g' u.
Proof.
  intros [E _]. unfold neighbors. induction E as [|e e' t t' He Ht IH]; [reflexivity|]. cbn [flat_map].
  rewrite IH, (esim_other u _ _ He). reflexivity.
Qed.

Lemma gsim_attr g g' u v : gsim g g' -> edge_attr g u v = edge_attr g' u v.
Proof.
  intros [E _]. unfold edge_attr. induction E as [|e e' t t' He Ht IH]; [reflexivity|]. cbn [find_attr].
  rewrite IH, (esim_pair u v _ _ He), (esim_snd _ _ He). reflexivity.
Qed.

Lemma gsim_bfs g g' : gsim g g' -> forall fuel q vis, bfs g fuel q vis = bfs g' fuel q vis.
Proof.
  intros G. induction fuel as [|fuel IH]; intros q vis; destruct q as [|u q]; cbn [bfs]; try reflexivity.
  rewrite (gsim_neighbors _ _ u G), IH. reflexivity.
Qed.

Lemma same_set_length (l m : list string) : NoDup l -> NoDup m -> (forall x, In x l <-> In x m) -> length l = length m.
Proof.
  intros N1 N2 H. apply Nat.le_antisymm; apply NoDup_incl_length; auto; intros x Hx; apply H; exact Hx.
Qed.

Lemma gsim_bfs_order g g' s : gsim g g' -> wf_graph g -> wf_graph g' -> bfs_order g s = bfs_order g' s.
Proof.
  intros G W W'. unfold bfs_order.
  assert (E : smem s (g_nodes g) = smem s (g_nodes g')).
  { destruct (smem s (g_nodes g)) eqn:E1, (smem s (g_nodes g')) eqn:E2; try reflexivity; exfalso.
    - apply smem_In, (gs_nodes _ _ G), smem_In in E1. congruence.
    - apply smem_In, (gs_nodes _ _ G), smem_In in E2. congruence. }
  rewrite E, (same_set_length _ _ (proj1 W) (proj1 W') (gs_nodes _ _ G)), (gsim_bfs _ _ G). reflexivity.
Qed.

Lemma gsim_make_digraph g g' t : gsim g g' -> make_digraph g t = make_digraph g' t.
Proof.
  intros G. unfold make_digraph. f_equal. apply map_ext. intros [u v]. cbn [fst snd]. rewrite (gsim_attr _ _ u v G). reflexivity.
Qed.

Lemma build_reoriented es es' s n : Forall2 reoriented es es' -> build es s = Ok n ->
  exists n', build es' s = Ok n' /\ net_di n' = net_di n /\ gsim (net_graph n) (net_graph n').
Proof.
  intros F H. unfold build in *. unfold build_graph in *.
  destruct (foldM build_step es (empty_graph, None)) as [r|] eqn:E; [|discriminate].
  assert (G0 : gsim empty_graph empty_graph) by (constructor; [constructor|reflexivity]).
  destruct (build_loop_sim _ _ F _ _ _ _ G0 E) as (r' & E' & _ & G). rewrite E'. cbn [bind] in *.
  assert (W : wf_graph (fst r)).
  { destruct r as [g ot]. destruct (build_loop _ _ _ _ _ E) as (Q & _). apply Q, wf_empty. }
  assert (W' : wf_graph (fst r')).
  { destruct r' as [g ot]. destruct (build_loop _ _ _ _ _ E') as (Q & _). apply Q, wf_empty. }
  rewrite <- (gsim_bfs_order _ _ s G W W'). destruct (bfs_order (fst r) s) as [t|]; [|discriminate]. cbn [bind] in *.
  injection H as <-. eexists. split; [reflexivity|]. cbn [net_di net_graph]. split; [symmetry; apply gsim_make_digraph, G|exact G].
Qed.

Lemma mem_pair_In u v t : mem_pair u v t = true <-> In (u, v) t.
Proof.
  unfold mem_pair. rewrite existsb_exists. split.
  - intros ([a b] & H & Q). cbn [fst snd] in Q. apply andb_true_iff in Q as [Q1 Q2].
    apply String.eqb_eq in Q1 as ->. apply String.eqb_eq in Q2 as ->. exact H.
  - intros H. exists (u, v). split; [exact H|]. cbn [fst snd]. rewrite !String.eqb_refl. reflexivity.
Qed.


Lemma flip_spec g t i : let d := make_digraph g t in
  (opposed d i /\ swapped i (flip t i)) \/ (~ opposed d i /\ flip t i = i).
Proof.
  intros d. unfold flip. destruct (e_from i) as [f|] eqn:Ef.
  2:{ right. split; [|reflexivity]. intros (u & v & [Q _] & _). congruence. }
  destruct (e_to i) as [o|] eqn:Et.
  2:{ right. split; [|reflexivity]. intros (u & v & [_ Q] & _). congruence. }
  destruct (mem_pair o f t && negb (mem_pair f o t)) eqn:E.
  - left. apply andb_true_iff in E as [E1 E2]. apply negb_true_iff in E2. apply mem_pair_In in E1. split.
    + exists f, o. split; [split; assumption|]. split; [apply arc_make, E1|]. intros Q. apply arc_make, mem_pair_In in Q. congruence.
    + exists f, o. split; [split; assumption|reflexivity].
  - right. split; [|reflexivity]. intros (u & v & [Q1 Q2] & A1 & A2).
    assert (u = f) by congruence. assert (v = o) by congruence. subst u v.
    apply arc_make, mem_pair_In in A1. rewrite A1 in E. cbn [andb] in E. apply negb_false_iff, mem_pair_In in E.
    apply A2, arc_make, E.
Qed.

Lemma flip_flip t i : flip t (flip t i) = flip t i.
Proof.
  unfold flip at 2 3. destruct (e_from i) as [f|] eqn:Ef; [|unfold flip; rewrite Ef; reflexivity].
  destruct (e_to i) as [o|] eqn:Et; [|unfold flip; rewrite Ef, Et; reflexivity].
  destruct (mem_pair o f t && negb (mem_pair f o t)) eqn:E; [|unfold flip; rewrite Ef, Et, E; reflexivity].
  unfold flip. cbn [e_from e_to]. apply andb_true_iff in E as [E1 E2]. apply negb_true_iff in E2. rewrite E2. reflexivity.
Qed.

Lemma linked_reoriented es es' u v : Forall2 reoriented es es' -> (linked es u v <-> linked es' u v).
Proof.
  intros F. induction F as [|i i' es es' R F IH]; [reflexivity|]. rewrite !linked_cons, IH.
  assert (Q : link1 i u v <-> link1 i' u v); [|tauto].
  destruct R as [->|(a & b & [Q1 Q2] & ->)]; [reflexivity|]. unfold link1, spans, hangs. cbn [e_from e_to e_conn e_name].
  rewrite Q1, Q2. intuition congruence.
Qed.

Theorem direct_result es s n : build es s = Ok n ->
  exists es', direct_from_source es (net_graph n) s = Ok es' /\
    Forall2 (fun i i' => (opposed (net_di n) i /\ swapped i i') \/ (~ opposed (net_di n) i /\ i' = i)) es es' /\
    (forall i' u v, In i' es' -> spans i' u v -> ~ arc (net_di n) v u) /\
    (forall u v, linked es' u v <-> linked es u v) /\
    exists n', build es' s = Ok n' /\ net_di n' = net_di n /\
               direct_from_source es' (net_graph n') s = Ok es'.
Proof.
  intros H. assert (B := build_built _ _ _ H). destruct (b_di _ _ _ B) as (t & Et & Ed).
  unfold direct_from_source. rewrite Et. cbn [bind]. exists (map (flip t) es).
  assert (F0 : Forall2 (fun i i' => (opposed (net_di n) i /\ swapped i i') \/ (~ opposed (net_di n) i /\ i' = i)) es (map (flip t) es)).
  { rewrite Ed. clear. induction es as [|i es IH]; cbn [map]; constructor; [|exact IH]. apply (flip_spec (net_graph n) t i). }
  assert (F : Forall2 reoriented es (map (flip t) es)).
  { clear - F0. induction F0 as [|i i' l l' [[_ Q]|[_ Q]] F0 IH]; constructor; auto; [right|left]; exact Q. }
  split; [reflexivity|]. split; [exact F0|]. split; [|split].
  - intros i' u v Hi Hs A. apply in_map_iff in Hi as (i & <- & Hi).
    assert (Anti : forall x y, arc (net_di n) x y -> arc (net_di n) y x -> False).
    { intros x y A1 A2. apply (built_acyclic _ _ _ _ _ B A1). eapply reach_step; [apply reach_refl|exact A2]. }
    destruct (flip_spec (net_graph n) t i) as [[(p & q & S1 & A1 & A2) (p' & q' & S2 & E)]|[No E]].
    + rewrite E in Hs. destruct Hs as [Q1 Q2]. cbn [e_from e_to] in Q1, Q2.
      destruct S1 as [S1 S1'], S2 as [S2 S2']. rewrite <- Ed in *.
      assert (u = q) by congruence. assert (v = p) by congruence. subst u v. exact (A2 A).
    + rewrite E in Hs. apply No. rewrite <- Ed. exists u, v. split; [exact Hs|]. split; [exact A|].
      intros Q. exact (Anti _ _ A Q).
  - intros u v. symmetry. apply linked_reoriented, F.
  - destruct (build_reoriented _ _ _ _ F H) as (n' & E' & D' & G). exists n'. split; [exact E'|]. split; [exact D'|].
    rewrite <- (gsim_bfs_order _ _ s G (b_wf _ _ _ B) (b_wf _ _ _ (build_built _ _ _ E'))), Et. cbn [bind].
    rewrite map_map. f_equal. apply map_ext. apply flip_flip.
Qed.

(** ** remove_open_switches *)

Lemma open_candidate_spec m u v : open_candidate m = Ok (Some (u, v)) <-> taken_as_open m u v.
Proof.
  unfold open_candidate, taken_as_open, spans. destruct (e_switch m) as [[sw br]|].
  2:{ split; [discriminate|]. intros (_ & (a & b & Q & _) & _). discriminate. }
  destruct (match sw with Some true => Some true | _ => br end) as [w|] eqn:E.
  2:{ split; [discriminate|]. intros (_ & (a & b & Q & D) & _). injection Q as <- <-.
      destruct D as [->|D]; [discriminate|]. destruct sw as [[|]|]; congruence. }
  assert (D : sw = Some true \/ br <> None).
  { destruct sw as [[|]|]; [left; reflexivity|right; congruence|right; congruence]. }
  destruct (e_from m) as [f|]; [|split; [discriminate|intros ([Q _] & _); discriminate]].
  destruct (e_to m) as [t|]; [|split; [discriminate|intros ([_ Q] & _); discriminate]].
  destruct (e_wires m) as [ws|]; [|split; [discriminate|intros (_ & _ & ws & Q & _); discriminate]].
  set (closed := existsb (fun w : option bool => match w with Some false => true | _ => false end)).
  assert (K : closed ws = true <-> In (Some false) ws).
  { unfold closed. rewrite existsb_exists. split.
    - intros (x & Hx & Q). destruct x as [[|]|]; try discriminate. exact Hx.
    - intros Hx. exists (Some false). auto. }
  destruct ws as [|w0 ws].
  { split; [discriminate|]. intros (_ & _ & ws & Q & N & _). injection Q as <-. congruence. }
  fold (closed (w0 :: ws)). destruct (closed (w0 :: ws)) eqn:Ec.
  - split; [discriminate|]. intros (_ & _ & ws' & Q & _ & N). injection Q as <-. destruct N. apply K. reflexivity.
  - split.
    + intros Q. injection Q as <- <-. split; [auto|]. split; [exists sw, br; auto|].
      exists (w0 :: ws). split; [reflexivity|]. split; [discriminate|]. intros Z. apply K in Z. congruence.
    + intros ([Q1 Q2] & _). congruence.
Qed.


Lemma open_candidate_err m e : open_candidate m = Err e <-> e = EType /\ wires_none m.
Proof.
  unfold open_candidate, wires_none, spans. destruct (e_switch m) as [[sw br]|].
  2:{ split; [discriminate|]. intros (_ & _ & (a & b & Q & _) & _). discriminate. }
  destruct (match sw with Some true => Some true | _ => br end) as [w|] eqn:E.
  2:{ split; [discriminate|]. intros (_ & _ & (a & b & Q & D) & _). injection Q as <- <-.
      destruct D as [->|D]; [discriminate|]. destruct sw as [[|]|]; congruence. }
  assert (D : sw = Some true \/ br <> None).
  { destruct sw as [[|]|]; [left; reflexivity|right; congruence|right; congruence]. }
  destruct (e_from m) as [f|]; [|split; [discriminate|intros (_ & _ & _ & u & v & Q & _); discriminate]].
  destruct (e_to m) as [t|]; [|split; [discriminate|intros (_ & _ & _ & u & v & _ & Q); discriminate]].
  destruct (e_wires m) as [[|w0 ws]|].
  - split; [discriminate|]. intros (_ & Q & _). discriminate.
  - destruct (existsb _ (w0 :: ws)); (split; [discriminate|intros (_ & Q & _); discriminate]).
  - split; [|intros [-> _]; reflexivity]. intros Q. injection Q as <-. split; [reflexivity|]. split; [reflexivity|].
    split; [exists sw, br; auto|exists f, t; auto].
Qed.


Lemma existsb_filter_neg {A} (p q : A -> bool) l :
  existsb p (filter (fun e => negb (q e)) l) = true <-> exists e, In e l /\ p e = true /\ q e = false.
Proof.
  rewrite existsb_exists. split.
  - intros (e & H & P). apply filter_In in H as [H Q]. apply negb_true_iff in Q. eauto.
  - intros (e & H & P & Q). exists e. split; [|exact P]. apply filter_In. rewrite Q. auto.
Qed.

Lemma same_pair_trans u v x y e : same_pair u v e = true ->
  (same_pair x y e = true <-> ((x = u /\ y = v) \/ (x = v /\ y = u))).
Proof.
  destruct e as [[p q] a]. rewrite !same_pair_spec. intuition congruence.
Qed.

Lemma find_attr_filter l f t u v : ~ ((u = f /\ v = t) \/ (u = t /\ v = f)) ->
  find_attr (filter (fun e => negb (same_pair f t e)) l) u v = find_attr l u v.
Proof.
  intros N. induction l as [|e l IH]; [reflexivity|]. cbn [filter find_attr].
  destruct (same_pair f t e) eqn:E; cbn [negb find_attr].
  - destruct (same_pair u v e) eqn:E2; [|exact IH].
    apply (same_pair_trans f t u v e E) in E2. contradiction.
  - rewrite IH. reflexivity.
Qed.

Lemma remove_step n f t g' : remove_edge (net_graph n) f t = Ok g' ->
  has_edge (net_graph n) f t = true /\ g_nodes g' = g_nodes (net_graph n) /\
  (forall u v, has_edge g' u v = true <-> has_edge (net_graph n) u v = true /\ ~ ((u = f /\ v = t) \/ (u = t /\ v = f))) /\
  (forall u v, ~ ((u = f /\ v = t) \/ (u = t /\ v = f)) -> edge_attr g' u v = edge_attr (net_graph n) u v).
Proof.
  unfold remove_edge. destruct (has_edge (net_graph n) f t) eqn:E; [|discriminate]. intros H. injection H as <-.
  split; [reflexivity|]. split; [reflexivity|]. split.
  - intros u v. unfold has_edge. cbn [g_edges]. rewrite existsb_filter_neg. split.
    + intros (e & He & P & Q). split; [apply existsb_exists; eauto|].
      intros Z. apply not_true_iff_false in Q. apply Q. destruct e as [[x y] a]. rewrite same_pair_spec in *.
      destruct Z as [[-> ->]|[-> ->]]; tauto.
    + intros [P N]. apply existsb_exists in P as (e & He & P). exists e. split; [exact He|]. split; [exact P|].
      apply not_true_is_false. intros Q. apply N, (same_pair_trans f t u v e Q), P.
  - intros u v N. unfold edge_attr. cbn [g_edges]. apply find_attr_filter, N.
Qed.

Lemma d_remove_arcs d f t e : In e (d_edges (d_remove d f t)) <->
  In e (d_edges d) /\ ~ (fst e = (f, t) \/ fst e = (t, f)).
Proof.
  unfold d_remove. cbn [d_edges]. rewrite filter_In, negb_true_iff, orb_false_iff.
  destruct e as [[x y] a]. cbn [fst is_dedge].
  assert (S : forall p q, (String.eqb x p && String.eqb y q = false) <-> ~ ((x, y) = (p, q))).
  { intros p q. rewrite <- not_true_iff_false, andb_true_iff, !String.eqb_eq.
    split; intros N Q; apply N; [injection Q as -> ->; auto|destruct Q as [-> ->]; reflexivity]. }
  rewrite !S. tauto.
Qed.

Lemma remove_open_loop es : forall n n', remove_open_switches es n = Ok n' ->
  g_nodes (net_graph n') = g_nodes (net_graph n) /\ d_nodes (net_di n') = d_nodes (net_di n) /\
  (forall u v, has_edge (net_graph n') u v = true <-> has_edge (net_graph n) u v = true /\ ~ open_pair es u v) /\
  (forall u v, ~ open_pair es u v -> edge_attr (net_graph n') u v = edge_attr (net_graph n) u v) /\
  (forall u v a, In (u, v, a) (d_edges (net_di n')) <-> In (u, v, a) (d_edges (net_di n)) /\ ~ open_pair es u v) /\
  (forall i, In i es -> ~ wires_none i).
Proof.
  induction es as [|m es IH]; intros n n' H.
  - injection H as <-. split; [reflexivity|]. split; [reflexivity|].
    assert (N : forall u v, ~ open_pair [] u v) by (intros u v (i & [] & _)).
    split; [|split; [|split]].
    + intros u v. split; [intros Q; split; [exact Q|apply N]|tauto].
    + reflexivity.
    + intros u v a. split; [intros Q; split; [exact Q|apply N]|tauto].
    + intros i [].
  - unfold remove_open_switches in H. cbn [foldM] in H. fold (remove_open_switches es) in H.
    destruct (open_candidate m) as [[[f t]|]|] eqn:Ec; cbn [bind] in H; [| |discriminate].
    + destruct (remove_edge (net_graph n) f t) as [g'|] eqn:Er; cbn [bind] in H; [|discriminate].
      destruct (remove_step _ _ _ _ Er) as (_ & R1 & R2 & R3).
      destruct (IH _ _ H) as (I1 & I2 & I3 & I4 & I5 & I6). cbn [net_graph net_di] in *.
      apply open_candidate_spec in Ec.
      assert (O : forall u v, open_pair (m :: es) u v <-> ((u = f /\ v = t) \/ (u = t /\ v = f)) \/ open_pair es u v).
      { intros u v. split.
        - intros (i & [<-|Hi] & Q); [left|right; exists i; auto].
          destruct Ec as [[E1 E2] _], Q as [[[Q1 Q2] _]|[[Q1 Q2] _]]; [left|right]; split; congruence.
        - intros [[[-> ->]|[-> ->]]|(i & Hi & Q)]; [exists m; simpl; auto|exists m; simpl; auto|exists i; simpl; auto]. }
      split; [congruence|]. split; [exact I2|]. split; [|split; [|split]].
      * intros u v. rewrite I3, R2, O. tauto.
      * intros u v N. rewrite O in N. rewrite I4, R3 by tauto. reflexivity.
      * intros u v a. rewrite I5, d_remove_arcs, O. cbn [fst].
        assert (Z : ((u, v) = (f, t) \/ (u, v) = (t, f)) <-> ((u = f /\ v = t) \/ (u = t /\ v = f)))
          by (split; intros [Q|Q]; [left|right|left|right]; try (injection Q as -> ->; auto); destruct Q as [-> ->]; reflexivity).
        rewrite Z. tauto.
      * intros i [<-|Hi]; [|auto]. intros W. assert (Q := proj2 (open_candidate_err m EType) (conj eq_refl W)).
        apply open_candidate_spec in Ec. congruence.
    + destruct (IH _ _ H) as (I1 & I2 & I3 & I4 & I5 & I6).
      assert (O : forall u v, open_pair (m :: es) u v <-> open_pair es u v).
      { intros u v. split.
        - intros (i & [<-|Hi] & Q); [|exists i; auto].
          destruct Q as [Q|Q]; apply open_candidate_spec in Q; congruence.
        - intros (i & Hi & Q). exists i. simpl; auto. }
      split; [exact I1|]. split; [exact I2|]. split; [|split; [|split]].
      * intros u v. rewrite I3, O. reflexivity.
      * intros u v N. rewrite O in N. auto.
      * intros u v a. rewrite I5, O. reflexivity.
      * intros i [<-|Hi]; [|auto]. intros W. assert (Q := proj2 (open_candidate_err m EType) (conj eq_refl W)). congruence.
Qed.

(** It succeeds when wires are lists, and no two lines taken as open join the same pair. *)
Lemma remove_open_ok es : forall n,
  (forall i, In i es -> ~ wires_none i) ->
  (forall i u v, In i es -> taken_as_open i u v -> has_edge (net_graph n) u v = true) ->
  (forall pre i mid j post u v, es = pre ++ i :: mid ++ j :: post ->
     taken_as_open i u v -> ~ taken_as_open j u v /\ ~ taken_as_open j v u) ->
  exists n', remove_open_switches es n = Ok n'.
Proof.
  induction es as [|m es IH]; intros n Hw He Hu; [eexists; reflexivity|].
  unfold remove_open_switches. cbn [foldM]. fold (remove_open_switches es).
  assert (Hu' : forall pre i mid j post u v, es = pre ++ i :: mid ++ j :: post ->
     taken_as_open i u v -> ~ taken_as_open j u v /\ ~ taken_as_open j v u).
  { intros pre i mid j post u v E. apply (Hu (m :: pre) i mid j post u v). rewrite E. reflexivity. }
  destruct (open_candidate m) as [[[f t]|]|e] eqn:Ec; cbn [bind].
  - apply open_candidate_spec in Ec. assert (E := He m f t (or_introl eq_refl) Ec).
    destruct (remove_edge (net_graph n) f t) as [g'|] eqn:Er; [|unfold remove_edge in Er; rewrite E in Er; discriminate].
    cbn [bind]. destruct (remove_step _ _ _ _ Er) as (_ & _ & R2 & _).
    apply IH; [intros i Hi; apply Hw; right; exact Hi| |exact Hu'].
    intros i u v Hi Ho. cbn [net_graph]. apply R2. split; [apply (He i u v (or_intror Hi) Ho)|].
    apply in_split in Hi as (p & q & ->).
    destruct (Hu [] m p i q f t eq_refl Ec) as [N1 N2]. intros [[-> ->]|[-> ->]]; contradiction.
  - apply IH; [intros i Hi; apply Hw; right; exact Hi|intros i u v Hi; apply He; right; exact Hi|exact Hu'].
  - apply open_candidate_err in Ec as [-> W]. destruct (Hw m (or_introl eq_refl) W).
Qed.

Lemma open_links es s n i u v : build es s = Ok n -> In i es -> taken_as_open i u v -> has_edge (net_graph n) u v = true.
Proof.
  intros H Hi [Hs _]. apply (b_edge _ _ _ (build_built _ _ _ H)). exists i. auto.
Qed.

(** ** find_internal_edges *)

Theorem internal_result es s n nodeset : build es s = Ok n -> all_named es ->
  NoDup (find_internal_edges (net_graph n) nodeset) /\
  forall k, In k (find_internal_edges (net_graph n) nodeset) <->
    exists x u v i, k = Some x /\ In u nodeset /\ In v nodeset /\ last_span es u v i /\ e_name i = Some (Some x).
Proof.
  intros H Hn. assert (B := build_built _ _ _ H). unfold find_internal_edges. split; [apply dedup_keys_NoDup|].
  intros k. rewrite dedup_keys_In, in_flat_map. split.
  - intros (u & Hu & Q). apply in_flat_map in Q as (v & Hv & Q).
    destruct (smem v nodeset) eqn:Ev; [|destruct Q]. destruct (edge_attr (net_graph n) u v) as [a|] eqn:Ea; [|destruct Q].
    destruct Q as [<-|[]]. destruct (edge_attr_object _ _ _ _ _ _ B Hn Ea) as (i & m & Hi & Hm & ->).
    exists m, u, v, i. split; [reflexivity|]. split; [exact Hu|]. split; [apply smem_In, Ev|]. auto.
  - intros (x & u & v & i & -> & Hu & Hv & Hi & Hm). exists u. split; [exact Hu|]. apply in_flat_map. exists v. split.
    + apply adj_nb. unfold adj. apply (b_edge _ _ _ B). destruct Hi as (p & q & -> & Hs & _). exists i.
      split; [apply in_app_iff; right; left; reflexivity|tauto].
    + rewrite (proj2 (smem_In _ _) Hv), (object_edge_attr _ _ _ _ _ _ _ B Hi Hm). left; reflexivity.
Qed.

(** ** find_cycles *)

Lemma chain_reach d : forall l x y, chain d x (l ++ [y]) -> exists z, arc d x z /\ reach (arc d) z y.
Proof.
  induction l as [|w l IH]; intros x y; cbn [app chain].
  - intros [A _]. exists y. split; [exact A|apply reach_refl].
  - intros [A C]. destruct (IH w y C) as (z & A2 & R). exists w. split; [exact A|].
    destruct R as [m W]. exists (1 + m). eapply walk_trans; [apply walk_one, A2|exact W].
Qed.

Theorem no_cycles es s n cycles : build es s = Ok n ->
  (forall c, In c cycles -> cycle_of (net_di n) c) -> find_cycles cycles = [].
Proof.
  intros H Hc. assert (B := build_built _ _ _ H). destruct cycles as [|c t]; [reflexivity|]. exfalso.
  specialize (Hc c (or_introl eq_refl)). destruct c as [|x l]; [exact Hc|]. cbn [cycle_of] in Hc.
  destruct (chain_reach _ _ _ _ Hc) as (z & A & R). exact (built_acyclic _ _ _ _ _ B A R).
Qed.

Lemma delete_cycles_nothing fuel middle h s src n cycles : build_store h s src = Ok n ->
  (forall c, In c cycles -> cycle_of (net_di n) c) ->
  delete_cycles fuel middle h s cycles = Ok (s, build_store h s "sourcebus").
Proof.
  intros H Hc. unfold delete_cycles. rewrite (no_cycles _ _ _ _ H Hc). reflexivity.
Qed.

(** ** delete_disconnected_nodes *)




Lemma is_node_spec h o : is_node h o = true <-> node_obj h o.
Proof.
  unfold is_node, cls_of, node_obj. destruct (nth_error h o) as [ob|]; cbn [option_map].
  - rewrite String.eqb_eq. split; [eauto|]. intros (b & Q & E). injection Q as <-. exact E.
  - split; [discriminate|]. intros (b & Q & _). discriminate.
Qed.

Lemma view_name h o n : e_name (view h o) = Some (Some n) <-> named h o (Some (SStr n)).
Proof.
  unfold view, named. destruct (nth_error h o) as [ob|].
  2:{ split; [discriminate|]. intros (b & Q & _). discriminate. }
  cbn [e_name]. split.
  - intros H. exists ob. split; [reflexivity|]. destruct (dget (attrs ob) "name") as [[[[m|z]|]|]|]; congruence.
  - intros (b & Q & E). injection Q as <-. rewrite E. reflexivity.
Qed.

Lemma view_no_name h o : string_names h -> (e_name (view h o) = Some None <-> named h o None).
Proof.
  intros S. unfold view. destruct (nth_error h o) as [ob|] eqn:E; cbn [e_name].
  - destruct (dget (attrs ob) "name") as [[[[m|z]|]|l]|] eqn:Ed.
    + split; [discriminate|]. intros (b & Q & R). congruence.
    + exfalso. assert (Q : named h o (Some (SVal z))) by (exists ob; auto).
      destruct (S _ _ Q) as [Z|[n Z]]; discriminate.
    + split; [|reflexivity]. intros _. exists ob. auto.
    + split; [discriminate|]. intros (b & Q & R). congruence.
    + split; [discriminate|]. intros (b & Q & R). congruence.
  - split; [discriminate|]. intros (b & Q & _). congruence.
Qed.

Lemma filter_filter {A} (p q : A -> bool) l : filter q (filter p l) = filter (fun x => p x && q x) l.
Proof.
  induction l as [|x t IH]; [reflexivity|]. cbn [filter]. destruct (p x); cbn [filter andb]; rewrite IH; reflexivity.
Qed.

Lemma disconnected_loop fuel h g l : string_names h -> forall s s', NoDup (elems s) ->
  foldM (fun s o =>
             if is_node h o then
               match e_name (view h o) with
               | None => Ok s
               | Some (Some n) =>
                 if smem n (g_nodes g) then Ok s else delete_element fuel h s o
               | Some None => remove_element s o
               end
             else Ok s) l s = Ok s' ->
  names s' = names s /\
  exists keep, (forall x, keep x = true <-> ~ doomed h g l x) /\ elems s' = filter keep (elems s).
Proof.
  intros Sn. induction l as [|o l IH]; intros s s' Nd H.
  - cbn [foldM] in H. injection H as <-. split; [reflexivity|]. exists (fun _ => true). split.
    + intros x. split; [|reflexivity]. intros _ [(o & n & [] & _)|([] & _)].
    + symmetry. apply filter_all. reflexivity.
  - cbn [foldM] in H.
    assert (Cons : forall x, doomed h g (o :: l) x <-> doomed h g l x \/
       (node_obj h o /\ ((exists n, named h o (Some (SStr n)) /\ ~ In n (g_nodes g) /\ part_of h o x) \/
                         (x = o /\ named h o None)))).
    { intros x. unfold doomed. split.
      - intros [(p & n & [<-|Hp] & Q1 & Q2 & Q3 & Q4)|([<-|Hx] & Q1 & Q2)]; eauto 10.
      - intros [[(p & n & Hp & Q)|(Hx & Q)]|[Q1 [(n & Q2 & Q3 & Q4)|[-> Q2]]]].
        + left. exists p, n. split; [right; exact Hp|exact Q].
        + right. split; [right; exact Hx|exact Q].
        + left. exists o, n. split; [left; reflexivity|]. auto.
        + right. split; [left; reflexivity|]. auto. }
    destruct (is_node h o) eqn:En.
    2:{ destruct (IH s s' Nd H) as [I1 (keep & K1 & K2)]. split; [exact I1|]. exists keep. split; [|exact K2].
        intros x. rewrite K1, Cons. split; [|tauto]. intros N [Q|[Q _]]; [auto|]. apply is_node_spec in Q. congruence. }
    assert (No := proj1 (is_node_spec h o) En).
    destruct (e_name (view h o)) as [[n|]|] eqn:Ename.
    + assert (Hn := proj1 (view_name h o n) Ename).
      destruct (smem n (g_nodes g)) eqn:Em.
      * destruct (IH s s' Nd H) as [I1 (keep & K1 & K2)]. split; [exact I1|]. exists keep. split; [|exact K2].
        intros x. rewrite K1, Cons. split; [|tauto]. intros N [Q|[_ [(m & Q1 & Q2 & _)|[_ Q]]]]; [auto| |].
        -- assert (Z := named_fun _ _ _ _ Hn Q1). injection Z as <-. apply Q2, smem_In, Em.
        -- assert (Z := named_fun _ _ _ _ Hn Q). discriminate.
      * destruct (delete_element fuel h s o) as [s1|] eqn:Ed; [|discriminate].
        destruct (delete_element_post _ _ _ _ _ Nd Ed) as (N1 & _ & k1 & P1 & P2).
        assert (Nd1 : NoDup (elems s1)) by (rewrite P2; apply NoDup_filter, Nd).
        destruct (IH s1 s' Nd1 H) as [I1 (keep & K1 & K2)]. split; [congruence|].
        exists (fun x => k1 x && keep x). split; [|rewrite K2, P2; apply filter_filter].
        intros x. rewrite andb_true_iff, P1, K1, Cons. split.
        -- intros [Q1 Q2] [Q|[_ [(m & _ & _ & Q)|[-> Q]]]]; [auto|auto|].
           assert (Z := named_fun _ _ _ _ Hn Q). discriminate.
        -- intros Q. split; [|tauto]. intros Z. apply Q. right. split; [exact No|]. left. exists n.
           split; [exact Hn|]. split; [|exact Z]. intros W. apply smem_In in W. congruence.
    + assert (Hn := proj1 (view_no_name h o Sn) Ename).
      destruct (remove_element s o) as [s1|] eqn:Er; [|discriminate].
      unfold remove_element in Er. destruct (list_remove o (elems s)) as [l1|] eqn:El; [|discriminate]. injection Er as <-.
      assert (P2 := proj1 (list_remove_filter _ _ _ Nd El)).
      assert (Nd1 : NoDup (elems (mkStore l1 (names s)))) by (cbn [elems]; rewrite P2; apply NoDup_filter, Nd).
      destruct (IH _ s' Nd1 H) as [I1 (keep & K1 & K2)]. split; [exact I1|]. cbn [elems] in K2.
      exists (fun x => not_in [o] x && keep x). split; [|rewrite K2, P2; apply filter_filter].
      intros x. rewrite andb_true_iff, not_in_spec, K1, Cons. cbn [In]. split.
      -- intros [Q1 Q2] [Q|[_ [(m & Q & _)|[-> Q]]]]; [auto| |apply Q1; auto].
         assert (Z := named_fun _ _ _ _ Hn Q). discriminate.
      -- intros Q. split; [|tauto]. intros [<-|[]]. apply Q. right. auto.
    + destruct (IH s s' Nd H) as [I1 (keep & K1 & K2)]. split; [exact I1|]. exists keep. split; [|exact K2].
      intros x. rewrite K1, Cons. split; [|tauto]. intros N [Q|[_ [(m & Q & _)|[_ Q]]]]; [auto| |].
      -- apply view_name in Q. congruence.
      -- apply (view_no_name h o Sn) in Q. congruence.
Qed.

Theorem disconnected_result fuel h s g s' r : string_names h -> NoDup (elems s) ->
  delete_disconnected_nodes fuel h s g = Ok (s', r) ->
  names s' = names s /\ r = build_store h s' "sourcebus" /\
  exists keep, (forall x, keep x = true <-> ~ doomed h g (elems s) x) /\ elems s' = filter keep (elems s).
Proof.
  intros Sn Nd H. unfold delete_disconnected_nodes in H.
  match type of H with bind ?X _ = _ => destruct X as [s1|] eqn:E; [|discriminate] end.
  cbn [bind] in H. injection H as <- <-.
  destruct (disconnected_loop _ _ _ _ Sn _ _ Nd E) as [I1 I2]. auto.
Qed.


Lemma disconnected_loop_ok h g all : string_names h -> nodes_own_parts h all ->
  forall l, NoDup l -> incl l all ->
  exists n, forall fuel s, n <= fuel -> NoDup (elems s) ->
    (forall o x, In o l -> node_obj h o -> part_of h o x -> In x (elems s)) ->
  exists s', foldM (fun s o =>
             if is_node h o then
               match e_name (view h o) with
               | None => Ok s
               | Some (Some n) =>
                 if smem n (g_nodes g) then Ok s else delete_element fuel h s o
               | Some None => remove_element s o
               end
             else Ok s) l s = Ok s'.
Proof.
  intros Sn [Own Dis]. induction l as [|o l IH]; intros Nl Il.
  - exists 0. intros. cbn [foldM]. eauto.
  - inversion Nl; subst. destruct IH as (n2 & H2'); [assumption|intros x Hx; apply Il; right; exact Hx|].
    destruct (is_node h o) eqn:En.
    + assert (No := proj1 (is_node_spec h o) En).
      destruct (Own o (Il o (or_introl eq_refl)) No) as (t & T & Nt & It).
      destruct (proj1 (delete_complete h) o t T) as (n1 & H1'). exists (Nat.max n1 n2).
      intros fuel s Hf Nd Hp. cbn [foldM]. rewrite En.
      assert (Skip : exists s', foldM (fun s o =>
             if is_node h o then
               match e_name (view h o) with
               | None => Ok s
               | Some (Some n) =>
                 if smem n (g_nodes g) then Ok s else delete_element fuel h s o
               | Some None => remove_element s o
               end
             else Ok s) l s = Ok s').
      { apply H2'; [lia|exact Nd|]. intros p x Hpl. apply Hp. right; exact Hpl. }
      assert (Disj : forall p x, In p l -> node_obj h p -> part_of h p x -> ~ part_of h o x).
      { intros p x Hpl Hnp Hx. apply (Dis p o x); auto; [apply Il; right; exact Hpl|apply Il; left; reflexivity|].
        intros ->. contradiction. }
      destruct (e_name (view h o)) as [[m|]|]; [|  |exact Skip].
      * destruct (smem m (g_nodes g)); [exact Skip|]. rewrite H1' by lia.
        assert (R : remove_all t (elems s) = Ok (filter (not_in t) (elems s))).
        { apply remove_all_ok; [exact Nd|]. split; [exact Nt|]. split; [|reflexivity].
          intros x Hx. apply (Hp o x (or_introl eq_refl) No). apply (proj1 (tree_parts h) o t T), Hx. }
        rewrite R. cbn [with_elems]. apply H2'; [lia|cbn [elems]; apply NoDup_filter, Nd|].
        intros p x Hpl Hnp Hx. cbn [elems]. apply filter_In. split; [apply (Hp p x); auto; right; exact Hpl|].
        apply not_in_spec. intros Q. apply (proj1 (tree_parts h) o t T) in Q. exact (Disj p x Hpl Hnp Hx Q).
      * assert (Ho : In o (elems s)) by (apply (Hp o o (or_introl eq_refl) No); constructor).
        destruct (list_remove_total o (elems s) Ho) as [l1 El]. unfold remove_element at 1. rewrite El.
        destruct (list_remove_filter _ _ _ Nd El) as [-> _].
        apply H2'; [lia|cbn [elems]; apply NoDup_filter, Nd|].
        intros p x Hpl Hnp Hx. cbn [elems]. apply filter_In. split; [apply (Hp p x); auto; right; exact Hpl|].
        apply not_in_spec. intros [<-|[]]. apply (Disj p o Hpl Hnp Hx). constructor.
    + exists n2. intros fuel s Hf Nd Hp. cbn [foldM]. rewrite En.
      apply H2'; [exact Hf|exact Nd|]. intros p x Hpl. apply Hp. right; exact Hpl.
Qed.

Theorem disconnected_succeeds h s g : string_names h -> NoDup (elems s) -> nodes_own_parts h (elems s) ->
  exists n, forall fuel, n <= fuel -> exists s' r, delete_disconnected_nodes fuel h s g = Ok (s', r).
Proof.
  intros Sn Nd Own. destruct (disconnected_loop_ok h g (elems s) Sn Own (elems s) Nd (incl_refl _)) as (n & Hn).
  exists n. intros fuel Hf. unfold delete_disconnected_nodes, models.
  destruct (Hn fuel s Hf Nd) as [s' E].
  { intros o x Ho No Hx. destruct Own as [Own _]. destruct (Own o Ho No) as (t & T & _ & It).
    apply It, (proj1 (tree_parts h) o t T), Hx. }
  rewrite E. cbn [bind]. eauto.
Qed.
