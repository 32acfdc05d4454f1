(** Lemmas on building the network graph. *)
From Verif Require Import Base BaseFacts StoreModel NetworkModel NetworkSpec.
Local Open Scope string_scope.
Local Open Scope nat_scope.
Local Open Scope list_scope.

Lemma str_dec (a b : string) : {a = b} + {a <> b}.
Proof. apply string_dec. Qed.

Lemma NoDup_snoc {A} (l : list A) x : NoDup l -> ~ In x l -> NoDup (l ++ [x]).
Proof.
  induction l as [|y t IH]; simpl; intros H N; [constructor; [auto|constructor]|].
  inversion H; subst. constructor.
  - rewrite in_app_iff. simpl. intros [Q|[Q|[]]]; [auto|]. subst. apply N. auto.
  - apply IH; auto.
Qed.

(** ** Edges *)

Lemma same_pair_spec u v x y a :
  same_pair u v (x, y, a) = true <-> (x = u /\ y = v) \/ (x = v /\ y = u).
Proof.
  unfold same_pair. rewrite orb_true_iff, !andb_true_iff, !String.eqb_eq. tauto.
Qed.

Lemma same_pair_sym u v e : same_pair u v e = same_pair v u e.
Proof. destruct e as [[x y] a]. unfold same_pair. apply orb_comm. Qed.

(** No two edges of the list join the same pair. *)
Fixpoint uniq_edges (l : list edge) : Prop :=
  match l with
  | [] => True
  | (x, y, _) :: t => existsb (same_pair x y) t = false /\ uniq_edges t
  end.

Definition wf_graph (g : graph) : Prop :=
  NoDup (g_nodes g) /\
  (forall x y a, In (x, y, a) (g_edges g) -> In x (g_nodes g) /\ In y (g_nodes g)) /\
  uniq_edges (g_edges g).

Lemma wf_empty : wf_graph empty_graph.
Proof. split; [constructor|]. split; [intros x y a []|exact I]. Qed.

Lemma add_node_nodes g n x : In x (g_nodes (add_node g n)) <-> x = n \/ In x (g_nodes g).
Proof.
  unfold add_node. destruct (smem n (g_nodes g)) eqn:E; simpl.
  - apply smem_In in E. split; [tauto|]. intros [->|H]; auto.
  - rewrite in_app_iff. simpl. intuition congruence.
Qed.

Lemma add_node_edges g n : g_edges (add_node g n) = g_edges g.
Proof. unfold add_node. destruct (smem n (g_nodes g)); reflexivity. Qed.

Lemma add_node_NoDup g n : NoDup (g_nodes g) -> NoDup (g_nodes (add_node g n)).
Proof.
  intros H. unfold add_node. destruct (smem n (g_nodes g)) eqn:E; [exact H|]. simpl.
  apply NoDup_snoc; [exact H|]. intros Q. apply smem_In in Q. congruence.
Qed.

Lemma wf_add_node g n : wf_graph g -> wf_graph (add_node g n).
Proof.
  intros (H1 & H2 & H3). split; [apply add_node_NoDup, H1|]. rewrite add_node_edges. split; [|exact H3].
  intros x y a Hin. rewrite !add_node_nodes. destruct (H2 x y a Hin). auto.
Qed.

Lemma put_edge_exists l u v a x y :
  existsb (same_pair x y) (put_edge l u v a) = existsb (same_pair x y) l || same_pair x y (u, v, a).
Proof.
  induction l as [|e t IH]; cbn [put_edge existsb].
  - rewrite orb_false_r. reflexivity.
  - destruct (same_pair u v e) eqn:E; cbn [existsb].
    + destruct e as [[p q] b]. cbn [fst snd].
      assert (Es : forall c, same_pair x y (p, q, c) = same_pair x y (p, q, b)) by reflexivity.
      rewrite Es. destruct (same_pair x y (u, v, a)) eqn:E2; [|rewrite orb_false_r; reflexivity].
      apply same_pair_spec in E. apply same_pair_spec in E2.
      assert (E3 : same_pair x y (p, q, b) = true).
      { apply same_pair_spec. destruct E as [[-> ->]|[-> ->]], E2 as [[-> ->]|[-> ->]]; auto. }
      rewrite E3. reflexivity.
    + rewrite IH, orb_assoc. reflexivity.
Qed.

Lemma put_edge_In l u v a x y b : In (x, y, b) (put_edge l u v a) ->
  (exists c, In (x, y, c) l) \/ (x = u /\ y = v).
Proof.
  induction l as [|e t IH]; cbn [put_edge].
  - intros [H|[]]. injection H as <- <- _. auto.
  - destruct (same_pair u v e); intros [H|H].
    + destruct e as [[p q] c]. cbn [fst] in H. injection H as <- <- _. left. exists c. left; reflexivity.
    + left. exists b. right; exact H.
    + left. exists b. left; exact H.
    + destruct (IH H) as [[c Hc]|Hc]; [left; exists c; right; exact Hc|right; exact Hc].
Qed.

Lemma put_edge_uniq l u v a : uniq_edges l -> uniq_edges (put_edge l u v a).
Proof.
  induction l as [|[[p q] c] t IH]; cbn [put_edge uniq_edges].
  - intros _. split; [reflexivity|exact I].
  - intros [H1 H2]. destruct (same_pair u v (p, q, c)) eqn:E.
    + cbn [fst snd uniq_edges]. auto.
    + cbn [uniq_edges]. split; [|auto]. rewrite put_edge_exists, H1. cbn [orb].
      apply not_true_is_false. intros Q. apply not_true_iff_false in E. apply E.
      apply same_pair_spec in Q. apply same_pair_spec. destruct Q as [[-> ->]|[-> ->]]; auto.
Qed.

Lemma find_put l u v a x y :
  find_attr (put_edge l u v a) x y =
  if same_pair x y (u, v, a) then
    match a with Some _ => a | None => find_attr l x y end
  else find_attr l x y.
Proof.
  induction l as [|e t IH]; cbn [put_edge find_attr].
  - destruct (same_pair x y (u, v, a)); [destruct a; reflexivity|reflexivity].
  - destruct (same_pair u v e) eqn:E; cbn [find_attr].
    + destruct e as [[p q] c]. cbn [fst snd].
      change (same_pair x y (p, q, match a with Some _ => a | None => c end)) with (same_pair x y (p, q, c)).
      destruct (same_pair x y (p, q, c)) eqn:E1, (same_pair x y (u, v, a)) eqn:E2; try reflexivity.
      * destruct a; [|reflexivity]. exfalso. apply not_true_iff_false in E2. apply E2. clear E2 IH.
        apply same_pair_spec in E. apply same_pair_spec in E1. apply same_pair_spec.
        destruct E as [[-> ->]|[-> ->]], E1 as [[-> ->]|[-> ->]]; auto.
      * exfalso. apply not_true_iff_false in E1. apply E1.
        apply same_pair_spec in E. apply same_pair_spec in E2. apply same_pair_spec.
        destruct E as [[-> ->]|[-> ->]], E2 as [[-> ->]|[-> ->]]; auto.
    + destruct (same_pair x y e) eqn:E1; [|exact IH].
      destruct (same_pair x y (u, v, a)) eqn:E2; [|reflexivity].
      exfalso. apply not_true_iff_false in E. apply E. destruct e as [[p q] c].
      apply same_pair_spec in E1. apply same_pair_spec in E2. apply same_pair_spec.
      destruct E1 as [[-> ->]|[-> ->]], E2 as [[-> ->]|[-> ->]]; auto.
Qed.

Lemma add_edge_nodes g u v a x : In x (g_nodes (add_edge g u v a)) <-> x = u \/ x = v \/ In x (g_nodes g).
Proof. unfold add_edge. cbn [g_nodes]. rewrite !add_node_nodes. tauto. Qed.

Lemma add_edge_has g u v a x y :
  has_edge (add_edge g u v a) x y = has_edge g x y || same_pair x y (u, v, a).
Proof. unfold add_edge, has_edge. cbn [g_edges]. rewrite put_edge_exists, !add_node_edges. reflexivity. Qed.

Lemma wf_add_edge g u v a : wf_graph g -> wf_graph (add_edge g u v a).
Proof.
  intros W. assert (W' := wf_add_node _ v (wf_add_node _ u W)). destruct W' as (H1 & H2 & H3).
  unfold add_edge. split; [exact H1|]. split; [|apply put_edge_uniq, H3]. cbn [g_nodes g_edges].
  intros x y b Hin. apply put_edge_In in Hin as [[c Hc]|[-> ->]]; [exact (H2 _ _ _ Hc)|].
  rewrite !add_node_nodes. auto.
Qed.

Lemma add_edge_attr g u v a x y :
  edge_attr (add_edge g u v a) x y =
  if same_pair x y (u, v, a) then match a with Some _ => a | None => edge_attr g x y end
  else edge_attr g x y.
Proof. unfold add_edge, edge_attr. cbn [g_edges]. rewrite find_put, !add_node_edges. reflexivity. Qed.

(** ** Neighbours *)

Lemma neighbors_spec g u v : In v (neighbors g u) <-> has_edge g u v = true.
Proof.
  unfold neighbors, has_edge. rewrite existsb_exists, in_flat_map. split.
  - intros ([[x y] a] & He & Hv). exists (x, y, a). split; [exact He|]. apply same_pair_spec.
    unfold other_end in Hv. destruct (String.eqb_spec x u) as [->|Nx].
    + destruct Hv as [->|[]]. auto.
    + destruct (String.eqb_spec y u) as [->|Ny]; [|destruct Hv]. destruct Hv as [->|[]]. auto.
  - intros ([[x y] a] & He & Hv). exists (x, y, a). split; [exact He|]. apply same_pair_spec in Hv.
    unfold other_end. destruct Hv as [[-> ->]|[-> ->]].
    + rewrite String.eqb_refl. left; reflexivity.
    + destruct (String.eqb_spec v u) as [->|N]; [left; reflexivity|]. rewrite String.eqb_refl. left; reflexivity.
Qed.

Lemma has_edge_sym g u v : has_edge g u v = has_edge g v u.
Proof.
  unfold has_edge. induction (g_edges g) as [|e t IH]; [reflexivity|].
  cbn [existsb]. rewrite IH, same_pair_sym. reflexivity.
Qed.

Lemma neighbors_NoDup g u : uniq_edges (g_edges g) -> NoDup (neighbors g u).
Proof.
  unfold neighbors. induction (g_edges g) as [|[[x y] a] t IH]; intros H; [constructor|].
  cbn [uniq_edges] in H. destruct H as [H1 H2]. cbn [flat_map]. specialize (IH H2).
  assert (Hn : forall v, In v (other_end u (x, y, a)) -> ~ In v (flat_map (other_end u) t)).
  { intros v Hv Hin. assert (Q := proj1 (neighbors_spec (mkGraph [] t) u v) Hin). unfold has_edge in Q. cbn [g_edges] in Q.
    assert (Hp : same_pair u v (x, y, a) = true).
    { apply same_pair_spec. unfold other_end in Hv. destruct (String.eqb_spec x u) as [->|Nx].
      - destruct Hv as [->|[]]. auto.
      - destruct (String.eqb_spec y u) as [->|Ny]; [|destruct Hv]. destruct Hv as [->|[]]. auto. }
    apply same_pair_spec in Hp.
    assert (Q2 : existsb (same_pair x y) t = true).
    { destruct Hp as [[-> ->]|[-> ->]]; [exact Q|]. rewrite <- Q.
      clear. induction t as [|e t IH]; [reflexivity|]. cbn [existsb]. rewrite IH, same_pair_sym. reflexivity. }
    congruence. }
  unfold other_end in *. destruct (String.eqb x u); [|destruct (String.eqb y u); [|exact IH]];
    cbn [app]; constructor; auto; apply Hn; left; reflexivity.
Qed.

Lemma has_edge_nodes g u v : wf_graph g -> has_edge g u v = true -> In u (g_nodes g) /\ In v (g_nodes g).
Proof.
  intros (_ & W & _) H. unfold has_edge in H. apply existsb_exists in H as ([[x y] a] & He & Hp).
  apply same_pair_spec in Hp. destruct (W x y a He). destruct Hp as [[-> ->]|[-> ->]]; auto.
Qed.

(** ** The loop of Network.build *)

Definition link1 (i : elem) (u v : string) : Prop :=
  spans i u v \/ spans i v u \/ hangs i u v \/ hangs i v u.

Definition span_or (i : elem) (u v : string) : Prop := spans i u v \/ spans i v u.

(** What one iteration does. *)
Lemma build_step_spec g ot i g' ot' :
  build_step (g, ot) i = Ok (g', ot') ->
  (wf_graph g -> wf_graph g') /\
  (forall u v, has_edge g' u v = true <-> has_edge g u v = true \/ link1 i u v) /\
  (forall x, In x (g_nodes g') <-> In x (g_nodes g) \/ exists y, link1 i x y) /\
  ot' = match e_name i with Some (Some _) => Some (e_cls i) | _ => ot end /\
  (forall u v, ~ span_or i u v -> edge_attr g' u v = edge_attr g u v) /\
  (forall u v, span_or i u v -> exists c n, ot' = Some c /\ e_name i = Some n /\
     edge_attr g' u v = Some (mkEattr c n (length_or_zero i))).
Proof.
  unfold build_step. fold (length_or_zero i).
  set (ot1 := match e_name i with Some (Some _) => Some (e_cls i) | _ => ot end). intros H.
  (* two-terminal part *)
  assert (P1 : forall r, (match e_from i, e_to i with
           | Some f, Some t =>
             match ot1 with
             | None => Err EName
             | Some c =>
               match e_name i with
               | None => Err EAttr
               | Some n => Ok (add_edge (add_node (add_node g t) f) f t (Some (mkEattr c n (length_or_zero i))))
               end
             end
           | _, _ => Ok g
           end) = Ok r ->
     (wf_graph g -> wf_graph r) /\
     (forall u v, has_edge r u v = true <-> has_edge g u v = true \/ span_or i u v) /\
     (forall x, In x (g_nodes r) <-> In x (g_nodes g) \/ exists y, span_or i x y) /\
     (forall u v, ~ span_or i u v -> edge_attr r u v = edge_attr g u v) /\
     (forall u v, span_or i u v -> exists c n, ot1 = Some c /\ e_name i = Some n /\
        edge_attr r u v = Some (mkEattr c n (length_or_zero i)))).
  { intros r Hr. unfold span_or, spans.
    destruct (e_from i) as [f|]; destruct (e_to i) as [t|];
      [| injection Hr as <-; (split; [auto|]); (split; [intros; intuition discriminate|]);
         (split; [intros; split; [auto|intros [Q|[y [[Q1 Q2]|[Q1 Q2]]]]; [exact Q|discriminate|discriminate]]|]);
         (split; [auto|intros u v [[Q1 Q2]|[Q1 Q2]]; discriminate]) ..].
    destruct ot1 as [c|] eqn:Eo; [|discriminate]. destruct (e_name i) as [n|] eqn:En; [|discriminate].
    injection Hr as <-. split; [|split; [|split; [|split]]].
    - intros W. apply wf_add_edge. repeat apply wf_add_node. exact W.
    - intros u v. rewrite add_edge_has, orb_true_iff, same_pair_spec.
      unfold has_edge. rewrite !add_node_edges. intuition congruence.
    - intros x. rewrite add_edge_nodes, !add_node_nodes. split.
      + intros [->|[->|[->|[->|Q]]]]; auto; right; [exists t|exists f|exists t|exists f]; auto.
      + intros [Q|[y [[Q1 Q2]|[Q1 Q2]]]]; [auto| |]; injection Q1 as <-; injection Q2 as <-; auto.
    - intros u v Hn. rewrite add_edge_attr. destruct (same_pair u v (f, t, _)) eqn:E.
      + exfalso. apply same_pair_spec in E. apply Hn. destruct E as [[-> ->]|[-> ->]]; auto.
      + unfold edge_attr. rewrite !add_node_edges. reflexivity.
    - intros u v Hs. exists c, n. split; [reflexivity|]. split; [reflexivity|].
      rewrite add_edge_attr.
      assert (E : same_pair u v (f, t, Some (mkEattr c n (length_or_zero i))) = true).
      { apply same_pair_spec. destruct Hs as [[Q1 Q2]|[Q1 Q2]]; injection Q1 as ->; injection Q2 as ->; auto. }
      rewrite E. reflexivity. }
  destruct (match e_from i, e_to i with
           | Some f, Some t =>
             match ot1 with
             | None => Err EName
             | Some c =>
               match e_name i with
               | None => Err EAttr
               | Some n => Ok (add_edge (add_node (add_node g t) f) f t (Some (mkEattr c n (length_or_zero i))))
               end
             end
           | _, _ => Ok g
           end) as [g1|] eqn:E1; [|discriminate]. cbn [bind] in H.
  specialize (P1 g1 eq_refl). destruct P1 as (A1 & A2 & A3 & A4 & A5).
  assert (L : forall u v, link1 i u v <-> span_or i u v \/ hangs i u v \/ hangs i v u) by (unfold link1, span_or; tauto).
  destruct (e_conn i) as [c|] eqn:Ec.
  - destruct (e_name i) as [[n|]|] eqn:En; cbn [bind] in H; try discriminate.
    injection H as <- <-.
    assert (Hh : forall u v, hangs i u v <-> u = c /\ v = n).
    { intros u v. unfold hangs. rewrite Ec, En. split; [intros [Q1 Q2]; split; congruence|intros [-> ->]; auto]. }
    split; [|split; [|split; [|split; [|split]]]].
    + intros W. apply wf_add_edge. repeat apply wf_add_node. auto.
    + intros u v. rewrite add_edge_has, orb_true_iff, same_pair_spec, L, !Hh.
      unfold has_edge at 1. rewrite !add_node_edges. fold (has_edge g1 u v). rewrite A2. intuition congruence.
    + intros x. rewrite add_edge_nodes, !add_node_nodes, A3. split.
      * intros [->|[->|[->|[->|[Q|[y Q]]]]]]; auto; right; [exists n|exists c|exists c|exists n|exists y]; apply L; rewrite !Hh; auto.
      * intros [Q|[y Q]]; [tauto|]. apply L in Q. rewrite !Hh in Q. destruct Q as [Q|[[-> ->]|[-> ->]]]; eauto 10.
    + reflexivity.
    + intros u v Hn. rewrite add_edge_attr. rewrite <- (A4 u v Hn). unfold edge_attr. rewrite !add_node_edges.
      destruct (same_pair u v (c, n, None)); reflexivity.
    + intros u v Hs. destruct (A5 u v Hs) as (c' & n' & Q1 & Q2 & Q3). exists c', n'. split; [exact Q1|]. split; [exact Q2|].
      rewrite <- Q3. rewrite add_edge_attr. unfold edge_attr. rewrite !add_node_edges.
      destruct (same_pair u v (c, n, None)); reflexivity.
  - cbn [bind] in H. injection H as <- <-.
    assert (Hh : forall u v, ~ hangs i u v) by (intros u v [Q _]; congruence).
    split; [exact A1|]. split; [|split; [|split; [reflexivity|split; [exact A4|exact A5]]]].
    + intros u v. rewrite A2, L. split; [tauto|]. intros [Q|[Q|[Q|Q]]]; auto; destruct (Hh _ _ Q).
    + intros x. rewrite A3. split.
      * intros [Q|[y Q]]; [auto|right; exists y; apply L; auto].
      * intros [Q|[y Q]]; [auto|]. apply L in Q as [Q|[Q|Q]]; [eauto| |]; destruct (Hh _ _ Q).
Qed.

Lemma linked_cons i es u v : linked (i :: es) u v <-> link1 i u v \/ linked es u v.
Proof.
  unfold linked, link1. split.
  - intros (j & [<-|Hj] & H); [auto|right; eauto].
  - intros [H|(j & Hj & H)]; [exists i; simpl; auto|exists j; simpl; auto].
Qed.

Lemma linked_nil u v : ~ linked [] u v.
Proof. intros (i & [] & _). Qed.

Lemma linked_sym es u v : linked es u v -> linked es v u.
Proof. intros (i & Hi & H). exists i. split; [exact Hi|]. tauto. Qed.

Lemma build_loop es : forall g ot g' ot',
  foldM build_step es (g, ot) = Ok (g', ot') ->
  (wf_graph g -> wf_graph g') /\
  (forall u v, has_edge g' u v = true <-> has_edge g u v = true \/ linked es u v) /\
  (forall x, In x (g_nodes g') <-> In x (g_nodes g) \/ exists y, linked es x y).
Proof.
  induction es as [|i es IH]; intros g ot g' ot' H.
  - injection H as <- <-. split; [auto|]. split.
    + intros u v. split; [auto|]. intros [Q|Q]; [exact Q|destruct (linked_nil _ _ Q)].
    + intros x. split; [auto|]. intros [Q|[y Q]]; [exact Q|destruct (linked_nil _ _ Q)].
  - cbn [foldM] in H. destruct (build_step (g, ot) i) as [[g1 ot1]|] eqn:Es; [|discriminate].
    destruct (build_step_spec _ _ _ _ _ Es) as (A1 & A2 & A3 & _).
    destruct (IH _ _ _ _ H) as (B1 & B2 & B3). split; [auto|]. split.
    + intros u v. rewrite B2, A2, linked_cons. tauto.
    + intros x. rewrite B3, A3. split.
      * intros [[Q|[y Q]]|[y Q]]; [auto| |]; right; exists y; apply linked_cons; auto.
      * intros [Q|[y Q]]; [auto|]. apply linked_cons in Q as [Q|Q]; [left; right|right]; eauto.
Qed.

Lemma build_graph_contents es g : build_graph es = Ok g ->
  (forall u v, has_edge g u v = true <-> linked es u v) /\
  (forall x, In x (g_nodes g) <-> exists y, linked es x y) /\ wf_graph g.
Proof.
  unfold build_graph. destruct (foldM build_step es (empty_graph, None)) as [[g' ot']|] eqn:E; [|discriminate].
  cbn [bind fst]. intros H. injection H as <-. destruct (build_loop _ _ _ _ _ E) as (B1 & B2 & B3).
  split; [|split; [|apply B1, wf_empty]].
  - intros u v. rewrite B2. unfold has_edge. simpl. intuition discriminate.
  - intros x. rewrite B3. simpl. tauto.
Qed.

(** Attributes: the class is that of the last named object up to the last spanning object. *)
Lemma build_loop_attr es : forall g ot g' ot' u v,
  foldM build_step es (g, ot) = Ok (g', ot') ->
  (forall i, In i es -> ~ span_or i u v) -> edge_attr g' u v = edge_attr g u v.
Proof.
  induction es as [|i es IH]; intros g ot g' ot' u v H Hn.
  - injection H as <- <-. reflexivity.
  - cbn [foldM] in H. destruct (build_step (g, ot) i) as [[g1 ot1]|] eqn:Es; [|discriminate].
    destruct (build_step_spec _ _ _ _ _ Es) as (_ & _ & _ & _ & A & _).
    rewrite (IH _ _ _ _ u v H) by (intros j Hj; apply Hn; right; exact Hj). apply A, Hn. left; reflexivity.
Qed.

Lemma build_graph_attr es g u v i n : build_graph es = Ok g -> last_span es u v i ->
  e_name i = Some (Some n) ->
  edge_attr g u v = Some (mkEattr (e_cls i) (Some n) (length_or_zero i)).
Proof.
  unfold build_graph. destruct (foldM build_step es (empty_graph, None)) as [[g' ot']|] eqn:E; [|discriminate].
  cbn [bind fst]. intros H (pre & post & -> & Hs & Hl) Hname. injection H as <-.
  rewrite foldM_app in E. destruct (foldM build_step pre (empty_graph, None)) as [[g1 ot1]|]; [|discriminate].
  cbn [bind foldM] in E. destruct (build_step (g1, ot1) i) as [[g2 ot2]|] eqn:Es; [|discriminate].
  rewrite (build_loop_attr post _ _ _ _ u v E) by (intros j Hj [Q|Q]; destruct (Hl j Hj); auto).
  destruct (build_step_spec _ _ _ _ _ Es) as (_ & _ & _ & Ot & _ & A).
  destruct (A u v Hs) as (c & m & Q1 & Q2 & Q3). rewrite Q3. rewrite Hname in *. congruence.
Qed.

Lemma last_span_dec es u v : (exists i, last_span es u v i) \/ (forall i, In i es -> ~ span_or i u v).
Proof.
  assert (Dec : forall i a b, {spans i a b} + {~ spans i a b}).
  { intros i a b. unfold spans. destruct (e_from i) as [f|]; [|right; intros [Q _]; discriminate].
    destruct (e_to i) as [t|]; [|right; intros [_ Q]; discriminate].
    destruct (str_dec f a) as [->|N]; [|right; intros [Q _]; congruence].
    destruct (str_dec t b) as [->|N]; [left; auto|right; intros [_ Q]; congruence]. }
  induction es as [|i es IH]; [right; intros i []|]. destruct IH as [(j & pre & post & -> & H1 & H2)|IH].
  - left. exists j, (i :: pre), post. auto.
  - destruct (Dec i u v) as [Q|Q]; [|destruct (Dec i v u) as [Q2|Q2]].
    + left. exists i, [], es. split; [reflexivity|]. split; [auto|]. intros k Hk. specialize (IH k Hk). unfold span_or in IH. tauto.
    + left. exists i, [], es. split; [reflexivity|]. split; [auto|]. intros k Hk. specialize (IH k Hk). unfold span_or in IH. tauto.
    + right. intros k [<-|Hk]; [unfold span_or; tauto|auto].
Qed.

Lemma build_graph_no_attr es g u v : build_graph es = Ok g ->
  (forall i, In i es -> ~ spans i u v /\ ~ spans i v u) -> edge_attr g u v = None.
Proof.
  unfold build_graph. destruct (foldM build_step es (empty_graph, None)) as [[g' ot']|] eqn:E; [|discriminate].
  cbn [bind fst]. intros H Hn. injection H as <-.
  rewrite (build_loop_attr es _ _ _ _ u v E); [reflexivity|]. intros i Hi [Q|Q]; destruct (Hn i Hi); auto.
Qed.

(** Building succeeds on named objects. *)
Lemma build_graph_ok es : all_named es -> exists g, build_graph es = Ok g.
Proof.
  intros Hn. unfold build_graph.
  assert (P : forall g ot, exists r, foldM build_step es (g, ot) = Ok r).
  { induction es as [|i es IH]; intros g ot; [eexists; reflexivity|]. cbn [foldM].
    assert (S : exists r, build_step (g, ot) i = Ok r).
    { unfold build_step. assert (Q := Hn i (or_introl eq_refl)).
      destruct (e_from i) as [f|] eqn:Ef; destruct (e_to i) as [t|] eqn:Et.
      - destruct Q as [n En]; [left; exists f, t; split; assumption|]. rewrite En. cbn [bind].
        destruct (e_conn i); cbn [bind]; eauto.
      - cbn [bind]. destruct (e_conn i); [|cbn [bind]; eauto].
        destruct Q as [n En]; [right; discriminate|]. rewrite En. cbn [bind]; eauto.
      - cbn [bind]. destruct (e_conn i); [|cbn [bind]; eauto].
        destruct Q as [n En]; [right; discriminate|]. rewrite En. cbn [bind]; eauto.
      - cbn [bind]. destruct (e_conn i); [|cbn [bind]; eauto].
        destruct Q as [n En]; [right; discriminate|]. rewrite En. cbn [bind]; eauto. }
    destruct S as [[g1 ot1] S]. rewrite S. apply IH. intros j Hj. apply Hn. right; exact Hj. }
  destruct (P empty_graph None) as [[g ot] E]. rewrite E. cbn [bind]. eauto.
Qed.
