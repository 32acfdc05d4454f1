(** Downstream search: depth-first search on the directed network. *)
From Verif Require Import Base BaseFacts StoreModel NetworkModel NetworkSpec NetworkProofs NetworkBfs
  NetworkQueries.
Local Open Scope string_scope.
Local Open Scope nat_scope.
Local Open Scope list_scope.

Lemma successors_spec d u v : In v (successors d u) <-> arc d u v.
Proof.
  unfold successors, arc. rewrite in_map_iff. split.
  - intros ([[x y] a] & <- & H). apply filter_In in H as [H1 H2]. cbn [fst snd] in *.
    apply String.eqb_eq in H2 as ->. eauto.
  - intros (a & H). exists (u, v, a). split; [reflexivity|]. apply filter_In. split; [exact H|].
    cbn [fst snd]. apply String.eqb_refl.
Qed.

Section Dfs.
Variable d : digraph.

(** How many nodes are still unvisited. *)
Definition unvisited (vis : list string) : nat :=
  length (filter (fun x => negb (smem x vis)) (d_nodes d)).

Lemma unvisited_mono vis vis' : incl vis vis' -> unvisited vis' <= unvisited vis.
Proof.
  intros H. unfold unvisited. induction (d_nodes d) as [|x t IH]; [reflexivity|]. cbn [filter].
  destruct (smem x vis) eqn:E; cbn [negb].
  - apply smem_In, H, smem_In in E. rewrite E. cbn [negb]. exact IH.
  - destruct (smem x vis'); cbn [negb length]; lia.
Qed.

Lemma unvisited_add vis c : In c (d_nodes d) -> ~ In c vis -> unvisited (c :: vis) < unvisited vis.
Proof.
  intros Hc Hn. unfold unvisited. induction (d_nodes d) as [|x t IH]; [destruct Hc|]. cbn [filter].
  assert (M : length (filter (fun x => negb (smem x (c :: vis))) t) <= length (filter (fun x => negb (smem x vis)) t)).
  { clear. induction t as [|y t IH]; [reflexivity|]. cbn [filter].
    assert (Q : smem y vis = true -> smem y (c :: vis) = true) by (rewrite !smem_In; simpl; auto).
    destruct (smem y vis), (smem y (c :: vis)); cbn [negb length]; try lia; discriminate (Q eq_refl). }
  destruct (str_dec x c) as [->|N].
  - assert (E1 : smem c vis = false) by (apply not_true_is_false; rewrite smem_In; exact Hn).
    assert (E2 : smem c (c :: vis) = true) by (apply smem_In; left; reflexivity).
    rewrite E1, E2. cbn [negb length]. lia.
  - destruct Hc as [Hc|Hc]; [congruence|]. specialize (IH Hc).
    assert (Q : smem x vis = smem x (c :: vis)).
    { destruct (smem x vis) eqn:E1, (smem x (c :: vis)) eqn:E2; try reflexivity.
      - apply smem_In in E1. apply not_true_iff_false in E2. exfalso. apply E2, smem_In. right; exact E1.
      - apply smem_In in E2. apply not_true_iff_false in E1. exfalso. apply E1, smem_In.
        destruct E2 as [E2|E2]; [congruence|exact E2]. }
    rewrite <- Q. destruct (smem x vis); cbn [negb length]; lia.
Qed.

Lemma unvisited_bound vis : unvisited vis <= length (d_nodes d).
Proof.
  unfold unvisited. induction (d_nodes d) as [|x t IH]; [reflexivity|]. cbn [filter].
  destruct (negb (smem x vis)); cbn [length]; lia.
Qed.

Hypothesis nodes_ok : forall u v, arc d u v -> In v (d_nodes d).

(** Effect of one call on node [u]: the emitted edges [N]. *)
Definition grown (u : string) (cs : list string) (st st' : dfs_state) : Prop :=
  exists N, snd st' = snd st ++ N /\
    (forall x, In x (fst st') <-> In x (fst st) \/ In x (map snd N)) /\
    (forall a b, In (a, b) N -> arc d a b /\ reach (arc d) u a /\ ~ In b (fst st)) /\
    (forall x y, In x (map snd N) -> arc d x y -> In y (fst st')) /\
    (forall y, In y cs -> In y (fst st')).

Definition visit (fuel : nat) (u : string) (st : dfs_state) (c : string) : res dfs_state :=
  if smem c (fst st) then Ok st else dfs d fuel c (c :: fst st, snd st ++ [(u, c)]).

Lemma dfs_S fuel u st : dfs d (S fuel) u st = foldM (visit fuel u) (successors d u) st.
Proof. reflexivity. Qed.

Lemma dfs_spec : forall fuel u st, unvisited (fst st) < fuel ->
  exists st', dfs d fuel u st = Ok st' /\ grown u (successors d u) st st'.
Proof.
  induction fuel as [|fuel IH]; intros u st L; [lia|]. rewrite dfs_S.
  assert (P : forall cs st, (forall c, In c cs -> arc d u c) -> unvisited (fst st) <= fuel ->
     exists st', foldM (visit fuel u) cs st = Ok st' /\ grown u cs st st').
  { clear st L. induction cs as [|c cs IHc]; intros st Hc L.
    - exists st. split; [reflexivity|]. exists []. rewrite app_nil_r. split; [reflexivity|].
      split; [intros x; simpl; tauto|]. split; [intros a b []|]. split; [intros x y []|intros y []].
    - cbn [foldM]. unfold visit at 1. destruct (smem c (fst st)) eqn:E.
      + destruct (IHc st) as (st' & E' & N & G1 & G2 & G3 & G4 & G5); [intros x Hx; apply Hc; right; exact Hx|exact L|].
        exists st'. split; [exact E'|]. exists N. repeat (split; [assumption|]).
        intros y [<-|Hy]; [|auto]. apply G2. left. apply smem_In, E.
      + assert (Ha : arc d u c) by (apply Hc; left; reflexivity).
        assert (Hn : ~ In c (fst st)) by (intros Q; apply smem_In in Q; congruence).
        assert (Lt := unvisited_add _ _ (nodes_ok _ _ Ha) Hn).
        destruct (IH c (c :: fst st, snd st ++ [(u, c)])) as (st1 & E1 & N & G1 & G2 & G3 & G4 & G5).
        { cbn [fst]. lia. }
        cbn [fst snd] in *. rewrite E1.
        destruct (IHc st1) as (st2 & E2 & N2 & K1 & K2 & K3 & K4 & K5).
        { intros x Hx; apply Hc; right; exact Hx. }
        { assert (M : incl (c :: fst st) (fst st1)) by (intros x Hx; apply G2; left; exact Hx).
          apply unvisited_mono in M. lia. }
        exists st2. split; [exact E2|]. exists ((u, c) :: N ++ N2). cbn [map snd]. rewrite map_app.
        split; [rewrite K1, G1, <- !app_assoc; reflexivity|]. split; [|split; [|split]].
        * intros x. rewrite K2, G2. cbn [In]. rewrite in_app_iff. tauto.
        * intros a b [Q|Q].
          -- injection Q as <- <-. split; [exact Ha|]. split; [apply reach_refl|exact Hn].
          -- apply in_app_iff in Q as [Q|Q].
             ++ destruct (G3 a b Q) as (Q1 & Q2 & Q3). split; [exact Q1|]. split.
                ** eapply reach_trans; [|exact Q2]. eapply reach_step; [apply reach_refl|exact Ha].
                ** intros Z. apply Q3. right; exact Z.
             ++ destruct (K3 a b Q) as (Q1 & Q2 & Q3). split; [exact Q1|]. split; [exact Q2|].
                intros Z. apply Q3, G2. left. right; exact Z.
        * intros x y Hx Hxy. cbn [In] in Hx. rewrite in_app_iff in Hx. destruct Hx as [<-|[Hx|Hx]].
          -- apply K2. left. apply G5, successors_spec, Hxy.
          -- apply K2. left. exact (G4 x y Hx Hxy).
          -- exact (K4 x y Hx Hxy).
        * intros y [<-|Hy]; [|auto]. apply K2. left. apply G2. left. left; reflexivity. }
  apply P; [intros c; apply successors_spec|lia].
Qed.

(** On a digraph with unique predecessors and no arc back to the start, the emitted edges are
    exactly the arcs below the start. *)
Lemma dfs_edges_spec s : In s (d_nodes d) ->
  (forall u u' v, arc d u v -> arc d u' v -> u = u') ->
  (forall u, reach (arc d) s u -> ~ arc d u s) ->
  exists t, dfs_edges d s = Ok t /\ forall u v, In (u, v) t <-> reach (arc d) s u /\ arc d u v.
Proof.
  intros Hs U Nb. unfold dfs_edges. rewrite (proj2 (smem_In _ _) Hs).
  destruct (dfs_spec (S (length (d_nodes d))) s ([s], [])) as (st' & E & N & G1 & G2 & G3 & G4 & G5).
  { cbn [fst]. assert (Q := unvisited_bound [s]). lia. }
  rewrite E. cbn [bind fst snd app] in *. exists (snd st'). split; [reflexivity|]. intros u v. rewrite G1. split.
  - intros H. destruct (G3 u v H) as (Q1 & Q2 & _). auto.
  - intros [R Huv].
    assert (C : forall x, reach (arc d) s x -> In x (fst st')).
    { intros x [n W]. revert x W. induction n as [|n IH]; intros x W; inversion W as [|a y c k W' Hr]; subst.
      - apply G2; left; left; reflexivity.
      - assert (Hy := IH y W'). apply G2 in Hy as [[<-|[]]|Hy].
        + apply G5, successors_spec, Hr.
        + exact (G4 y x Hy Hr). }
    assert (Hv : In v (fst st')) by (apply C; eapply reach_step; eassumption).
    apply G2 in Hv as [[<-|[]]|Hv]; [destruct (Nb u R Huv)|].
    apply in_map_iff in Hv as ([a b] & Q & Hab). cbn [snd] in Q. subst b.
    destruct (G3 a v Hab) as (Q1 & _ & _). rewrite (U _ _ _ Huv Q1). exact Hab.
Qed.
End Dfs.

Lemma built_acyclic es s n u v : built es s n -> arc (net_di n) u v -> reach (arc (net_di n)) v u -> False.
Proof.
  intros B Huv [m W]. destruct (b_arc _ _ _ B _ _ Huv) as (_ & k & Du & Dv).
  assert (P : forall m x y i j, walk (arc (net_di n)) x y m -> dist (linked es) s x i -> dist (linked es) s y j -> j = i + m).
  { clear - B. intros m x y i j Hw Dx. revert j. induction Hw as [x|x y z m Hw IH Hr]; intros j Dy.
    - rewrite Nat.add_0_r. eapply dist_fun; eassumption.
    - destruct (b_arc _ _ _ B _ _ Hr) as (_ & k & D1 & D2). rewrite (dist_fun _ _ _ _ _ Dy D2).
      rewrite (IH Dx k D1). lia. }
  assert (Q := P _ _ _ _ _ W Dv Du). lia.
Qed.

Lemma built_dfs es s n src : built es s n -> In src (d_nodes (net_di n)) ->
  exists t, dfs_edges (net_di n) src = Ok t /\
            forall u v, In (u, v) t <-> reach (arc (net_di n)) src u /\ arc (net_di n) u v.
Proof.
  intros B Hs. apply dfs_edges_spec; auto.
  - intros u v H. apply (b_nodes _ _ _ B). exists u. right. exact H.
  - exact (b_one _ _ _ B).
  - intros u R H. exact (built_acyclic _ _ _ _ _ B H R).
Qed.

Lemma okey_eqb_spec a b : okey_eqb a b = true <-> a = b.
Proof.
  destruct a, b; cbn [okey_eqb]; try (split; discriminate); [|tauto].
  rewrite String.eqb_eq. split; congruence.
Qed.

Lemma dedup_keys_In l x : In x (dedup_keys l) <-> In x l.
Proof.
  induction l as [|y t IH]; [reflexivity|]. cbn [dedup_keys]. destruct (existsb (okey_eqb y) t) eqn:E.
  - rewrite IH. apply existsb_exists in E as (z & Hz & Q). apply okey_eqb_spec in Q as <-.
    split; [right; auto|]. intros [<-|Q]; auto.
  - cbn [In]. rewrite IH. reflexivity.
Qed.

Lemma dedup_keys_NoDup l : NoDup (dedup_keys l).
Proof.
  induction l as [|y t IH]; [constructor|]. cbn [dedup_keys]. destruct (existsb (okey_eqb y) t) eqn:E; [exact IH|].
  constructor; [|exact IH]. rewrite dedup_keys_In. intros Q. apply not_true_iff_false in E. apply E.
  apply existsb_exists. exists y. split; [exact Q|]. apply okey_eqb_spec. reflexivity.
Qed.

(** The equipment on a pair of names. *)
Lemma edge_attr_object es n s u v a : built es s n -> all_named es ->
  edge_attr (net_graph n) u v = Some a ->
  exists i m, last_span es u v i /\ e_name i = Some (Some m) /\ a = mkEattr (e_cls i) (Some m) (length_or_zero i).
Proof.
  intros B Hn Ha. destruct (last_span_dec es u v) as [[i Hi]|No].
  - assert (Hm : exists m, e_name i = Some (Some m)).
    { apply Hn; [|left; destruct Hi as (p & q & _ & [Q|Q] & _); [exists u, v|exists v, u]; exact Q].
      destruct Hi as (p & q & -> & _). apply in_app_iff. right; left; reflexivity. }
    destruct Hm as [m Hm]. exists i, m. split; [exact Hi|]. split; [exact Hm|].
    assert (Q := build_graph_attr _ _ _ _ _ _ (b_graph _ _ _ B) Hi Hm). congruence.
  - assert (Q := build_graph_no_attr _ _ u v (b_graph _ _ _ B)).
    rewrite Q in Ha; [discriminate|]. intros i Hi. specialize (No i Hi). unfold span_or in No. tauto.
Qed.

Lemma object_edge_attr es n s u v i m : built es s n -> last_span es u v i -> e_name i = Some (Some m) ->
  edge_attr (net_graph n) u v = Some (mkEattr (e_cls i) (Some m) (length_or_zero i)).
Proof. intros B. apply build_graph_attr, (b_graph _ _ _ B). Qed.

Lemma downstream_names_spec es s n src : built es s n -> all_named es ->
  (In src (d_nodes (net_di n)) ->
     exists names, downstream_names n src = Ok names /\ NoDup names /\
       forall k, In k names <-> exists x, k = Some x /\ downstream_name es (net_di n) src x) /\
  (~ In src (d_nodes (net_di n)) -> downstream_names n src = Err EValue).
Proof.
  intros B Hn. split; intros Hs.
  - destruct (built_dfs _ _ _ _ B Hs) as (t & Et & Ht). unfold downstream_names. rewrite Et.
    eexists. split; [reflexivity|]. split; [apply dedup_keys_NoDup|]. intros k.
    rewrite dedup_keys_In, in_flat_map. split.
    + intros ([u v] & Huv & Q). apply Ht in Huv as [R A]. cbn [fst snd] in Q.
      destruct Q as [<-|[<-|Q]].
      * exists u. split; [reflexivity|]. exists u, v. auto.
      * exists v. split; [reflexivity|]. exists u, v. auto.
      * destruct (edge_attr (net_graph n) u v) as [a|] eqn:Ea; [|destruct Q].
        destruct Q as [<-|[]]. destruct (edge_attr_object _ _ _ _ _ _ B Hn Ea) as (i & m & Hi & Hm & ->).
        exists m. split; [reflexivity|]. exists u, v. eauto 8.
    + intros (x & -> & u & v & R & A & Q). exists (u, v). split; [apply Ht; auto|]. cbn [fst snd].
      destruct Q as [->|[->|(i & Hi & Hm)]]; [left; reflexivity|right; left; reflexivity|].
      right; right. rewrite (object_edge_attr _ _ _ _ _ _ _ B Hi Hm). left; reflexivity.
  - unfold downstream_names, dfs_edges. destruct (smem src (d_nodes (net_di n))) eqn:E; [|reflexivity].
    destruct Hs. apply smem_In, E.
Qed.

(** Lookup by name. *)
Lemma lookup_from_none es : forall k x, lookup_from k es (Some x) = None <->
  forall r j, nth_error es r = Some j -> e_name j <> Some (Some x).
Proof.
  induction es as [|e t IH]; intros k x; cbn [lookup_from].
  - split; [|reflexivity]. intros _ r j Hr. destruct r; discriminate.
  - destruct (lookup_from (S k) t (Some x)) as [p|] eqn:E.
    + split; [discriminate|]. intros H. exfalso.
      assert (Q : lookup_from (S k) t (Some x) = None); [|congruence].
      apply IH. intros r j Hr. exact (H (S r) j Hr).
    + split.
      * intros H [|r] j Hr Hj; cbn [nth_error] in Hr.
        -- injection Hr as ->. rewrite Hj in H. cbn [okey_eqb] in H. rewrite String.eqb_refl in H. discriminate.
        -- exact (proj1 (IH (S k) x) E r j Hr Hj).
      * intros H. assert (H0 := H 0 e eq_refl). destruct (e_name e) as [[m|]|]; cbn [okey_eqb]; try reflexivity.
        destruct (String.eqb_spec m x) as [->|]; [congruence|reflexivity].
Qed.

Lemma lookup_from_spec es : forall k x p, lookup_from k es (Some x) = Some p <->
  exists q, p = k + q /\ bears es x q.
Proof.
  induction es as [|e t IH]; intros k x p; cbn [lookup_from].
  - split; [discriminate|]. intros (q & _ & (i & Q & _) & _). destruct q; discriminate.
  - destruct (lookup_from (S k) t (Some x)) as [p'|] eqn:E.
    + apply IH in E as (q & -> & (i & Hq & Hi) & M). split.
      * intros Q. injection Q as <-. exists (S q). split; [lia|]. split; [exists i; auto|].
        intros [|r] j Hr Hj; [lia|]. specialize (M r j Hr Hj). lia.
      * intros (q' & -> & (i' & Hq' & Hi') & M'). f_equal.
        assert (q' = S q); [|lia]. assert (S q <= q') by (apply (M' (S q) i); auto).
        destruct q' as [|q']; [lia|]. specialize (M q' i' Hq' Hi'). lia.
    + assert (No := proj1 (lookup_from_none t (S k) x) E). split.
      * intros H. assert (Q : e_name e = Some (Some x) /\ p = k).
        { destruct (e_name e) as [[m|]|]; cbn [okey_eqb] in H; try discriminate.
          destruct (String.eqb_spec m x) as [Em|]; [subst m|discriminate]. injection H as <-. auto. }
        destruct Q as [Q ->]. exists 0. split; [lia|]. split; [exists e; auto|].
        intros [|r] j Hr Hj; [lia|]. destruct (No r j Hr Hj).
      * intros (q & -> & (i & Hq & Hi) & M). destruct q as [|q]; cbn [nth_error] in Hq; [|destruct (No q i Hq Hi)].
        injection Hq as ->. rewrite Hi. cbn [okey_eqb]. rewrite String.eqb_refl, Nat.add_0_r. reflexivity.
Qed.

Lemma lookup_spec es x p : lookup es (Some x) = Some p <-> bears es x p.
Proof.
  unfold lookup. rewrite lookup_from_spec. split; [intros (q & -> & H); exact H|intros H; exists p; auto].
Qed.

Lemma mapM_ok {A B} (f : A -> res B) l r : mapM f l = Ok r -> Forall2 (fun a b => f a = Ok b) l r.
Proof.
  revert r. induction l as [|a t IH]; intros r; cbn [mapM].
  - intros H. injection H as <-. constructor.
  - destruct (f a) as [b|] eqn:E; [|discriminate]. cbn [bind].
    destruct (mapM f t) as [bs|] eqn:Et; [|discriminate]. cbn [bind]. intros H. injection H as <-.
    constructor; [exact E|]. apply IH. reflexivity.
Qed.

Lemma mapM_err {A B} (f : A -> res B) l e : mapM f l = Err e -> exists a, In a l /\ f a = Err e.
Proof.
  induction l as [|a t IH]; cbn [mapM]; [discriminate|].
  destruct (f a) as [b|e'] eqn:E; cbn [bind].
  - destruct (mapM f t) as [bs|e''] eqn:Et; cbn [bind]; [discriminate|]. intros H. injection H as ->.
    destruct (IH eq_refl) as (x & Hx & Q). exists x. split; [right; exact Hx|exact Q].
  - intros H. injection H as ->. exists a. split; [left; reflexivity|exact E].
Qed.

(** get_all_elements_downstream: the objects whose name occurs below the node; ValueError if a
    name belongs to no object or the node is not in the directed network. *)
Theorem downstream_result es s n src : build es s = Ok n -> all_named es ->
  (forall l, get_all_elements_downstream es n src = Ok l ->
     In src (d_nodes (net_di n)) /\ NoDup l /\
     (forall p, In p l <-> exists x, downstream_name es (net_di n) src x /\ bears es x p) /\
     (forall x, downstream_name es (net_di n) src x -> exists p, bears es x p)) /\
  (forall e, get_all_elements_downstream es n src = Err e ->
     e = EValue /\
     (~ In src (d_nodes (net_di n)) \/
      exists x, downstream_name es (net_di n) src x /\ forall p, ~ bears es x p)).
Proof.
  intros H Hn. assert (B := build_built _ _ _ H). destruct (downstream_names_spec es s n src B Hn) as [P1 P2].
  unfold get_all_elements_downstream.
  destruct (in_dec str_dec src (d_nodes (net_di n))) as [I|I].
  2:{ rewrite (P2 I). cbn [bind]. split; [discriminate|]. intros e Q. injection Q as <-. auto. }
  destruct (P1 I) as (names & En & Nd & Hk). rewrite En. cbn [bind]. split.
  - intros l Hl. apply mapM_ok in Hl. split; [exact I|].
    assert (F : forall k p, of_opt EValue (lookup es k) = Ok p -> In k names -> exists x, k = Some x /\ bears es x p).
    { intros k p Hp Hin. apply Hk in Hin as (x & -> & _). exists x. split; [reflexivity|].
      apply lookup_spec. destruct (lookup es (Some x)); cbn [of_opt] in Hp; [injection Hp as <-; reflexivity|discriminate]. }
    split; [|split].
    + clear P1 P2 En Hk. induction Hl as [|k p ks ps Hp Hl IH]; [constructor|]. inversion Nd; subst.
      constructor; [|apply IH; [assumption|intros; apply F; auto; right; assumption]].
      intros Q. destruct (F k p Hp (or_introl eq_refl)) as (x & -> & Hx).
      assert (E2 : exists k', In k' ks /\ of_opt EValue (lookup es k') = Ok p).
      { clear - Hl Q. induction Hl as [|k' p' ks ps Hp' Hl IH]; [destruct Q|].
        destruct Q as [->|Q]; [exists k'; split; [left; reflexivity|exact Hp']|].
        destruct (IH Q) as (k2 & Hk2 & E2). exists k2. split; [right; exact Hk2|exact E2]. }
      destruct E2 as (k' & Hin & E2). destruct (F k' p E2 (or_intror Hin)) as (y & -> & Hy).
      destruct Hx as [(i & Q1 & Q2) _], Hy as [(j & Q3 & Q4) _]. congruence.
    + intros p. split.
      * intros Hp. assert (E2 : exists k', In k' names /\ of_opt EValue (lookup es k') = Ok p).
        { clear - Hl Hp. induction Hl as [|k' p' ks ps Hp' Hl IH]; [destruct Hp|].
          destruct Hp as [->|Q]; [exists k'; split; [left; reflexivity|exact Hp']|].
          destruct (IH Q) as (k2 & Hk2 & E2). exists k2. split; [right; exact Hk2|exact E2]. }
        destruct E2 as (k' & Hin & E2). destruct (F k' p E2 Hin) as (x & -> & Hx).
        apply Hk in Hin as (y & Q & D). injection Q as <-. eauto.
      * intros (x & D & Hx). assert (Hin : In (Some x) names) by (apply Hk; eauto).
        apply lookup_spec in Hx. clear - Hl Hin Hx. induction Hl as [|k p' ks ps Hp Hl IH]; [destruct Hin|].
        destruct Hin as [->|Hin]; [|right; auto]. rewrite Hx in Hp. cbn [of_opt] in Hp. injection Hp as ->. left; reflexivity.
    + intros x D. assert (Hin : In (Some x) names) by (apply Hk; eauto).
      assert (E2 : exists p, of_opt EValue (lookup es (Some x)) = Ok p).
      { clear - Hl Hin. induction Hl as [|k p' ks ps Hp Hl IH]; [destruct Hin|].
        destruct Hin as [->|Hin]; [eauto|auto]. }
      destruct E2 as [p Hp]. destruct (F _ _ Hp Hin) as (y & Q & Hy). injection Q as <-. eauto.
  - intros e He. apply mapM_err in He as (k & Hin & He). apply Hk in Hin as (x & -> & D).
    destruct (lookup es (Some x)) as [p|] eqn:E; cbn [of_opt] in He; [discriminate|]. injection He as <-.
    split; [reflexivity|]. right. exists x. split; [exact D|]. intros p Hp. apply lookup_spec in Hp. congruence.
Qed.
