(** Lemmas about the voltages of groups of nodes. *)
From Verif Require Import Base BaseFacts StoreModel NetworkModel NetworkSpec NetworkProofs NetworkBfs NetworkQueries NetworkDown NetworkTop VoltModel VoltSpec VoltProofs SplitModel SplitSpec SplitProofs LevelModel LevelSpec.
From Coq Require Import QArith Permutation.
Local Open Scope string_scope.
Local Open Scope nat_scope.
Local Open Scope list_scope.

(** ** Lists *)
Lemma NoDup_app_iff {A} (l m : list A) : NoDup (l ++ m) <-> NoDup l /\ NoDup m /\ forall x, In x l -> ~ In x m.
Proof.
  induction l as [|a l IH]; cbn [app]; [split; [intros H; split; [constructor|split; [exact H|intros x []]]|tauto]|]. rewrite !NoDup_cons_iff, IH, in_app_iff. cbn [In]. split.
  - intros (H1 & H2 & H3 & H4). repeat split; auto. intros x [<-|Hx]; auto.
  - intros ((H1 & H2) & H3 & H4). repeat split; auto. intros [H|H]; [auto|]. exact (H4 a (or_introl eq_refl) H).
Qed.
Lemma nth_uset us i t j : nth_error (uset us i t) j =
  if Nat.eqb i j then match nth_error us i with Some _ => Some t | None => None end else nth_error us j.
Proof. revert i j. induction us as [|x us IH]; intros [|i] [|j]; cbn; try reflexivity; [destruct (Nat.eqb i j); reflexivity|apply IH]. Qed.
Lemma uset_length us i t : length (uset us i t) = length us.
Proof. revert i. induction us as [|x us IH]; intros [|i]; cbn; auto. Qed.

Lemma last_span_sym es u v i : last_span es u v i -> last_span es v u i.
Proof. intros (p & q & E & S & L). exists p, q. split; [exact E|]. split; [tauto|]. intros j Hj. specialize (L j Hj). tauto. Qed.

(** ** Components *)
Lemma components_spec g : wf_graph g -> forall todo seen, incl todo (g_nodes g) ->
  (forall x y, In x seen -> reach (adj g) x y -> In y seen) ->
  exists cs, components g todo seen = Ok cs /\
    (forall x, In x todo -> In x seen \/ exists c, In c cs /\ In x c) /\
    (forall c, In c cs -> c <> [] /\ (forall x y, In x c -> (In y c <-> reach (adj g) x y)) /\ forall x, In x c -> In x (g_nodes g) /\ ~ In x seen) /\
    NoDup (concat cs).
Proof.
  intros W. induction todo as [|x todo IH]; intros seen Inc Cl; cbn [components].
  - exists []. split; [reflexivity|]. split; [intros x []|]. split; [intros c []|constructor].
  - assert (It : incl todo (g_nodes g)) by (intros y Hy; apply Inc; right; exact Hy).
    assert (Hx : In x (g_nodes g)) by (apply Inc; left; reflexivity).
    destruct (smem x seen) eqn:S.
    + apply smem_In in S. destruct (IH seen It Cl) as (cs & E & H1 & H2). exists cs. split; [exact E|]. split; [|exact H2]. intros y [<-|Hy]; auto.
    + destruct (component_spec g x W Hx) as (c & Ec & Nc & Hc). rewrite Ec. cbn [bind].
      assert (Nx : ~ In x seen) by (intros Q; apply smem_In in Q; congruence).
      assert (Cx : forall y, In y c -> ~ In y seen).
      { intros y Hy Q. apply Nx. apply (Cl y); [exact Q|]. apply reach_sym, Hc, Hy. }
      assert (Cc : forall a b, In a c -> (In b c <-> reach (adj g) a b)).
      { intros a b Ha. apply Hc in Ha. rewrite Hc. split; intros H; [eapply reach_trans; [apply reach_sym; exact Ha|exact H]|eapply reach_trans; eauto]. }
      destruct (IH (c ++ seen) It) as (cs & E & H1 & H2 & H3).
      { intros a b Ha R. apply in_app_iff in Ha. apply in_app_iff. destruct Ha as [Ha|Ha]; [left; apply (Cc a b Ha), R|right; eauto]. }
      rewrite E. cbn [bind]. exists (c :: cs). split; [reflexivity|]. split; [|split].
      * intros y [<-|Hy].
        { right. exists c. split; [left; reflexivity|]. apply Hc, reach_refl. }
        destruct (H1 y Hy) as [Q|(c' & I1 & I2)]; [|right; exists c'; cbn; auto]. apply in_app_iff in Q. destruct Q as [Q|Q]; [right; exists c; cbn; auto|left; exact Q].
      * intros c' [<-|Hc'].
        { split; [intros ->; apply (in_nil (a := x)); apply Hc, reach_refl|]. split; [exact Cc|]. intros y Hy. split; [|auto]. apply (reach_nodes g x); [exact W|exact Hx|apply Hc, Hy]. }
        { destruct (H2 c' Hc') as (K1 & K2 & K3). split; [exact K1|]. split; [exact K2|]. intros y Hy. destruct (K3 y Hy) as [K4 K5]. split; [exact K4|]. intros Q. apply K5. apply in_app_iff. auto. }
      * cbn [concat]. apply NoDup_app_iff. split; [exact Nc|]. split; [exact H3|]. intros y Hy Q. apply in_concat in Q. destruct Q as (c' & I1 & I2).
        destruct (H2 c' I1) as (_ & _ & K3). destruct (K3 y I2) as [_ K5]. apply K5. apply in_app_iff. auto.
Qed.

Lemma find_attr_uniq l u v e : uniq_edges l -> In e l -> same_pair u v e = true -> find_attr l u v = snd e.
Proof.
  induction l as [|[[x y] a] l IH]; intros U H S; [destruct H|]. cbn [uniq_edges] in U. destruct U as [U1 U2]. cbn [find_attr].
  destruct H as [<-|H]; [rewrite S; reflexivity|]. destruct (same_pair u v (x, y, a)) eqn:S'; [|auto]. exfalso.
  apply not_true_iff_false in U1. apply U1. apply existsb_exists. exists e. split; [exact H|]. destruct e as [[p q] b].
  apply NetworkProofs.same_pair_spec in S, S'. apply NetworkProofs.same_pair_spec. intuition (subst; auto).
Qed.
Lemma without_wf g : wf_graph g -> wf_graph (without_trafos g).
Proof.
  intros (N & E & U). split; [exact N|]. split; [|apply uniq_filter, U]. intros x y a H. cbn in H. apply filter_In in H. apply (E x y a), H.
Qed.
Lemma without_adj g u v : wf_graph g -> (adj (without_trafos g) u v <-> adj g u v /\ forall a, edge_attr g u v = Some a -> ea_cls a <> "PowerTransformer").
Proof.
  intros (_ & _ & U). unfold adj, has_edge, edge_attr. cbn [without_trafos g_edges]. rewrite !existsb_exists. split.
  - intros (e & H & S). apply filter_In in H. destruct H as [H T]. split; [eauto|]. rewrite (find_attr_uniq _ _ _ _ U H S). unfold is_trafo in T.
    intros a Ea C. rewrite Ea, C in T. discriminate.
  - intros ((e & H & S) & T). exists e. split; [|exact S]. apply filter_In. split; [exact H|]. rewrite (find_attr_uniq _ _ _ _ U H S) in T. unfold is_trafo.
    destruct (snd e) as [a|]; [|reflexivity]. destruct (String.eqb_spec (ea_cls a) "PowerTransformer"); [|reflexivity]. exfalso. exact (T a eq_refl e0).
Qed.


Lemma concat_uniq {A} (cs : list (list A)) c c' x : NoDup (concat cs) -> In c cs -> In c' cs -> In x c -> In x c' -> c = c'.
Proof.
  induction cs as [|a cs IH]; intros N H H' X X'; [destruct H|]. cbn [concat] in N. apply NoDup_app_iff in N. destruct N as (_ & N & D).
  destruct H as [<-|H], H' as [<-|H']; auto; exfalso.
  - apply (D x X). apply in_concat. eauto.
  - apply (D x X'). apply in_concat. eauto.
Qed.
Lemma rest_NoDup {A B} (cs : list (list A)) (gs : list (list A * B)) : Forall2 (fun c g => exists p, Permutation c (p ++ fst g)) cs gs ->
  NoDup (concat cs) -> NoDup (concat (map fst gs)) /\ incl (concat (map fst gs)) (concat cs).
Proof.
  induction 1 as [|c g cs gs (p & P) F IH]; cbn [concat map]; intros N; [split; [constructor|intros x []]|].
  apply NoDup_app_iff in N. destruct N as (N1 & N2 & D). destruct (IH N2) as [I1 I2]. apply (Permutation_NoDup P), NoDup_app_iff in N1. destruct N1 as (_ & N1 & _).
  assert (Ic : incl (fst g) c) by (intros x Hx; apply (Permutation_in _ (Permutation_sym P)), in_app_iff; auto). split.
  - apply NoDup_app_iff. split; [exact N1|]. split; [exact I1|]. intros x Hx Q. exact (D x (Ic x Hx) (I2 x Q)).
  - intros x Hx. apply in_app_iff in Hx. apply in_app_iff. destruct Hx; auto.
Qed.
Lemma Forall2_left {A B} (R : A -> B -> Prop) l m x : Forall2 R l m -> In x l -> exists y, In y m /\ R x y.
Proof. induction 1 as [|a b l m H F IH]; intros Q; [destruct Q|]. destruct Q as [<-|Q]; [exists b; cbn; auto|]. destruct (IH Q) as (y & Hy & Ry). exists y. cbn. auto. Qed.
Lemma Forall2_right {A B} (R : A -> B -> Prop) l m y : Forall2 R l m -> In y m -> exists x, In x l /\ R x y.
Proof. induction 1 as [|a b l m H F IH]; intros Q; [destruct Q|]. destruct Q as [<-|Q]; [exists a; cbn; auto|]. destruct (IH Q) as (x & Hx & Rx). exists x. cbn. auto. Qed.

Lemma mapM_total {A B} (f : A -> res B) l : (forall x, In x l -> exists y, f x = Ok y) -> exists r, mapM f l = Ok r.
Proof.
  induction l as [|x l IH]; intros H; cbn [mapM]; [eauto|]. destruct (H x (or_introl eq_refl)) as [y Hy]. rewrite Hy. destruct IH as [r Hr]; [intros z Hz; apply H; right; exact Hz|]. rewrite Hr. cbn [bind]. eauto.
Qed.

(** ** Assignments *)
Definition flat (gs : list (list string * (option Q * option string))) := flat_map (fun g => map (fun x => (x, snd g)) (fst g)) gs.
Lemma flat_In gs x r : In (x, r) (flat gs) <-> exists rest, In (rest, r) gs /\ In x rest.
Proof.
  unfold flat. rewrite in_flat_map. split.
  - intros ([rest r'] & H & Hx). apply in_map_iff in Hx. destruct Hx as (y & E & Hy). cbn in *. injection E as <- <-. eauto.
  - intros (rest & H & Hx). exists (rest, r). split; [exact H|]. apply in_map_iff. exists x. cbn. auto.
Qed.
Lemma flat_fst gs : map fst (flat gs) = concat (map fst gs).
Proof. unfold flat. induction gs as [|g gs IH]; [reflexivity|]. cbn [flat_map map concat]. rewrite map_app, IH, map_map. cbn [fst]. rewrite map_id. reflexivity. Qed.

Section Assign.
Variable es : list elem.
Definition step1 (st : lstate) (p : string * (option Q * option string)) : res lstate := assign es (snd p) st (fst p).
Lemma assign_flat gs : forall st, foldM (assign_group es) gs st = foldM step1 (flat gs) st.
Proof.
  induction gs as [|g gs IH]; intros st; [reflexivity|]. unfold flat. cbn [flat_map]. rewrite foldM_app. cbn [foldM].
  assert (E : forall l st, foldM (assign es (snd g)) l st = foldM step1 (map (fun x => (x, snd g)) l) st).
  { induction l as [|x l IHl]; intros st0; [reflexivity|]. cbn [foldM map]. unfold step1 at 1. cbn [fst snd]. destruct (assign es (snd g) st0 x) as [st1|]; [apply IHl|reflexivity]. }
  unfold assign_group at 1. rewrite E. destruct (foldM step1 _ st) as [st1|]; [|reflexivity]. cbn [bind]. apply IH.
Qed.
Lemma assign_spec A : forall st st', NoDup (map fst A) -> foldM step1 A st = Ok st' ->
  (forall x v t, In (x, (v, t)) A -> exists i, bears es x i /\ (forall old, nth_error (fst st) i = Some (Some old) -> nth_error (fst st') i = Some (Some v)) /\
     (is_cls es "Load" i = true -> i < length (snd st) -> nth_error (snd st') i = Some t)) /\
  (forall i, (forall x, In x (map fst A) -> ~ bears es x i) -> nth_error (fst st') i = nth_error (fst st) i /\ nth_error (snd st') i = nth_error (snd st) i) /\
  (forall i, is_cls es "Load" i = false -> nth_error (snd st') i = nth_error (snd st) i) /\
  (forall i, nth_error (fst st) i = Some None <-> nth_error (fst st') i = Some None) /\
  length (fst st') = length (fst st) /\ length (snd st') = length (snd st).
Proof.
  induction A as [|[x [v t]] A IH]; intros st st' N E; cbn [foldM] in E.
  - injection E as <-. split; [intros x v t []|]. repeat split; auto.
  - unfold step1 at 1 in E. unfold assign in E. cbn [fst snd] in E. destruct (lookup es (Some x)) as [i|] eqn:L; cbn [of_opt bind] in E; [|discriminate].
    apply lookup_spec in L. cbn [map fst] in N. apply NoDup_cons_iff in N. destruct N as [Nx N].
    destruct (IH _ _ N E) as (H1 & H2 & H3 & H4 & H5 & H6). cbn [fst snd] in *.
    assert (Li : forall y, In y (map fst A) -> ~ bears es y i) by (intros y Hy Q; rewrite (bears_name _ _ _ _ L Q) in Nx; contradiction).
    split; [|split; [|split; [|split; [|split]]]].
    + intros y v' t' [Q|Q].
      * injection Q as <- <- <-. exists i. split; [exact L|]. destruct (H2 i Li) as [K1 K2]. split.
        { intros old Ho. rewrite K1, nth_vset, Nat.eqb_refl, Ho. reflexivity. }
        { intros Hl Hn. rewrite K2, Hl, nth_uset, Nat.eqb_refl. apply nth_error_Some in Hn. destruct (nth_error (snd st) i); [reflexivity|congruence]. }
      * destruct (H1 y v' t' Q) as (j & Bj & K1 & K2). exists j. split; [exact Bj|].
        assert (D : i <> j). { intros <-. exact (Li y (in_map fst _ _ Q) Bj). }
        split; [intros old Ho; apply (K1 old); rewrite nth_vset; destruct (Nat.eqb_spec i j); [contradiction|exact Ho]|].
        intros Hl Hn. apply K2; [exact Hl|]. destruct (is_cls es "Load" i); [rewrite uset_length|]; exact Hn.
    + intros j Hj. destruct (H2 j (fun y Hy => Hj y (or_intror Hy))) as [K1 K2]. rewrite K1, K2, nth_vset.
      assert (D : i <> j) by (intros <-; exact (Hj x (or_introl eq_refl) L)). split; [destruct (Nat.eqb_spec i j); [contradiction|reflexivity]|].
      destruct (is_cls es "Load" i); [|reflexivity]. rewrite nth_uset. destruct (Nat.eqb_spec i j); [contradiction|reflexivity].
    + intros j Hj. rewrite (H3 j Hj). destruct (is_cls es "Load" i) eqn:Li'; [|reflexivity]. rewrite nth_uset. destruct (Nat.eqb_spec i j); [congruence|reflexivity].
    + intros j. rewrite <- H4, nth_vset. destruct (Nat.eqb_spec i j) as [<-|]; [|reflexivity]. destruct (nth_error (fst st) i) as [[o|]|]; split; congruence.
    + rewrite H5. apply vset_length.
    + rewrite H6. destruct (is_cls es "Load" i); [apply uset_length|reflexivity].
Qed.
Lemma assign_total A : (forall x, In x (map fst A) -> exists i, bears es x i) -> forall st, exists st', foldM step1 A st = Ok st'.
Proof.
  induction A as [|[x r] A IH]; intros H st; cbn [foldM]; [eauto|]. unfold step1 at 1, assign. cbn [fst snd]. destruct (H x (or_introl eq_refl)) as [i Hi].
  apply lookup_spec in Hi. rewrite Hi. cbn [of_opt bind]. apply IH. intros y Hy. apply H. right. exact Hy.
Qed.
End Assign.

(** ** Groups *)
Section Pop.
Variable es : list elem.
Lemma cls_names c x i : bears es x i -> (is_cls es c i = true <-> names_a es c x).
Proof.
  intros Bx. unfold is_cls, names_a. split.
  - destruct (nth_error es i) as [e|] eqn:E; [|discriminate]. intros Q. apply String.eqb_eq in Q. eauto.
  - intros (p & e & Bp & E & C). assert (p = i).
    { apply lookup_spec in Bx, Bp. congruence. }
    subst p. rewrite E. apply String.eqb_eq. exact C.
Qed.
(** The names that are popped. *)
Fixpoint popped (g : list string) : list string :=
  match g with
  | [] => []
  | x :: t => match lookup es (Some x) with Some i => if is_cls es "Node" i then [x] else x :: popped t | None => [x] end
  end.
Lemma volunteer_spec g x rest : volunteer es g = Ok (x, rest) ->
  g = popped g ++ rest /\ In x (popped g) /\ names_a es "Node" x /\ forall y, In y (popped g) -> names_a es "Node" y -> y = x.
Proof.
  induction g as [|z g IH]; cbn [volunteer popped]; [discriminate|]. destruct (lookup es (Some z)) as [i|] eqn:L; cbn [of_opt bind]; [|discriminate].
  apply lookup_spec in L. assert (C := cls_names "Node" z i L). destruct (is_cls es "Node" i) eqn:Ci.
  - intros E. injection E as <- <-. split; [reflexivity|]. split; [left; reflexivity|]. split; [apply C; reflexivity|]. intros y [<-|[]] _. reflexivity.
  - intros E. destruct (IH E) as (H1 & H2 & H3 & H4). split; [cbn [app]; f_equal; exact H1|]. split; [right; exact H2|]. split; [exact H3|].
    intros y [<-|Hy] Ny; [apply C in Ny; discriminate|auto].
Qed.
Lemma volunteer_total g : (forall x, In x g -> exists i, bears es x i) -> (exists x, In x g /\ names_a es "Node" x) -> exists r, volunteer es g = Ok r.
Proof.
  induction g as [|z g IH]; intros Ob (x & Hx & Nx); [destruct Hx|]. cbn [volunteer]. destruct (Ob z (or_introl eq_refl)) as [i Hi]. assert (L := Hi). apply lookup_spec in L. rewrite L. cbn [of_opt bind].
  destruct (is_cls es "Node" i) eqn:C; [eauto|]. apply IH; [intros y Hy; apply Ob; right; exact Hy|]. exists x. split; [|exact Nx]. destruct Hx as [->|Hx]; [|exact Hx].
  apply (cls_names "Node" x i Hi) in Nx. congruence.
Qed.
End Pop.

Section Level.
Variable es : list elem.
Variable windings : nat -> res (list (option Q)).
Variable order : list string -> list string.
Variable s : string.
Variable n : network.
Variable fuel : nat.
Hypothesis Bu : build es s = Ok n.
Hypothesis AN : all_named es.
Hypothesis Fu : length (d_nodes (net_di n)) < fuel.
Hypothesis Or : forall l, Permutation l (order l).
Notation d := (net_di n).
Let B : built es s n := build_built _ _ _ Bu.

Lemma joined_adj u v : adj (without_trafos (net_graph n)) u v <-> joined es u v.
Proof.
  rewrite without_adj by exact (b_wf _ _ _ B). unfold joined. unfold adj at 1. rewrite (b_edge _ _ _ B). split; intros [H1 H2]; (split; [exact H1|]).
  - intros i Hi. destruct (last_span_named _ _ _ _ AN Hi) as [m Hm]. exact (H2 _ (build_graph_attr _ _ _ _ _ _ (b_graph _ _ _ B) Hi Hm)).
  - intros a Ha. destruct (edge_case es s n B AN u v) as [(i & m & Hi & Hm & Ea)|[_ Ea]]; [|congruence]. rewrite Ea in Ha. injection Ha as <-. exact (H2 i Hi).
Qed.
Lemma level_adj u v : reach (adj (without_trafos (net_graph n))) u v <-> same_level es u v.
Proof. split; intros [k H]; exists k; revert H; apply walk_mono; intros a b; apply joined_adj. Qed.
Lemma level_sym u v : same_level es u v -> same_level es v u.
Proof. intros H. apply level_adj, reach_sym, level_adj, H. Qed.
Lemma node_network x : In x (g_nodes (net_graph n)) <-> on_network es x.
Proof. exact (graph_node es s n B x). Qed.
Lemma adj_link u v : reach (adj (net_graph n)) u v <-> reach (linked es) u v.
Proof. exact (link_reach es s n B u v). Qed.
Lemma source_network : on_network es s.
Proof. exact (b_source _ _ _ B). Qed.

Lemma connected : is_connected (net_graph n) = Ok true -> forall x, on_network es x -> reach (linked es) s x.
Proof.
  intros C x Hx. assert (Ne : g_nodes (net_graph n) <> []) by (intros Q; apply node_network in Hx; rewrite Q in Hx; destruct Hx).
  destruct (connected_spec _ (b_wf _ _ _ B) Ne) as [[_ H]|[E _]]; [|congruence]. apply adj_link, H; apply node_network; [exact source_network|exact Hx].
Qed.
Lemma connected_conv : (forall x, on_network es x -> reach (linked es) s x) -> is_connected (net_graph n) = Ok true.
Proof.
  intros C. assert (Hs := source_network). apply node_network in Hs. assert (Ne : g_nodes (net_graph n) <> []) by (intros Q; rewrite Q in Hs; destruct Hs).
  destruct (connected_spec _ (b_wf _ _ _ B) Ne) as [[H _]|[_ (x & y & Hx & Hy & H)]]; [exact H|]. exfalso. apply H. apply node_network in Hx, Hy.
  eapply reach_trans; [apply reach_sym|]; apply adj_link, C; assumption.
Qed.

(** *** The feeding transformer *)
Lemma fed_ex x : reach (linked es) s x -> exists o, fed_by es d s x o.
Proof.
  intros R. apply (built_reach _ _ _ _ B) in R. destruct R as [k W]. remember s as s0 eqn:Es in W. induction W as [u|u y x k W IH Ar]; subst; [exists None; constructor|].
  destruct (IH eq_refl) as [o Ho]. destruct (edge_case es s n B AN y x) as [(i & m & Hi & _)|[No _]].
  - destruct (string_dec (e_cls i) "PowerTransformer") as [C|C]; [exists (Some i); eapply fed_trafo; eauto|]. exists o. eapply fed_through; eauto.
    intros j Hj. rewrite (last_span_fun _ _ _ _ _ Hj Hi). exact C.
  - exists o. eapply fed_through; eauto. intros j Hj. exfalso. exact (No j Hj).
Qed.
Lemma fed_climb x z o : climbs_over es d x z -> fed_by es d s z o -> fed_by es d s x o.
Proof.
  induction 1 as [x|x y z i Ar Li Ci C IH]; intros F; [exact F|]. eapply fed_through; [exact (IH F)|exact Ar|]. intros j Hj. rewrite (last_span_fun _ _ _ _ _ Hj Li). exact Ci.
Qed.
Lemma up_fed x t : reach (linked es) s x -> get_upstream_transformer fuel n x = Ok t -> exists o, fed_by es d s x o /\ feeder_name o t.
Proof.
  intros R E. assert (Hx : In x (d_nodes d)).
  { destruct (smem x (d_nodes d)) eqn:S; [apply smem_In; exact S|]. exfalso. unfold get_upstream_transformer in E. destruct fuel; [discriminate|]. cbn [upstream_loop] in E. unfold predecessors in E. rewrite S in E. discriminate. }
  destruct (upstream_objects es s n x fuel AN Bu Hx Fu) as (U1 & U2 & _). destruct t as [t|].
  - apply U1 in E. destruct E as (z & y & i & C & Ar & Li & Ci & Ni). assert (Ry : reach (linked es) s y) by (apply (built_reach _ _ _ _ B), (built_arc_reach _ _ _ _ _ B Ar)).
    destruct (fed_ex y Ry) as [o Ho]. exists (Some i). split; [|exact Ni]. apply (fed_climb _ _ _ C). eapply fed_trafo; eauto.
  - apply U2 in E. exists None. split; [|reflexivity]. apply (fed_climb _ _ _ E). constructor.
Qed.
Lemma fed_named x i : fed_by es d s x (Some i) -> exists m, e_name i = Some (Some m).
Proof.
  intros F. remember (Some i) as oi eqn:Eo in F. revert i Eo. induction F as [|y x o i' F IH Ar Li Ci|y x o F IH Ar Nt]; intros i Eo; [discriminate| |exact (IH i Eo)].
  injection Eo as ->. eapply last_span_named; eauto.
Qed.
Lemma secondary_spec x v t : reach (linked es) s x -> secondary es windings fuel n x = Ok (v, t) -> exists o, fed_by es d s x o /\ secondary_volt es windings o v /\ feeder_name o t.
Proof.
  unfold secondary. intros R E. destruct (get_upstream_transformer fuel n x) as [[t'|]|] eqn:U; cbn [bind] in E; [| |discriminate]; destruct (up_fed x _ R U) as (o & Fo & No).
  - destruct (lookup es (Some t')) as [p|] eqn:L; cbn [of_opt bind] in E; [|discriminate]. apply lookup_spec in L. exists o. split; [exact Fo|].
    destruct o as [i|]; [|discriminate No]. cbn [feeder_name] in No. destruct (windings p) as [ws|e] eqn:W.
    + destruct (py_min (keep ws)) as [q|] eqn:M; cbn [bind] in E; [|discriminate]. injection E as <- <-. split; [|exact No]. exists t', p. split; [exact No|]. split; [exact L|].
      rewrite W. exists q. split; [apply smallest_min; exact M|reflexivity].
    + injection E as <- <-. split; [|exact No]. exists t', p. split; [exact No|]. split; [exact L|]. rewrite W. reflexivity.
  - injection E as <- <-. exists o. split; [exact Fo|]. destruct o as [i|]; [|split; reflexivity]. exfalso. cbn [feeder_name] in No.
    destruct (fed_named _ _ Fo) as [m Hm]. congruence.
Qed.

Lemma groups_spec st st' : set_groups es windings order fuel n st = Ok st' ->
  exists left, one_per_level es left /\ (forall x, on_network es x -> reach (linked es) s x) /\
    (forall x, on_network es x -> ~ In x left -> exists y i o w t, In y left /\ names_a es "Node" y /\ same_level es x y /\
       fed_by es d s y o /\ secondary_volt es windings o w /\ feeder_name o t /\ bears es x i /\
       (forall old, nth_error (fst st) i = Some (Some old) -> nth_error (fst st') i = Some (Some w)) /\
       (names_a es "Load" x -> i < length (snd st) -> nth_error (snd st') i = Some t)) /\
    (forall i, (forall x, on_network es x -> ~ In x left -> ~ bears es x i) -> nth_error (fst st') i = nth_error (fst st) i /\ nth_error (snd st') i = nth_error (snd st) i) /\
    (forall x i, bears es x i -> ~ names_a es "Load" x -> nth_error (snd st') i = nth_error (snd st) i) /\
    (forall i, nth_error (fst st) i = Some None <-> nth_error (fst st') i = Some None) /\
    length (fst st') = length (fst st) /\ length (snd st') = length (snd st).
Proof.
  unfold set_groups. intros E.
  destruct (components_spec _ (without_wf _ (b_wf _ _ _ B)) (g_nodes (net_graph n)) []) as (cs & Ec & Cv & Cc & Cn); [intros x Hx; exact Hx|intros x y []|].
  rewrite Ec in E. cbn [bind] in E. destruct (is_connected (net_graph n)) as [[|]|] eqn:Ic; cbn [bind] in E; try discriminate. assert (Re := connected Ic).
  destruct (mapM (look_at_group es windings order fuel n) cs) as [gs|] eqn:Eg; cbn [bind] in E; [|discriminate]. apply NetworkDown.mapM_ok in Eg. rewrite assign_flat in E.
  assert (G : Forall2 (fun c g => exists x, In x c /\ names_a es "Node" x /\ order c = popped es (order c) ++ fst g /\ In x (popped es (order c)) /\
     (forall y, In y (popped es (order c)) -> names_a es "Node" y -> y = x) /\ secondary es windings fuel n x = Ok (snd g)) cs gs).
  { clear -Eg Or. induction Eg as [|c g cs gs H F IH]; constructor; [|exact IH]. unfold look_at_group in H. destruct (volunteer es (order c)) as [[x rest]|] eqn:V; cbn [bind fst snd] in H; [|discriminate].
    destruct (secondary es windings fuel n x) as [r|] eqn:S; cbn [bind] in H; [|discriminate]. injection H as <-. destruct (volunteer_spec _ _ _ _ V) as (V1 & V2 & V3 & V4).
    exists x. cbn [fst snd]. split; [apply (Permutation_in _ (Permutation_sym (Or c))); rewrite V1; apply in_app_iff; auto|]. auto. }
  assert (P : Forall2 (fun c g => exists p, Permutation c (p ++ fst g)) cs gs).
  { clear -G Or. induction G as [|c g cs gs (x & _ & _ & H & _) F IH]; constructor; [|exact IH]. exists (popped es (order c)). rewrite <- H. apply Or. }
  destruct (rest_NoDup _ _ P Cn) as [Nr _]. rewrite <- flat_fst in Nr.
  destruct (assign_spec es _ _ _ Nr E) as (A1 & A2 & A3 & A4 & A5 & A6).
  set (left := concat (map (fun c => popped es (order c)) cs)).
  assert (Lc : forall x, In x left <-> exists c, In c cs /\ In x (popped es (order c))).
  { intros x. unfold left. rewrite in_concat. split; [intros (l & H & Hx); apply in_map_iff in H; destruct H as (c & <- & Hc); eauto|]. intros (c & Hc & Hx). exists (popped es (order c)). split; [apply in_map_iff; eauto|exact Hx]. }
  assert (Pc : forall c, In c cs -> incl (popped es (order c)) c).
  { intros c Hc y Hy. destruct (Forall2_left _ _ _ _ G Hc) as (g & _ & x & _ & _ & Eo & _). apply (Permutation_in _ (Permutation_sym (Or c))). rewrite Eo. apply in_app_iff. auto. }
  assert (Nw : forall c y, In c cs -> In y c -> on_network es y) by (intros c y Hc Hy; apply node_network, (Cc c Hc), Hy).
  assert (Cv' : forall x, on_network es x -> exists c, In c cs /\ In x c) by (intros x Hx; apply node_network in Hx; destruct (Cv x Hx) as [[]|H]; exact H).
  assert (Lv : forall c x y, In c cs -> In x c -> (In y c <-> same_level es x y)) by (intros c x y Hc Hx; rewrite <- level_adj; apply (Cc c Hc); exact Hx).
  assert (Rl : forall c g x, In c cs -> In g gs -> order c = popped es (order c) ++ fst g -> In x (fst g) -> ~ In x left).
  { intros c g x Hc Hg Eo Hx Q. apply Lc in Q. destruct Q as (c' & Hc' & Hp).
    assert (Xc : In x c) by (apply (Permutation_in _ (Permutation_sym (Or c))); rewrite Eo; apply in_app_iff; auto).
    assert (c = c') by (eapply concat_uniq; [exact Cn|exact Hc|exact Hc'|exact Xc|exact (Pc c' Hc' x Hp)]). subst c'.
    assert (Nc : NoDup c). { clear -Cn Hc. induction cs as [|a cs IH]; [destruct Hc|]. cbn [concat] in Cn. apply NoDup_app_iff in Cn. destruct Cn as (N1 & N2 & _). destruct Hc as [<-|Hc]; auto. }
    apply (Permutation_NoDup (Or c)) in Nc. rewrite Eo in Nc. apply NoDup_app_iff in Nc. destruct Nc as (_ & _ & Nc). exact (Nc x Hp Hx). }
  exists left. split; [|split; [exact Re|split; [|split; [|split; [|auto]]]]].
  - split; [|split].
    + intros x Hx. apply Lc in Hx. destruct Hx as (c & Hc & Hx). exact (Nw c x Hc (Pc c Hc x Hx)).
    + intros x Hx. destruct (Cv' x Hx) as (c & Hc & Xc). destruct (Forall2_left _ _ _ _ G Hc) as (g & _ & y & Yc & Ny & _ & Yp & _).
      exists y. split; [apply Lc; eauto|]. split; [apply (Lv c); assumption|exact Ny].
    + intros x y Hx Hy Nx Ny Sl. apply Lc in Hx, Hy. destruct Hx as (c & Hc & Hx), Hy as (c' & Hc' & Hy).
      assert (c = c'). { eapply concat_uniq; [exact Cn|exact Hc|exact Hc'| |exact (Pc c' Hc' y Hy)]. apply (Lv c x y Hc (Pc c Hc x Hx)), Sl. } subst c'.
      destruct (Forall2_left _ _ _ _ G Hc) as (g & _ & z & _ & _ & _ & _ & U & _). rewrite (U x Hx Nx), (U y Hy Ny). reflexivity.
  - intros x Hx Nl. destruct (Cv' x Hx) as (c & Hc & Xc). destruct (Forall2_left _ _ _ _ G Hc) as ([rest [v t]] & Hg & y & Yc & Ny & Eo & Yp & _ & Se). cbn [fst snd] in *.
    destruct (secondary_spec y v t (Re y (Nw c y Hc Yc)) Se) as (o & Fo & So & No).
    assert (Xr : In x rest). { apply (Permutation_in _ (Or c)) in Xc. rewrite Eo in Xc. apply in_app_iff in Xc. destruct Xc as [Q|Q]; [|exact Q]. exfalso. apply Nl, Lc. eauto. }
    destruct (A1 x v t) as (i & Bi & K1 & K2); [apply flat_In; eauto|].
    exists y, i, o, v, t. split; [apply Lc; eauto|]. split; [exact Ny|]. split; [apply (Lv c); assumption|]. split; [exact Fo|]. split; [exact So|]. split; [exact No|]. split; [exact Bi|]. split; [exact K1|].
    intros Nx. apply (cls_names es "Load" x i Bi) in Nx. exact (K2 Nx).
  - intros i Hi. apply A2. intros x Hx Bx. rewrite flat_fst in Hx. apply in_concat in Hx. destruct Hx as (l & Hl & Hx). apply in_map_iff in Hl. destruct Hl as (g & <- & Hg).
    destruct (Forall2_right _ _ _ _ G Hg) as (c & Hc & y & _ & _ & Eo & _). apply (Hi x); [|exact (Rl c g x Hc Hg Eo Hx)|exact Bx].
    apply (Nw c x Hc). apply (Permutation_in _ (Permutation_sym (Or c))). rewrite Eo. apply in_app_iff. auto.
  - intros x i Bi Nx. apply A3. destruct (is_cls es "Load" i) eqn:C; [|reflexivity]. exfalso. apply Nx. apply (cls_names es "Load" x i Bi). exact C.
Qed.

(** *** Radial networks *)
Hypothesis Ra : radial es d.
Lemma joined_fed u v o : reach (linked es) s v -> joined es u v -> fed_by es d s u o -> fed_by es d s v o.
Proof.
  intros Rv [L T] F. destruct (string_dec u v) as [->|D]; [exact F|]. destruct (Ra u v L D) as [Ar|Ar].
  - eapply fed_through; eauto.
  - destruct (fed_ex v Rv) as [o' F']. assert (F2 : fed_by es d s u o') by (eapply fed_through; [exact F'|exact Ar|intros i Hi; apply T, last_span_sym, Hi]).
    rewrite (fed_fun _ _ _ _ _ _ B F F2). exact F'.
Qed.
Lemma level_reach u v : reach (linked es) s u -> same_level es u v -> reach (linked es) s v.
Proof. intros R [k W]. induction W as [u|u y v k W IH [L _]]; [exact R|]. eapply reach_step; [exact (IH R)|exact L]. Qed.
Lemma level_fed u v o : reach (linked es) s u -> same_level es u v -> fed_by es d s u o -> fed_by es d s v o.
Proof.
  intros R [k W]. induction W as [u|u y v k W IH J]; intros F; [exact F|]. apply (joined_fed y); [|exact J|exact (IH R F)]. apply (level_reach u); [exact R|]. exists (S k). econstructor; eauto.
Qed.
End Level.

(** ** The whole function *)
Lemma lines_after es vs1 vs' : set_nominal_voltages_recur_line es vs1 = Ok vs' ->
  length vs' = length vs1 /\
  (forall i, (forall e, nth_error es i = Some e -> e_cls e <> "Line") -> nth_error vs' i = nth_error vs1 i) /\
  (forall i e, nth_error es i = Some e -> e_cls e = "Line" -> volt vs1 i <> None \/ e_from e = None -> nth_error vs' i = nth_error vs1 i) /\
  (forall i e f, nth_error es i = Some e -> e_cls e = "Line" -> nth_error vs1 i = Some (Some None) -> e_from e = Some f ->
     exists p, bears es f p /\ ((forall e', nth_error es p = Some e' -> e_cls e' <> "Line") -> nth_error vs' i = Some (Some (volt vs' p)))).
Proof.
  intros E. destruct (proj1 (line_voltages_spec es vs1) vs' E) as (L1 & L2 & L3).
  assert (Nl : forall i, (forall e, nth_error es i = Some e -> e_cls e <> "Line") -> nth_error vs' i = nth_error vs1 i).
  { intros i Hi. apply L2. intros e He C. exfalso. exact (Hi e He C). }
  split; [exact L1|]. split; [exact Nl|]. split.
  - intros i e He C H. apply L2. intros e' He' _ V. assert (e' = e) by congruence. subst e'. destruct H as [H|H]; [contradiction|exact H].
  - intros i e f He C V F. destruct (L3 i e f He C V F) as (p & Bp & Hp). exists p. split; [exact Bp|]. intros NL. rewrite (Hp NL). unfold volt. rewrite (Nl p NL). reflexivity.
Qed.

Lemma not_line_at es x i : bears es x i -> ~ names_a es "Line" x -> forall e, nth_error es i = Some e -> e_cls e <> "Line".
Proof. intros Bx N e He C. apply N. exists i, e. auto. Qed.

Lemma nominal_spec es windings order s n fuel vs us vs' us' : build es s = Ok n -> all_named es -> length (d_nodes (net_di n)) < fuel ->
  (forall l, Permutation l (order l)) -> set_nominal_voltages es windings order fuel n vs us = Ok (vs', us') ->
  exists left, one_per_level es left /\ (forall x, on_network es x -> reach (linked es) s x) /\
    (forall x, on_network es x -> ~ In x left -> exists y i o w t, In y left /\ names_a es "Node" y /\ same_level es x y /\
       fed_by es (net_di n) s y o /\ secondary_volt es windings o w /\ feeder_name o t /\ bears es x i /\
       (forall old, nth_error vs i = Some (Some old) -> ~ names_a es "Line" x -> nth_error vs' i = Some (Some w)) /\
       (names_a es "Load" x -> i < length us -> nth_error us' i = Some t)) /\
    (forall i, (forall x, on_network es x -> ~ In x left -> ~ bears es x i) ->
       nth_error us' i = nth_error us i /\
       ((forall e, nth_error es i = Some e -> e_cls e <> "Line") -> nth_error vs' i = nth_error vs i) /\
       (forall e, nth_error es i = Some e -> e_cls e = "Line" -> volt vs i <> None \/ e_from e = None -> nth_error vs' i = nth_error vs i) /\
       (forall e f, nth_error es i = Some e -> e_cls e = "Line" -> nth_error vs i = Some (Some None) -> e_from e = Some f ->
          exists p, bears es f p /\ ((forall e', nth_error es p = Some e' -> e_cls e' <> "Line") -> nth_error vs' i = Some (Some (volt vs' p))))) /\
    (forall x i, bears es x i -> ~ names_a es "Load" x -> nth_error us' i = nth_error us i) /\
    length vs' = length vs /\ length us' = length us.
Proof.
  intros Bu AN Fu Or E. unfold set_nominal_voltages in E. destruct (set_groups es windings order fuel n (vs, us)) as [[vs1 us1]|] eqn:G; cbn [bind fst snd] in E; [|discriminate].
  destruct (set_nominal_voltages_recur_line es vs1) as [vs2|] eqn:L; cbn [bind] in E; [|discriminate]. injection E as -> ->.
  destruct (groups_spec es windings order s n fuel Bu AN Fu Or _ _ G) as (left & H1 & H2 & H3 & H4 & H5 & H6 & H7 & H8). cbn [fst snd] in *.
  destruct (lines_after _ _ _ L) as (L1 & L2 & L3 & L4). exists left. split; [exact H1|]. split; [exact H2|]. split; [|split; [|split; [|split; [congruence|exact H8]]]].
  - intros x Hx Nl. destruct (H3 x Hx Nl) as (y & i & o & w & t & K1 & K2 & K3 & K4 & K5 & K6 & K7 & K8 & K9). exists y, i, o, w, t.
    split; [exact K1|]. split; [exact K2|]. split; [exact K3|]. split; [exact K4|]. split; [exact K5|]. split; [exact K6|]. split; [exact K7|]. split; [|exact K9].
    intros old Ho NL. rewrite L2; [exact (K8 old Ho)|]. exact (not_line_at _ _ _ K7 NL).
  - intros i Hi. destruct (H4 i Hi) as [K1 K2]. split; [exact K2|]. split; [intros NL; rewrite L2; auto|]. split.
    + intros e He C V. rewrite (L3 i e He C); [exact K1|]. unfold volt in *. rewrite K1. exact V.
    + intros e f He C V F. apply (L4 i e f He C); [congruence|exact F].
  - exact H5.
Qed.

Lemma nominal_radial es windings order s n fuel vs us vs' us' : build es s = Ok n -> all_named es -> length (d_nodes (net_di n)) < fuel ->
  (forall l, Permutation l (order l)) -> radial es (net_di n) -> set_nominal_voltages es windings order fuel n vs us = Ok (vs', us') ->
  exists left, one_per_level es left /\
    forall x, on_network es x -> ~ In x left -> exists i o w t, bears es x i /\
       fed_by es (net_di n) s x o /\ (forall o', fed_by es (net_di n) s x o' -> o' = o) /\ secondary_volt es windings o w /\ feeder_name o t /\
       (forall old, nth_error vs i = Some (Some old) -> ~ names_a es "Line" x -> nth_error vs' i = Some (Some w)) /\
       (names_a es "Load" x -> i < length us -> nth_error us' i = Some t).
Proof.
  intros Bu AN Fu Or Ra E. destruct (nominal_spec _ _ _ _ _ _ _ _ _ _ Bu AN Fu Or E) as (left & H1 & H2 & H3 & _). exists left. split; [exact H1|]. intros x Hx Nl.
  destruct (H3 x Hx Nl) as (y & i & o & w & t & K1 & K2 & K3 & K4 & K5 & K6 & K7 & K8 & K9). exists i, o, w, t. split; [exact K7|].
  assert (F : fed_by es (net_di n) s x o).
  { apply (level_fed es s n Bu AN Ra y x o); [apply H2, H1, K1|apply (level_sym es s n Bu AN), K3|exact K4]. }
  split; [exact F|]. split; [intros o' F'; exact (fed_fun _ _ _ _ _ _ (build_built _ _ _ Bu) F' F)|]. auto.
Qed.

Lemma nominal_volunteer es windings order s n fuel vs us vs' us' : build es s = Ok n -> all_named es -> length (d_nodes (net_di n)) < fuel ->
  (forall l, Permutation l (order l)) -> set_nominal_voltages es windings order fuel n vs us = Ok (vs', us') ->
  forall x, on_network es x -> exists y i, same_level es x y /\ names_a es "Node" y /\ bears es y i /\ nth_error vs' i = nth_error vs i.
Proof.
  intros Bu AN Fu Or E x Hx. destruct (nominal_spec _ _ _ _ _ _ _ _ _ _ Bu AN Fu Or E) as (left & (_ & O2 & _) & _ & _ & H4 & _).
  destruct (O2 x Hx) as (y & Ly & Sy & Ny). destruct Ny as (i & e & Bi & Ei & Ci). exists y, i. split; [exact Sy|]. split; [exists i, e; auto|]. split; [exact Bi|].
  destruct (H4 i) as (_ & K & _); [intros z _ Nz Bz; apply Nz; rewrite (bears_name _ _ _ _ Bz Bi); exact Ly|]. apply K. intros e' He' C. assert (e' = e) by congruence. subst e'. congruence.
Qed.

Lemma nominal_total es windings order s n fuel vs us : build es s = Ok n -> all_named es -> length (d_nodes (net_di n)) < fuel ->
  (forall l, Permutation l (order l)) ->
  (forall x, on_network es x -> reach (linked es) s x) -> (exists y, linked es s y /\ y <> s) ->
  (forall x, on_network es x -> exists p, bears es x p) ->
  (forall x, on_network es x -> exists y, same_level es x y /\ names_a es "Node" y) ->
  (forall x y z, names_a es "Node" x -> climbs_over es (net_di n) x z -> arc (net_di n) y z -> exists i, last_span es y z i) ->
  (forall y x i, arc (net_di n) y x -> last_span es y x i -> e_cls i = "PowerTransformer" ->
     exists m p, e_name i = Some (Some m) /\ bears es m p /\ forall ws, windings p = Ok ws -> exists w, In (Some w) ws) ->
  (forall i f, In i es -> e_cls i = "Line" -> e_from i = Some f -> exists p, bears es f p) ->
  exists r, set_nominal_voltages es windings order fuel n vs us = Ok r.
Proof.
  intros Bu AN Fu Or Re Sn Ob Nd Cl Tr Li. assert (B := build_built _ _ _ Bu).
  assert (Lt : forall vs1, exists vs2, set_nominal_voltages_recur_line es vs1 = Ok vs2).
  { intros vs1. apply (proj2 (line_voltages_spec es vs1)). intros i e f He C _ F. apply (Li e f); [eapply nth_error_In; eauto|exact C|exact F]. }
  unfold set_nominal_voltages, set_groups.
  destruct (components_spec _ (without_wf _ (b_wf _ _ _ B)) (g_nodes (net_graph n)) []) as (cs & Ec & Cv & Cc & Cn); [intros x Hx; exact Hx|intros x y []|].
  rewrite Ec. cbn [bind]. rewrite (connected_conv es s n Bu Re). cbn [bind].
  assert (Nw : forall c y, In c cs -> In y c -> on_network es y) by (intros c y Hc Hy; apply (node_network es s n Bu), (Cc c Hc), Hy).
  assert (Sec : forall x, on_network es x -> names_a es "Node" x -> exists r, secondary es windings fuel n x = Ok r).
  { intros x Hx Nx. assert (Dx : In x (d_nodes (net_di n))) by (apply (built_node _ _ _ _ B); split; [exact (Re x Hx)|exact Sn]).
    destruct (upstream_objects es s n x fuel AN Bu Dx Fu) as (U1 & _ & U3). unfold secondary. destruct (get_upstream_transformer fuel n x) as [[t|]|e] eqn:U; cbn [bind].
    - destruct (proj1 (U1 t) eq_refl) as (z & y & i & C & Ar & Ls & Ci & Ni). destruct (Tr y z i Ar Ls Ci) as (m & p & Hm & Bp & Hw). assert (m = t) by congruence. subst m.
      apply lookup_spec in Bp. rewrite Bp. cbn [of_opt bind]. destruct (windings p) as [ws|]; [|eauto]. destruct (Hw ws eq_refl) as [w Hin].
      destruct (proj2 (py_min_spec (keep ws))) as [v Hv]; [intros Q; apply keep_In in Hin; rewrite Q in Hin; destruct Hin|]. rewrite Hv. cbn [bind]. eauto.
    - eauto.
    - exfalso. destruct (proj1 (U3 e) eq_refl) as (_ & z & y & C & Ar & No). destruct (Cl x y z Nx C Ar) as (i & p & q & Ei & Si & _).
      assert (Hi : In i es) by (rewrite Ei; apply in_app_iff; right; left; reflexivity). destruct (No i Hi). tauto. }
  destruct (mapM_total (look_at_group es windings order fuel n) cs) as [gs Eg].
  { intros c Hc. unfold look_at_group. destruct (Cc c Hc) as (Ne & Cr & _). destruct c as [|x0 c0]; [congruence|]. set (c := x0 :: c0) in *.
    assert (X0 : In x0 c) by (left; reflexivity). destruct (Nd x0 (Nw c x0 Hc X0)) as (y & Sy & Ny). assert (Yc : In y c) by (apply (Cr x0 y X0), (level_adj es s n Bu AN), Sy).
    destruct (volunteer_total es (order c)) as [[v rest] V].
    - intros z Hz. apply Ob, (Nw c z Hc), (Permutation_in _ (Permutation_sym (Or c))), Hz.
    - exists y. split; [apply (Permutation_in _ (Or c)), Yc|exact Ny].
    - rewrite V. cbn [bind fst snd]. destruct (volunteer_spec _ _ _ _ V) as (V1 & V2 & V3 & _).
      assert (Vc : In v c) by (apply (Permutation_in _ (Permutation_sym (Or c))); rewrite V1; apply in_app_iff; auto).
      destruct (Sec v (Nw c v Hc Vc) V3) as [r Hr]. rewrite Hr. cbn [bind]. eauto. }
  rewrite Eg. cbn [bind]. rewrite assign_flat. apply NetworkDown.mapM_ok in Eg.
  destruct (assign_total es (flat gs)) with (st := (vs, us)) as [[vs1 us1] E1].
  { intros x Hx. rewrite flat_fst in Hx. apply in_concat in Hx. destruct Hx as (l & Hl & Hx). apply in_map_iff in Hl. destruct Hl as (g & <- & Hg).
    destruct (Forall2_right _ _ _ _ Eg Hg) as (c & Hc & Eo). unfold look_at_group in Eo. destruct (volunteer es (order c)) as [[v rest]|] eqn:V; cbn [bind fst snd] in Eo; [|discriminate].
    destruct (secondary es windings fuel n v) as [r|]; cbn [bind] in Eo; [|discriminate]. injection Eo as <-. cbn [fst] in Hx. destruct (volunteer_spec _ _ _ _ V) as (V1 & _).
    apply Ob, (Nw c x Hc), (Permutation_in _ (Permutation_sym (Or c))). rewrite V1. apply in_app_iff. auto. }
  rewrite E1. cbn [bind fst snd]. destruct (Lt vs1) as [vs2 E2]. rewrite E2. cbn [bind]. eauto.
Qed.
