(** The loads behind the transformers. *)
From Verif Require Import Base BaseFacts StoreModel NetworkModel NetworkSpec NetworkProofs NetworkBfs NetworkQueries NetworkDown NetworkTop
  VoltProofs CenterTapModel CenterTapSpec CenterTapProofs MetricsModel MetricsSpec.
From Coq Require Import QArith Lia.
Local Open Scope string_scope.
Local Open Scope nat_scope.
Local Open Scope list_scope.

Lemma picks_fun P es ls : picks P es ls -> forall ls', picks P es ls' -> ls = ls'.
Proof.
  induction 1 as [|e l r ls Be Ne Pk IH|e r ls Be Pk IH]; intros ls' Pk'; inversion Pk'; subst; try contradiction; [reflexivity| |auto].
  assert (l0 = l) by congruence. subst. f_equal. auto.
Qed.

Section Climb.
Variables (es : list elem) (s : string) (n : network).
Hypothesis B : built es s n.
Hypothesis AN : all_named es.
Notation d := (net_di n).

Lemma climb_spec fuel : forall x r, climb n fuel x = Ok r ->
  (exists t m, feeds es d x t /\ e_name t = Some (Some m) /\ r = Some (Some m)) \/ (r = None /\ forall t, ~ feeds es d x t).
Proof.
  induction fuel as [|fuel IH]; intros x r; cbn [climb]; [discriminate|].
  destruct (predecessors d x) as [[|[[p q] a] rest]|] eqn:P; [| |discriminate].
  - intros E. injection E as <-. right. split; [reflexivity|]. intros t F. destruct (feeds_inv es n _ _ F) as (y & Ar & _).
    unfold predecessors in P. destruct (smem x (d_nodes d)); [|discriminate]. injection P as P. destruct Ar as [a Ha].
    assert (C : In (y, x, a) (filter (fun e : edge => String.eqb (snd (fst e)) x) (d_edges d))) by (apply filter_In; split; [exact Ha|cbn; apply String.eqb_refl]).
    rewrite P in C. destruct C.
  - destruct (pred_case n _ _ _ _ _ P) as [Ar Hx]. assert (One : forall y, arc d y x -> y = p) by (intros y Hy; eapply (b_one _ _ _ B); eauto).
    assert (Up : (forall i, last_span es p x i -> e_cls i <> "PowerTransformer") -> climb n fuel p = Ok r ->
        (exists t m, feeds es d x t /\ e_name t = Some (Some m) /\ r = Some (Some m)) \/ (r = None /\ forall t, ~ feeds es d x t)).
    { intros Nt E. destruct (IH _ _ E) as [(t & m & F & Hm & Hr)|[Hr N]].
      - left. exists t, m. split; [|auto]. destruct F as (z & y & A & R). exists z, y. split; [econstructor; eauto|exact R].
      - right. split; [exact Hr|]. intros t F. destruct (feeds_inv es n _ _ F) as (y & Ay & [[L C]|[_ F']]); pose proof (One _ Ay); subst y; [exact (Nt _ L C)|exact (N _ F')]. }
    destruct (edge_case es s n B AN p x) as [(i & m & Hi & Hm & Ea)|[No Ea]]; rewrite Ea.
    + cbn [ea_cls ea_name]. destruct (String.eqb_spec (e_cls i) "PowerTransformer") as [Hc|Hc].
      * intros E. injection E as <-. left. exists i, m. split; [exists x, p; split; [constructor|auto]|auto].
      * apply Up. intros j Hj. rewrite (last_span_fun _ _ _ _ _ Hj Hi). exact Hc.
    + apply Up. intros j Hj. exfalso. exact (No j Hj).
Qed.
Lemma climb_total k : forall x fuel, In x (d_nodes d) -> dist (linked es) s x k -> k < fuel -> exists r, climb n fuel x = Ok r.
Proof.
  induction k as [|k IH]; intros x fuel Hx D L; (destruct fuel as [|fuel]; [lia|]); cbn [climb].
  - apply dist_zero in D as <-. destruct (built_predecessors _ _ _ _ B Hx) as [[_ E]|(u & a & r & E & Hin & Hu)]; [rewrite E; eauto|].
    exfalso. apply (built_no_pred_source _ _ _ u B). exists a. exact Hin.
  - destruct (built_predecessors _ _ _ _ B Hx) as [[-> E]|(u & a & r & E & Hin & Hu)]; rewrite E; [eauto|].
    assert (Ar : arc d u x) by (exists a; exact Hin). assert (Hu' : In u (d_nodes d)) by (apply (b_nodes _ _ _ B); exists x; left; exact Ar).
    assert (Du : dist (linked es) s u k) by (destruct (b_arc _ _ _ B u x Ar) as (_ & k' & D1 & D2); assert (Q := dist_fun _ _ _ _ _ D D2); injection Q as ->; exact D1).
    assert (Up : exists r0, climb n fuel u = Ok r0) by (apply (IH u fuel Hu' Du); lia).
    destruct (edge_attr (net_graph n) u x) as [at_|]; [|exact Up]. destruct (String.eqb (ea_cls at_) "PowerTransformer"); [eauto|exact Up].
Qed.
Lemma feeds_node x t : feeds es d x t -> In x (d_nodes d).
Proof. intros F. destruct (feeds_inv es n _ _ F) as (y & Ar & _). apply (b_nodes _ _ _ B). exists y. right. exact Ar. Qed.

(** *** The map *)
Definition lists := list (option string * list (option string)).
Fixpoint under (m : lists) (t : option string) : list (option string) :=
  match m with [] => [] | (k, ls) :: r => if okey_eqb k t then ls else under r t end.
Lemma under_file t l m t' : under (file_under t l m) t' = under m t' ++ (if okey_eqb t t' then [l] else []).
Proof.
  induction m as [|[k ls] r IH]; cbn [file_under under].
  - destruct (okey_eqb t t'); reflexivity.
  - destruct (okey_eqb k t) eqn:K; cbn [under].
    + apply okey_eqb_spec in K. subst k. destruct (okey_eqb t t'); [reflexivity|rewrite app_nil_r; reflexivity].
    + destruct (okey_eqb k t') eqn:K'; [|exact IH]. apply okey_eqb_spec in K'. subst k. destruct (okey_eqb t t') eqn:E; [apply okey_eqb_spec in E; subst; rewrite (proj2 (okey_eqb_spec t' t') eq_refl) in K; discriminate|rewrite app_nil_r; reflexivity].
Qed.
Definition wf (m : lists) : Prop := NoDup (map fst m) /\ forall k ls, In (k, ls) m -> ls <> [] /\ exists x, k = Some x.
Lemma file_keys t l m k : In k (map fst (file_under t l m)) <-> k = t \/ In k (map fst m).
Proof.
  induction m as [|[k' ls] r IH]; cbn [file_under map fst]; [cbn; intuition|]. destruct (okey_eqb k' t) eqn:K; cbn [map fst In].
  - apply okey_eqb_spec in K. subst. intuition.
  - rewrite IH. intuition.
Qed.
Lemma file_wf t l m : wf m -> wf (file_under (Some t) l m).
Proof.
  intros [N H]. split.
  - clear H. induction m as [|[k ls] r IH]; cbn [file_under map fst]; [repeat constructor; intros []|]. cbn [map fst] in N. apply NoDup_cons_iff in N. destruct N as [N0 N].
    destruct (okey_eqb k (Some t)) eqn:K; cbn [map fst]; [constructor; auto|]. constructor; [|auto]. rewrite file_keys. intros [C|C]; [|contradiction].
    subst k. rewrite (proj2 (okey_eqb_spec _ _) eq_refl) in K. discriminate.
  - clear N. induction m as [|[k ls] r IH]; cbn [file_under]; intros k0 ls0 Hin.
    + destruct Hin as [E|[]]. injection E as <- <-. split; [discriminate|eauto].
    + destruct (okey_eqb k (Some t)) eqn:K.
      * destruct Hin as [E|Hin]; [|apply (H k0 ls0); right; exact Hin]. injection E as <- <-. split; [intros C; apply app_eq_nil in C; destruct C; discriminate|apply (H k ls); left; reflexivity].
      * destruct Hin as [E|Hin]; [apply (H k0 ls0); left; exact E|]. apply (IH (fun a b Hab => H a b (or_intror Hab)) k0 ls0 Hin).
Qed.
Lemma under_In m k ls : wf m -> (In (k, ls) m <-> under m k = ls /\ ls <> []).
Proof.
  intros [N H]. assert (NE : forall k ls, In (k, ls) m -> ls <> []) by (intros a b Hab; apply (H a b Hab)). clear H.
  induction m as [|[k' ls'] r IH]; cbn [under].
  - split; [intros []|intros [<- C]; congruence].
  - cbn [map fst] in N. apply NoDup_cons_iff in N. destruct N as [N0 N]. destruct (okey_eqb k' k) eqn:K.
    + apply okey_eqb_spec in K. subst k'. split.
      * intros [E|Hin]; [injection E as <-; split; [reflexivity|eapply NE; left; reflexivity]|]. exfalso. apply N0. apply in_map_iff. exists (k, ls). auto.
      * intros [<- _]. left. reflexivity.
    + rewrite <- IH; [|exact N|intros a b Hab; eapply NE; right; exact Hab]. split; [intros [E|Hin]; [injection E as -> ->; rewrite (proj2 (okey_eqb_spec _ _) eq_refl) in K; discriminate|exact Hin]|right; assumption].
Qed.

Lemma behind_fun m m' e : behind es d m e -> behind es d m' e -> m = m'.
Proof.
  intros (c & t & _ & Hc & F & Hm) (c' & t' & _ & Hc' & F' & Hm'). assert (c' = c) by congruence. subst c'.
  assert (t' = t) by (eapply feeds_fun; eauto). subst. congruence.
Qed.

Lemma mapping_step_spec fuel m e : (forall x k, dist (linked es) s x k -> In x (d_nodes d) -> k < fuel) -> (e_cls e = "Load" -> e_name e <> None) ->
  (exists t l, behind es d t e /\ e_name e = Some l /\ mapping_step n fuel m e = Ok (file_under (Some t) l m)) \/
  ((forall t, ~ behind es d t e) /\ mapping_step n fuel m e = Ok m).
Proof.
  intros Hf Hn. unfold mapping_step. destruct (String.eqb_spec (e_cls e) "Load") as [C|C]; [|right; split; [intros t (c & u & Hc & _); congruence|reflexivity]].
  destruct (e_conn e) as [c|] eqn:Ec; [|right; split; [intros t (c & u & _ & Hc & _); congruence|reflexivity]].
  destruct (smem c (d_nodes d)) eqn:M.
  2: { right. split; [|reflexivity]. intros t (c' & u & _ & Hc & F & _). assert (c' = c) by congruence. subst. apply feeds_node, smem_In in F. congruence. }
  apply smem_In in M. assert (D : exists k, dist (linked es) s c k).
  { apply (b_nodes _ _ _ B) in M. destruct M as (y & [A|A]); destruct (b_arc _ _ _ B _ _ A) as (_ & k & D1 & D2); eauto. }
  destruct D as [k D]. destruct (climb_total k c fuel M D (Hf _ _ D M)) as [r Er]. rewrite Er. cbn [bind]. destruct (climb_spec _ _ _ Er) as [(t & tm & F & Hm & ->)|[-> N]].
  - left. destruct (e_name e) as [l|] eqn:El; [|exfalso; apply Hn; auto]. exists tm, l. split; [exists c, t; auto|]. split; reflexivity.
  - right. split; [|reflexivity]. intros t (c' & u & _ & Hc & F & _). assert (c' = c) by congruence. subst. exact (N _ F).
Qed.

Lemma mapping_fold fuel l : (forall x k, dist (linked es) s x k -> In x (d_nodes d) -> k < fuel) -> (forall e, In e l -> e_cls e = "Load" -> e_name e <> None) ->
  forall m, wf m -> exists R, foldM (mapping_step n fuel) l m = Ok R /\ wf R /\ forall t, exists ls, picks (behind es d t) l ls /\ under R (Some t) = under m (Some t) ++ ls.
Proof.
  intros Hf. induction l as [|e l IH]; intros Hn m W; cbn [foldM].
  - exists m. split; [reflexivity|]. split; [exact W|]. intros t. exists []. split; [constructor|symmetry; apply app_nil_r].
  - assert (Hn' : forall e0, In e0 l -> e_cls e0 = "Load" -> e_name e0 <> None) by (intros; apply Hn; [right|]; assumption).
    destruct (mapping_step_spec fuel m e Hf) as [(t & x & Bh & Hx & E)|[N E]]; [apply Hn; left; reflexivity| |]; rewrite E; cbn [bind].
    + destruct (IH Hn' (file_under (Some t) x m) (file_wf _ _ _ W)) as (R & ER & WR & U). exists R. split; [exact ER|]. split; [exact WR|]. intros t'. destruct (U t') as (ls & Pk & Eu).
      rewrite under_file in Eu. destruct (okey_eqb (Some t) (Some t')) eqn:K.
      * apply okey_eqb_spec in K. injection K as <-. exists (x :: ls). split; [apply picks_in; assumption|]. rewrite Eu, <- app_assoc. reflexivity.
      * exists ls. split; [|rewrite Eu, app_nil_r; reflexivity]. apply picks_out; [|exact Pk]. intros C. assert (t = t') by (eapply behind_fun; eauto). subst. rewrite (proj2 (okey_eqb_spec _ _) eq_refl) in K. discriminate.
    + destruct (IH Hn' m W) as (R & ER & WR & U). exists R. split; [exact ER|]. split; [exact WR|]. intros t'. destruct (U t') as (ls & Pk & Eu). exists ls. split; [apply picks_out; auto|exact Eu].
Qed.
Lemma mapping_spec fuel : length (d_nodes d) < fuel -> (forall e, In e es -> e_cls e = "Load" -> e_name e <> None) ->
  exists R, get_transformer_load_mapping es n fuel = Ok R /\ NoDup (map fst R) /\ (forall k ls, In (k, ls) R -> ls <> [] /\ exists t, k = Some t) /\
    forall t ls, ls <> [] -> (In (Some t, ls) R <-> picks (behind es d t) es ls).
Proof.
  intros Hf Hn. assert (Hf' : forall x k, dist (linked es) s x k -> In x (d_nodes d) -> k < fuel) by (intros x k D Hx; pose proof (d_node_dist_bound _ _ _ _ _ B D); lia).
  destruct (mapping_fold fuel es Hf' Hn []) as (R & ER & WR & U); [split; [constructor|intros ? ? []]|]. exists R. split; [exact ER|]. split; [apply WR|].
  split; [intros k ls H; apply (proj2 WR) in H; apply H|]. intros t ls NE. rewrite (under_In R (Some t) ls WR). destruct (U t) as (ls0 & Pk & Eu). cbn [under app] in Eu. rewrite Eu. split.
  - intros [<- _]. exact Pk.
  - intros Pk'. split; [|exact NE]. eapply picks_fun; eauto.
Qed.
End Climb.
