(** Lemmas about the structure modifier's construction and voltages. *)
From Verif Require Import Base BaseFacts StoreModel NetworkModel NetworkSpec NetworkProofs NetworkBfs NetworkQueries NetworkDown NetworkTop VoltModel VoltSpec.
From Coq Require Import QArith.
Local Open Scope string_scope.
Local Open Scope nat_scope.
Local Open Scope list_scope.

(** ** Source *)
Lemma insert_str_In x y l : In y (insert_str x l) <-> y = x \/ In y l.
Proof. induction l as [|z l IH]; cbn [insert_str]; [cbn; intuition|]. destruct (str_leb x z); cbn [In]; [intuition congruence|]. rewrite IH. intuition. Qed.
Lemma node_sort_In y l : In y (node_sort l) <-> In y l.
Proof. induction l as [|x l IH]; cbn [node_sort fold_right]; [reflexivity|]. fold (node_sort l). rewrite insert_str_In, IH. cbn. intuition. Qed.
Lemma dedup_NoDup l : NoDup (dedup l).
Proof.
  induction l as [|x l IH]; cbn [dedup]; [constructor|]. destruct (smem x l) eqn:E; [exact IH|]. constructor; [|exact IH].
  rewrite dedup_In. apply smem_not_In. exact E.
Qed.

Lemma unique_spec l : (forall u, np_unique l = Ok u -> NoDup u /\ forall x, In x u <-> In x l) /\
  (forall e, np_unique l = Err e -> e = EType /\ In None l /\ 2 <= length l) /\
  (In None l -> 2 <= length l -> np_unique l = Err EType).
Proof.
  destruct l as [|x [|y l]]; cbn [np_unique].
  - split; [intros u E; injection E as <-; split; [constructor|reflexivity]|]. split; [discriminate|]. intros [].
  - split; [intros u E; injection E as <-; split; [repeat constructor; intros []|reflexivity]|]. split; [discriminate|]. cbn. lia.
  - set (l2 := x :: y :: l).
    assert (M : forall k : list (option string), (forall names : list string, mapM (of_opt EType) k = Ok names -> k = map Some names) /\
                      (forall e, mapM (of_opt EType) k = Err e -> e = EType /\ In None k) /\ (In None k -> mapM (of_opt EType) k = Err EType)).
    { induction k as [|[z|] k (I1 & I2 & I3)]; cbn [mapM of_opt].
      - split; [intros names E; injection E as <-; reflexivity|]. split; [discriminate|intros []].
      - destruct (mapM (of_opt EType) k) as [ns|]; (split; [|split]); try discriminate.
        + intros names E. injection E as <-. cbn. f_equal. apply I1. reflexivity.
        + intros [H|H]; [discriminate|]. specialize (I3 H). discriminate.
        + intros e0 E. injection E as <-. destruct (I2 e eq_refl) as [-> H]. split; [reflexivity|right; exact H].
        + intros [H|H]; [discriminate|]. specialize (I3 H). congruence.
      - split; [discriminate|]. split; [intros e E; injection E as <-; split; [reflexivity|left; reflexivity]|reflexivity]. }
    destruct (M l2) as (M1 & M2 & M3). split; [|split].
    + intros u E. destruct (mapM (of_opt EType) l2) as [names|]; [|discriminate]. cbn [bind] in E. injection E as <-. rewrite (M1 names eq_refl). split.
      * apply FinFun.Injective_map_NoDup; [intros a b Q; congruence|apply dedup_NoDup].
      * intros z. rewrite !in_map_iff. split; intros (w & <- & Hw); exists w; (split; [reflexivity|]); [apply node_sort_In, dedup_In; exact Hw|apply dedup_In, node_sort_In; exact Hw].
    + intros e E. destruct (mapM (of_opt EType) l2) as [names|e0]; [discriminate|]. cbn [bind] in E. injection E as <-. destruct (M2 e0 eq_refl) as [-> H].
      split; [reflexivity|]. split; [exact H|]. cbn. lia.
    + intros H _. rewrite (M3 H). reflexivity.
Qed.

Lemma bus_names_In srcs n : In n (map s_name (filter s_bus srcs)) <-> bus_name srcs n.
Proof.
  rewrite in_map_iff. unfold bus_name. split.
  - intros (x & E & H). apply filter_In in H. destruct H. eauto.
  - intros (x & H & B & E). exists x. split; [exact E|]. apply filter_In. auto.
Qed.

Lemma find_source_spec srcs args : length args <> 1 ->
  (forall s, find_source srcs args = Ok s <-> bus_name srcs s /\ (forall s', bus_name srcs s' -> s' = s) /\ (s = None -> length (filter s_bus srcs) = 1)) /\
  ((forall s, ~ bus_name srcs s) -> find_source srcs args = Err EValue) /\
  (forall s s', bus_name srcs s -> bus_name srcs s' -> s <> s' -> exists e, find_source srcs args = Err e) /\
  (forall n n', bus_name srcs (Some n) -> bus_name srcs (Some n') -> n <> n' -> ~ bus_name srcs None -> find_source srcs args = Err EValue).
Proof.
  intros L. assert (F : find_source srcs args = do u <- np_unique (map s_name (filter s_bus srcs)); match u with [] => Err EValue | [x] => Ok x | _ => Err EValue end).
  { destruct args as [|a [|b r]]; [reflexivity|cbn in L; congruence|reflexivity]. }
  rewrite F. clear F. set (l := map s_name (filter s_bus srcs)). assert (Ll : length (filter s_bus srcs) = length l) by (unfold l; rewrite map_length; reflexivity).
  rewrite Ll. assert (B : forall n, bus_name srcs n <-> In n l) by (intros n; symmetry; apply bus_names_In). clearbody l. clear Ll.
  destruct (unique_spec l) as (U1 & U2 & U3). destruct (np_unique l) as [u|e] eqn:E; cbn [bind].
  - destruct (U1 u eq_refl) as [N I]. split; [|split; [|split]].
    + intros s. split.
      { intros E1. destruct u as [|x [|y u]]; try discriminate. injection E1 as <-. split; [apply B, I; left; reflexivity|]. split.
        - intros s' Hs. apply B, I in Hs. destruct Hs as [<-|[]]. reflexivity.
        - intros ->. assert (J : In None l) by (apply I; left; reflexivity). destruct l as [|a [|b l]]; [contradiction|reflexivity|]. exfalso.
          specialize (U3 J). cbn [length] in U3. specialize (U3 ltac:(lia)). discriminate. }
      intros (H1 & H2 & H3). destruct u as [|x [|y u]].
      * apply B, I in H1. destruct H1.
      * f_equal. apply H2. apply B, I. left. reflexivity.
      * exfalso. assert (x = s) by (apply H2, B, I; left; reflexivity). assert (y = s) by (apply H2, B, I; right; left; reflexivity). subst. inversion N as [|? ? NI]. apply NI. left. reflexivity.
    + intros H. destruct u as [|x [|y u]]; [reflexivity| |reflexivity]. exfalso. apply (H x), B, I. left. reflexivity.
    + intros s s' H H' D. destruct u as [|x [|y u]]; eauto. exfalso. apply B, I in H. apply B, I in H'. destruct H as [<-|[]], H' as [<-|[]]. congruence.
    + intros n n' H H' D _. destruct u as [|x [|y u]]; [reflexivity| |reflexivity]. exfalso. apply B, I in H. apply B, I in H'. destruct H as [->|[]], H' as [Q|[]]. congruence.
  - destruct (U2 e eq_refl) as (-> & HN & HL). split; [|split; [|split]].
    + intros s. split; [discriminate|]. intros (H1 & H2 & H3). exfalso. assert (None = s) by (apply H2, B, HN). subst s. specialize (H3 eq_refl). lia.
    + intros H. exfalso. exact (H None (proj2 (B None) HN)).
    + eauto.
    + intros n n' _ _ _ H. exfalso. apply H, B, HN.
Qed.

Lemma source_voltage_spec srcs : (forall v, source_voltage srcs = Some v <->
    exists a x b, srcs = a ++ x :: b /\ s_bus x = true /\ s_volt x = Some v /\ forall y, In y b -> s_bus y = true -> s_volt y = None) /\
  (source_voltage srcs = None <-> forall x, In x srcs -> s_bus x = true -> s_volt x = None).
Proof.
  unfold source_voltage. induction srcs as [|z srcs [I1 I2]] using rev_ind.
  - cbn. split; [|split; [intros _ x []|reflexivity]]. intros v. split; [discriminate|]. intros (a & x & b & E & _). destruct a; discriminate.
  - rewrite fold_left_app. cbn [fold_left]. set (f := fold_left _ srcs None) in *. clearbody f.
    assert (S : (s_bus z = true /\ exists w, s_volt z = Some w) \/ (s_bus z = true -> s_volt z = None)) by (destruct (s_bus z), (s_volt z); eauto; right; discriminate).
    destruct S as [(Hb & w & Hw)|S].
    + rewrite Hb, Hw. split.
      * intros v. split.
        { intros E. injection E as <-. exists srcs, z, []. repeat split; auto. intros y []. }
        { intros (a & x & b & E & Bx & Vx & Hn). destruct b as [|y b _] using rev_ind.
          - apply app_inj_tail in E. destruct E as [_ <-]. congruence.
          - change (x :: b ++ [y]) with ((x :: b) ++ [y]) in E. rewrite app_assoc in E. apply app_inj_tail in E. destruct E as [_ <-].
            exfalso. assert (Q : s_volt z = None) by (apply Hn; [apply in_app_iff; right; left; reflexivity|exact Hb]). congruence. }
      * split; [discriminate|]. intros H. exfalso. assert (Q : s_volt z = None) by (apply H; [apply in_app_iff; right; left; reflexivity|exact Hb]). congruence.
    + assert (F : (if s_bus z then match s_volt z with Some v => Some v | None => f end else f) = f).
      { destruct (s_bus z); [rewrite S by reflexivity|]; reflexivity. }
      rewrite F. split.
      * intros v. rewrite I1. split.
        { intros (a & x & b & -> & Bx & Vx & Hn). exists a, x, (b ++ [z]). rewrite <- app_assoc. cbn. repeat split; auto.
          intros y Hy. apply in_app_iff in Hy. destruct Hy as [Hy|[<-|[]]]; auto. }
        { intros (a & x & b & E & Bx & Vx & Hn). destruct b as [|y b _] using rev_ind.
          - apply app_inj_tail in E. destruct E as [_ <-]. specialize (S Bx). congruence.
          - change (x :: b ++ [y]) with ((x :: b) ++ [y]) in E. rewrite app_assoc in E. apply app_inj_tail in E. destruct E as [-> _].
            exists a, x, b. repeat split; auto. intros q Hq. apply Hn. apply in_app_iff. auto. }
      * rewrite I2. split; [intros H x Hx Bx; apply in_app_iff in Hx; destruct Hx as [Hx|[<-|[]]]; auto|]. intros H x Hx. apply H. apply in_app_iff. auto.
Qed.

(** ** Values *)
Lemma nth_vset vs i v j : nth_error (vset vs i v) j =
  if Nat.eqb i j then match nth_error vs i with Some (Some _) => Some (Some v) | x => x end else nth_error vs j.
Proof.
  revert i j. induction vs as [|x vs IH]; intros [|i] [|j]; cbn; try reflexivity.
  - destruct (Nat.eqb i j); reflexivity.
  - destruct x; reflexivity.
  - apply IH.
Qed.
Lemma vset_length vs i v : length (vset vs i v) = length vs.
Proof. revert i. induction vs as [|x vs IH]; intros [|i]; cbn; auto. Qed.
Lemma keep_In {A} (l : list (option A)) x : In x (keep l) <-> In (Some x) l.
Proof. induction l as [|[y|] l IH]; cbn; [reflexivity| |]; rewrite IH; intuition congruence. Qed.
Lemma py_min_spec l : (forall w, py_min l = Ok w -> In w l /\ forall x, In x l -> (w <= x)%Q) /\ (l <> [] -> exists w, py_min l = Ok w).
Proof.
  destruct l as [|x t]; cbn [py_min]; [split; [discriminate|congruence]|]. split; [|eauto]. intros w E. injection E as <-.
  revert x. induction t as [|y t IH]; intros x; cbn [fold_left].
  - split; [left; reflexivity|]. intros z [<-|[]]. apply Qle_refl.
  - destruct (IH (if Qle_bool x y then x else y)) as [H1 H2]. destruct (Qle_bool x y) eqn:E.
    + apply Qle_bool_iff in E. split; [destruct H1 as [H1|H1]; [left; exact H1|right; right; exact H1]|].
      intros z [<-|[<-|H]]; [apply H2; left; reflexivity| |apply H2; right; exact H].
      apply Qle_trans with x; [apply H2; left; reflexivity|exact E].
    + assert (Q : (y <= x)%Q). { destruct (Qlt_le_dec y x) as [L|L]; [apply Qlt_le_weak; exact L|]. apply Qle_bool_iff in L. congruence. }
      split; [right; exact H1|]. intros z [<-|[<-|H]]; [|apply H2; left; reflexivity|apply H2; right; exact H].
      apply Qle_trans with y; [apply H2; left; reflexivity|exact Q].
Qed.
Lemma smallest_min ws w : py_min (keep ws) = Ok w -> smallest ws w.
Proof. intros E. destruct (proj1 (py_min_spec _) w E) as [H1 H2]. split; [apply keep_In; exact H1|]. intros x Hx. apply H2, keep_In, Hx. Qed.

Lemma bears_name es x y p : bears es x p -> bears es y p -> x = y.
Proof. intros [(i & Hi & Hx) _] [(j & Hj & Hy) _]. congruence. Qed.
Lemma reach_cons (R : string -> string -> Prop) u v : reach R u v -> u = v \/ exists c, R u c /\ reach R c v.
Proof.
  intros [n W]. induction W as [u|u v w n W IH Hr]; [left; reflexivity|]. right. destruct IH as [->|(c & Hc & Hv)].
  - exists w. split; [exact Hr|apply reach_refl].
  - exists c. split; [exact Hc|]. eapply reach_step; eauto.
Qed.
Lemma reach_of_cons (R : string -> string -> Prop) u c v : R u c -> reach R c v -> reach R u v.
Proof. intros H. apply reach_trans. eapply reach_step; [apply reach_refl|exact H]. Qed.

Section Recur.
Variable es : list elem.
Variable windings : nat -> res (list (option Q)).
Variable s : string.
Variable n : network.
Variable v0 : Q.
Hypothesis B : built es s n.
Hypothesis AN : all_named es.
Hypothesis NS : forall i, last_span es s s i -> e_cls i <> "PowerTransformer".
Notation d := (net_di n).

Definition okv (x : string) (w : Q) : Prop := exists o, fed_by es d s x o /\ gives es windings v0 o w.

(** The edge carries a transformer, or not. *)
Lemma edge_case y x :
  (exists i m, last_span es y x i /\ e_name i = Some (Some m) /\ edge_attr (net_graph n) y x = Some (mkEattr (e_cls i) (Some m) (length_or_zero i))) \/
  ((forall i, ~ last_span es y x i) /\ edge_attr (net_graph n) y x = None).
Proof.
  destruct (last_span_dec es y x) as [[i Hi]|No].
  - left. destruct (last_span_named _ _ _ _ AN Hi) as [m Hm]. exists i, m. split; [exact Hi|]. split; [exact Hm|].
    exact (build_graph_attr _ _ _ _ _ _ (b_graph _ _ _ B) Hi Hm).
  - right. split.
    + intros i (p & q & E & Hs & _). apply (No i); [rewrite E; apply in_app_iff; right; left; reflexivity|exact Hs].
    + apply (build_graph_no_attr _ _ _ _ (b_graph _ _ _ B)). intros i Hi. specialize (No i Hi). unfold span_or in No. tauto.
Qed.

Lemma new_value_ok y x v w : arc d y x -> okv y v -> new_value es windings n y x v = Ok w -> okv x w.
Proof.
  intros Ar (o & Fo & Go) E. unfold new_value in E. destruct (edge_case y x) as [(i & m & Hi & Hm & Ea)|[No Ea]]; rewrite Ea in E.
  - cbn [ea_cls ea_name] in E. destruct (String.eqb_spec (e_cls i) "PowerTransformer") as [Hc|Hc].
    + destruct (lookup es (Some m)) as [p|] eqn:L; cbn [of_opt bind] in E; [|discriminate]. destruct (windings p) as [ws|] eqn:W; cbn [bind] in E; [|discriminate].
      exists (Some i). split; [eapply fed_trafo; eauto|]. exists m, p, ws. split; [exact Hm|]. split; [apply lookup_spec; exact L|]. split; [exact W|]. apply smallest_min. exact E.
    + injection E as <-. exists o. split; [|exact Go]. eapply fed_through; eauto. intros j Hj. rewrite (last_span_fun _ _ _ _ _ Hj Hi). exact Hc.
  - injection E as <-. exists o. split; [|exact Go]. eapply fed_through; eauto. intros j Hj. exfalso. exact (No j Hj).
Qed.
Lemma new_value_source : new_value es windings n s s v0 = Ok v0.
Proof.
  unfold new_value. destruct (edge_case s s) as [(i & m & Hi & Hm & ->)|[_ ->]]; [|reflexivity]. cbn [ea_cls].
  destruct (String.eqb_spec (e_cls i) "PowerTransformer") as [Hc|]; [|reflexivity]. exfalso. exact (NS i Hi Hc).
Qed.
Lemma okv_source : okv s v0.
Proof. exists None. split; [constructor|reflexivity]. Qed.
Lemma new_value_total y x v : (forall i, last_span es y x i -> e_cls i = "PowerTransformer" -> rated es windings i) -> exists w, new_value es windings n y x v = Ok w.
Proof.
  intros R. unfold new_value. destruct (edge_case y x) as [(i & m & Hi & Hm & ->)|[No ->]]; [|eauto]. cbn [ea_cls ea_name].
  destruct (String.eqb_spec (e_cls i) "PowerTransformer") as [Hc|Hc]; [|eauto]. destruct (R i Hi Hc) as (m' & p & ws & w & Hm' & Hb & Hw & Hin).
  assert (m' = m) by congruence. subst m'. apply lookup_spec in Hb. rewrite Hb. cbn [of_opt bind]. rewrite Hw. cbn [bind].
  apply py_min_spec. intros Q. apply keep_In in Hin. rewrite Q in Hin. destruct Hin.
Qed.

Definition step_ok (S : string -> Prop) (vs vs' : volts) : Prop :=
  (forall i, nth_error vs' i = nth_error vs i \/
     exists x w old, S x /\ bears es x i /\ okv x w /\ nth_error vs i = Some (Some old) /\ nth_error vs' i = Some (Some (Some w))) /\
  (forall x, S x -> exists i, bears es x i /\ forall old, nth_error vs i = Some (Some old) -> exists w, okv x w /\ nth_error vs' i = Some (Some (Some w))).

Lemma step_trans S T vs vs1 vs2 : step_ok S vs vs1 -> step_ok T vs1 vs2 -> step_ok (fun x => S x \/ T x) vs vs2.
Proof.
  intros [H1 H2] [K1 K2]. split.
  - intros i. destruct (K1 i) as [E|(x & w & old & Sx & Bx & Ox & E1 & E2)].
    + destruct (H1 i) as [E'|(x & w & old & Sx & Bx & Ox & E1 & E2)]; [left; congruence|right; exists x, w, old]. rewrite E. auto 6.
    + right. destruct (H1 i) as [E'|(x' & w' & old' & Sx' & Bx' & Ox' & E1' & E2')].
      * exists x, w, old. rewrite E' in E1. auto 6.
      * exists x, w, old'. auto 6.
  - intros x [Hx|Hx].
    + destruct (H2 x Hx) as (i & Bi & Hi). exists i. split; [exact Bi|]. intros old Eo. destruct (Hi old Eo) as (w & Ow & E).
      destruct (K1 i) as [E'|(x' & w' & old' & Sx' & Bx' & Ox' & E1' & E2')]; [exists w; split; [exact Ow|congruence]|].
      assert (x' = x) by (eapply bears_name; eauto). subst x'. eauto.
    + destruct (K2 x Hx) as (i & Bi & Hi). exists i. split; [exact Bi|]. intros old Eo.
      destruct (H1 i) as [E'|(x' & w' & old' & Sx' & Bx' & Ox' & E1' & E2')]; [apply (Hi old); congruence|apply (Hi (Some w')); exact E2'].
Qed.
Lemma step_ext (S T : string -> Prop) vs vs' : (forall x, S x <-> T x) -> step_ok S vs vs' -> step_ok T vs vs'.
Proof.
  intros E [H1 H2]. split.
  - intros i. destruct (H1 i) as [H|(x & w & old & Sx & H)]; [auto|right; exists x, w, old; split; [apply E; exact Sx|exact H]].
  - intros x Hx. apply H2, E, Hx.
Qed.
Lemma step_refl vs : step_ok (fun _ => False) vs vs.
Proof. split; [auto|intros x []]. Qed.
Lemma step_one x i w vs : bears es x i -> okv x w -> step_ok (fun y => y = x) vs (vset vs i (Some w)).
Proof.
  intros Bx Ox. split.
  - intros j. rewrite nth_vset. destruct (Nat.eqb_spec i j) as [<-|]; [|auto]. destruct (nth_error vs i) as [[old|]|] eqn:E; auto. right. exists x, w, old. auto 6.
  - intros y ->. exists i. split; [exact Bx|]. intros old E. exists w. split; [exact Ox|]. rewrite nth_vset, Nat.eqb_refl, E. reflexivity.
Qed.

Lemma succ_arcs v l : succ d v = Ok l -> forall c, In c l <-> arc d v c.
Proof.
  unfold succ. destruct (smem v (d_nodes d)); [|discriminate]. intros E. injection E as <-. intros c. unfold successors. rewrite in_map_iff. split.
  - intros ([[a b] at_] & <- & H). apply filter_In in H. destruct H as [H Q]. cbn in *. apply String.eqb_eq in Q. subst a. exists at_. exact H.
  - intros [at_ H]. exists (v, c, at_). split; [reflexivity|]. apply filter_In. split; [exact H|]. cbn. apply String.eqb_refl.
Qed.

Lemma recur_ok fuel : forall node v prev vs vs', (prev = s /\ node = s /\ v = v0) \/ (arc d prev node /\ okv prev v) ->
  recur es windings fuel n node v prev vs = Ok vs' -> step_ok (fun x => reach (arc d) node x) vs vs'.
Proof.
  induction fuel as [|fuel IH]; intros node v prev vs vs' C E; cbn [recur] in E; [discriminate|].
  destruct (new_value es windings n prev node v) as [w|] eqn:N; cbn [bind] in E; [|discriminate].
  assert (Ow : okv node w).
  { destruct C as [(-> & -> & ->)|[Ar Op]]; [rewrite new_value_source in N; injection N as <-; apply okv_source|eapply new_value_ok; eauto]. }
  destruct (lookup es (Some node)) as [i|] eqn:L; cbn [of_opt bind] in E; [|discriminate]. apply lookup_spec in L.
  destruct (succ d node) as [cs|] eqn:Sc; cbn [bind] in E; [|discriminate]. assert (A := succ_arcs _ _ Sc).
  assert (F : forall cs vs1 vs2, (forall c, In c cs -> arc d node c) -> foldM (fun vs c => recur es windings fuel n c w node vs) cs vs1 = Ok vs2 ->
                step_ok (fun x => exists c, In c cs /\ reach (arc d) c x) vs1 vs2).
  { clear E Sc A. intros ks. induction ks as [|c ks IHk]; intros vs1 vs2 Hc E; cbn [foldM] in E.
    - injection E as <-. eapply step_ext; [|apply step_refl]. intros x. split; [intros []|intros (c & [] & _)].
    - destruct (recur es windings fuel n c w node vs1) as [vsm|] eqn:R; [|discriminate].
      apply IH in R; [|right; split; [apply Hc; left; reflexivity|exact Ow]]. apply IHk in E; [|intros k Hk; apply Hc; right; exact Hk].
      eapply step_ext; [|eapply step_trans; [exact R|exact E]]. intros x. cbn beta. split.
      + intros [H|(k & Hk & H)]; [exists c; split; [left; reflexivity|exact H]|exists k; split; [right; exact Hk|exact H]].
      + intros (k & [<-|Hk] & H); [left; exact H|right; exists k; auto]. }
  apply F in E; [|intros c Hc; apply A; exact Hc].
  eapply step_ext; [|eapply step_trans; [apply (step_one node i w); [exact L|exact Ow]|exact E]]. intros x. cbn beta. split.
  - intros [->|(c & Hc & H)]; [apply reach_refl|]. eapply reach_of_cons; [apply A; exact Hc|exact H].
  - intros H. apply reach_cons in H. destruct H as [<-|(c & Hc & H)]; [left; reflexivity|right; exists c; split; [apply A; exact Hc|exact H]].
Qed.

(** Success: enough fuel, all nodes are objects, all transformers are rated. *)
Hypothesis Objs : forall x, reach (arc d) s x -> exists p, bears es x p.
Hypothesis Rated : forall y x i, arc d y x -> last_span es y x i -> e_cls i = "PowerTransformer" -> rated es windings i.
Hypothesis SrcNode : In s (d_nodes d).

Lemma recur_total fuel : forall node v prev vs k, (prev = s /\ node = s /\ v = v0) \/ arc d prev node ->
  reach (arc d) s node -> dist (linked es) s node k -> length (d_nodes d) < k + fuel ->
  exists vs', recur es windings fuel n node v prev vs = Ok vs'.
Proof.
  induction fuel as [|fuel IH]; intros node v prev vs k C Rn D Hk.
  - exfalso. assert (Q := d_node_dist_bound _ _ _ _ _ B D). lia.
  - cbn [recur]. assert (N : exists w, new_value es windings n prev node v = Ok w).
    { destruct C as [(-> & -> & ->)|Ar]; [rewrite new_value_source; eauto|]. apply new_value_total. intros i Hi Hc. eapply Rated; eauto. }
    destruct N as [w ->]. cbn [bind]. destruct (Objs node Rn) as [p Hp]. apply lookup_spec in Hp. rewrite Hp. cbn [of_opt bind].
    assert (Hn : In node (d_nodes d)).
    { destruct C as [(_ & -> & _)|Ar]; [exact SrcNode|]. apply (b_nodes _ _ _ B). exists prev. right. exact Ar. }
    assert (Sc : exists cs, succ d node = Ok cs) by (unfold succ; rewrite (proj2 (smem_In _ _) Hn); eauto). destruct Sc as [cs Sc]. rewrite Sc. cbn [bind].
    assert (A := succ_arcs _ _ Sc). generalize (vset vs p (Some w)). assert (H : forall c, In c cs -> arc d node c) by (intros c Hc; apply A; exact Hc).
    clear Sc A. induction cs as [|c cs IHc]; intros vs1; cbn [foldM]; [eauto|].
    destruct (IH c w node vs1 (S k)) as [vs2 E2].
    + right. apply H. left. reflexivity.
    + eapply reach_step; [exact Rn|]. apply H. left. reflexivity.
    + destruct (b_arc _ _ _ B node c) as (_ & k' & D1 & D2); [apply H; left; reflexivity|]. rewrite (dist_fun _ _ _ _ _ D D1). exact D2.
    + lia.
    + rewrite E2. apply IHc. intros x Hx. apply H. right. exact Hx.
Qed.
End Recur.


Lemma fed_fun es s n x o o' : built es s n -> fed_by es (net_di n) s x o -> fed_by es (net_di n) s x o' -> o = o'.
Proof.
  intros B F. revert o'. induction F as [|y x o i F IH Ar Li Ci|y x o F IH Ar Nt]; intros o' F'.
  - inversion F' as [|y x o1 i F1 Ar' Li' Ci'|y x o1 F1 Ar' Nt']; subst; [reflexivity| |]; exfalso; exact (built_no_pred_source _ _ _ _ B Ar').
  - inversion F' as [|y' x1 o1 i' F1 Ar' Li' Ci'|y' x1 o1 F1 Ar' Nt']; subst; [exfalso; exact (built_no_pred_source _ _ _ _ B Ar)| |]; pose proof (b_one _ _ _ B _ _ _ Ar Ar'); subst y'.
    + f_equal. eapply last_span_fun; eauto.
    + exfalso. exact (Nt' i Li Ci).
  - inversion F' as [|y' x1 o1 i' F1 Ar' Li' Ci'|y' x1 o1 F1 Ar' Nt']; subst; [exfalso; exact (built_no_pred_source _ _ _ _ B Ar)| |]; pose proof (b_one _ _ _ B _ _ _ Ar Ar'); subst y'.
    + exfalso. exact (Nt i' Li' Ci').
    + apply IH. exact F1.
Qed.

Lemma init_spec es srcs args m : modifier_init es srcs args = Ok m ->
  find_source srcs args = Ok (Some (m_source m)) /\ m_voltage m = source_voltage srcs /\ build es (m_source m) = Ok (m_net m).
Proof.
  unfold modifier_init. intros E. destruct (find_source srcs args) as [[s|]|]; cbn [bind] in E; try discriminate.
  destruct (build es s) as [n|] eqn:Bn; cbn [bind] in E; [|discriminate]. injection E as <-. auto.
Qed.

Lemma voltages_spec es windings srcs args m v0 fuel vs vs' : modifier_init es srcs args = Ok m -> m_voltage m = Some v0 -> all_named es ->
  (forall i, last_span es (m_source m) (m_source m) i -> e_cls i <> "PowerTransformer") ->
  set_nominal_voltages_recur es windings fuel m vs = Ok vs' ->
  (forall x, reach (linked es) (m_source m) x -> exists i, bears es x i /\ forall old, nth_error vs i = Some (Some old) ->
     exists o w, fed_by es (net_di (m_net m)) (m_source m) x o /\ (forall o', fed_by es (net_di (m_net m)) (m_source m) x o' -> o' = o) /\
       gives es windings v0 o w /\ nth_error vs' i = Some (Some (Some w))) /\
  (forall i, (forall x, reach (linked es) (m_source m) x -> ~ bears es x i) -> nth_error vs' i = nth_error vs i) /\
  (forall i, nth_error vs i = Some None <-> nth_error vs' i = Some None) /\ length vs' = length vs.
Proof.
  intros Hi Hv AN NS E. destruct (init_spec _ _ _ _ Hi) as (_ & _ & Bn). apply build_built in Bn. unfold set_nominal_voltages_recur in E. rewrite Hv in E. cbn [of_opt bind] in E.
  apply (recur_ok _ _ _ _ v0 Bn AN NS) in E; [|left; auto]. destruct E as [E1 E2].
  assert (R : forall x, reach (arc (net_di (m_net m))) (m_source m) x <-> reach (linked es) (m_source m) x) by (intros x; apply (built_reach _ _ _ _ Bn)).
  split; [|split; [|split]].
  - intros x Hx. destruct (E2 x (proj2 (R x) Hx)) as (i & Bi & Hold). exists i. split; [exact Bi|]. intros old Ho.
    destruct (Hold old Ho) as (w & (o & F & G) & E). exists o, w. split; [exact F|]. split; [intros o' F'; eapply fed_fun; eauto|auto].
  - intros i Hn. destruct (E1 i) as [E|(x & w & old & Sx & Bx & _)]; [exact E|]. exfalso. exact (Hn x (proj1 (R x) Sx) Bx).
  - intros i. destruct (E1 i) as [->|(x & w & old & _ & _ & _ & -> & ->)]; [reflexivity|]. split; discriminate.
  - assert (L : forall i, nth_error vs' i = None <-> nth_error vs i = None).
    { intros i. destruct (E1 i) as [->|(x & w & old & _ & _ & _ & -> & ->)]; [reflexivity|]. split; discriminate. }
    assert (L1 := L (length vs)). assert (L2 := L (length vs')). rewrite !nth_error_None in L1, L2. lia.
Qed.

Lemma voltages_total es windings srcs args m v0 vs : modifier_init es srcs args = Ok m -> m_voltage m = Some v0 -> all_named es ->
  (forall i, last_span es (m_source m) (m_source m) i -> e_cls i <> "PowerTransformer") ->
  (exists y, linked es (m_source m) y /\ y <> m_source m) ->
  (forall x, reach (linked es) (m_source m) x -> exists p, bears es x p) ->
  (forall y x i, arc (net_di (m_net m)) y x -> last_span es y x i -> e_cls i = "PowerTransformer" -> rated es windings i) ->
  exists vs', set_nominal_voltages_recur es windings (S (length (d_nodes (net_di (m_net m))))) m vs = Ok vs'.
Proof.
  intros Hi Hv AN NS (y & Hy & Ny) Ob Ra. destruct (init_spec _ _ _ _ Hi) as (_ & _ & Bn). apply build_built in Bn. unfold set_nominal_voltages_recur. rewrite Hv. cbn [of_opt bind].
  apply (recur_total _ _ _ _ v0 Bn AN NS) with (k := 0).
  - intros x Hx. apply Ob. apply (built_reach _ _ _ _ Bn). exact Hx.
  - exact Ra.
  - destruct (b_all _ _ _ Bn y) as [u Hu]; [eapply reach_step; [apply reach_refl|exact Hy]|exact Ny|].
    assert (Rs : reach (arc (net_di (m_net m))) (m_source m) y) by (apply (built_reach _ _ _ _ Bn); eapply reach_step; [apply reach_refl|exact Hy]).
    apply reach_cons in Rs. destruct Rs as [Es|(c & Hc & _)]; [exfalso; apply Ny; symmetry; exact Es|]. apply (b_nodes _ _ _ Bn). exists c. left. exact Hc.
  - left. auto.
  - apply reach_refl.
  - split; [constructor|]. intros; lia.
  - cbn. lia.
Qed.

(** ** Lines *)
Lemma lines_spec es : forall L vs, NoDup (map fst L) ->
  (forall vs', foldM (line_step es) L vs = Ok vs' ->
     length vs' = length vs /\
     (forall i, (forall e, In (i, e) L -> e_cls e = "Line" -> volt vs i = None -> e_from e = None) -> nth_error vs' i = nth_error vs i) /\
     (forall i e f, In (i, e) L -> e_cls e = "Line" -> volt vs i = None -> e_from e = Some f ->
        exists p, lookup es (Some f) = Some p /\ ((forall e', In (p, e') L -> e_cls e' <> "Line") -> nth_error vs' i = nth_error (vset vs i (volt vs p)) i))) /\
  ((forall i e f, In (i, e) L -> e_cls e = "Line" -> volt vs i = None -> e_from e = Some f -> lookup es (Some f) <> None) -> exists vs', foldM (line_step es) L vs = Ok vs').
Proof.
  assert (V : forall vs i v j, i <> j -> volt (vset vs i v) j = volt vs j).
  { intros vs i v j N. unfold volt. rewrite nth_vset. destruct (Nat.eqb_spec i j); [contradiction|reflexivity]. }
  induction L as [|[i e] L IH]; intros vs ND; cbn [foldM].
  - split; [|intros _; eauto]. intros vs' E. injection E as <-. split; [reflexivity|]. split; [reflexivity|]. intros i e f [].
  - cbn [map fst] in ND. apply NoDup_cons_iff in ND. destruct ND as [Ni ND].
    assert (Nin : forall e', ~ In (i, e') L) by (intros e' H; apply Ni; apply in_map_iff; exists (i, e'); auto).
    assert (St : (line_step es vs (i, e) = Ok vs /\ (e_cls e = "Line" -> volt vs i = None -> e_from e = None)) \/
                 (exists f, e_cls e = "Line" /\ volt vs i = None /\ e_from e = Some f /\
                    ((lookup es (Some f) = None /\ line_step es vs (i, e) = Err EKey) \/
                     (exists p, lookup es (Some f) = Some p /\ exists vs1, line_step es vs (i, e) = Ok vs1 /\ vs1 = vset vs i (volt vs p))))).
    { unfold line_step. destruct (String.eqb_spec (e_cls e) "Line") as [C|C]; [|left; split; [reflexivity|congruence]].
      destruct (volt vs i) as [q|] eqn:Vi; [left; split; [reflexivity|discriminate]|]. destruct (e_from e) as [f|] eqn:F; [|left; auto].
      right. exists f. split; [exact C|]. split; [reflexivity|]. split; [reflexivity|]. destruct (lookup es (Some f)) as [p|]; cbn [of_opt bind]; [|left; auto].
      right. exists p. split; [reflexivity|]. destruct (volt vs p) as [q|]; [eexists; split; reflexivity|]. exists vs. split; [reflexivity|].
      clear - Vi. unfold volt in Vi. revert i Vi. induction vs as [|x vs IHv]; intros [|i] Vi; cbn in *; try reflexivity; [destruct x; congruence|]. f_equal. apply IHv. exact Vi. }
    destruct St as [[-> HU]|(f & C & Vi & F & [(Lk & ->)|(p & Lk & vs1 & -> & Ev)])].
    + destruct (IH vs ND) as [I1 I2]. split.
      * intros vs' E. destruct (I1 vs' E) as (J0 & J1 & J2). split; [exact J0|]. split.
        { intros j H. apply J1. intros e' He. apply H. right. exact He. }
        { intros j e' f [H|H] C Vj Ff; [injection H as <- <-; rewrite HU in Ff by assumption; discriminate|].
          destruct (J2 j e' f H C Vj Ff) as (p & Lp & Hp). exists p. split; [exact Lp|]. intros Hn. apply Hp. intros e1 H1. apply Hn. right. exact H1. }
      * intros H. apply I2. intros j e' f Hj. apply H. right. exact Hj.
    + split; [discriminate|]. intros H. exfalso. apply (H i e f); auto. left. reflexivity.
    + subst vs1. destruct (IH (vset vs i (volt vs p)) ND) as [I1 I2]. split.
      * intros vs' E. destruct (I1 vs' E) as (J0 & J1 & J2). split; [rewrite J0; apply vset_length|]. split.
        { intros j H. destruct (Nat.eq_dec i j) as [<-|Nij]; [rewrite (H e (or_introl eq_refl) C Vi) in F; discriminate|].
          rewrite J1; [rewrite nth_vset; destruct (Nat.eqb_spec i j); [contradiction|reflexivity]|]. intros e' He C' V'. rewrite V in V' by exact Nij.
          apply H; auto. right. exact He. }
        { intros j e' f' [H|H] C' Vj Ff.
          - injection H as <- <-. assert (f' = f) by congruence. subst f'. exists p. split; [exact Lk|]. intros _. apply J1. intros e1 H1. exfalso. exact (Nin e1 H1).
          - assert (Nij : i <> j) by (intros <-; exact (Nin e' H)). destruct (J2 j e' f' H C' (eq_trans (V _ _ _ _ Nij) Vj) Ff) as (p' & Lp & Hp). exists p'. split; [exact Lp|].
            intros Hn. rewrite Hp by (intros e1 H1; apply Hn; right; exact H1).
            assert (Nip : i <> p') by (intros <-; apply (Hn e); [left; reflexivity|exact C]). rewrite (V vs i _ p' Nip). rewrite !nth_vset, !Nat.eqb_refl.
            destruct (Nat.eqb_spec i j); [contradiction|reflexivity]. }
      * intros H. apply I2. intros j e' f' Hj C' Vj. assert (Nij : i <> j) by (intros <-; exact (Nin e' Hj)). rewrite V in Vj by exact Nij. apply (H j e'); auto. right. exact Hj.
Qed.

Lemma combine_seq_In {A} (l : list A) : forall k i e, In (i, e) (combine (seq k (length l)) l) <-> k <= i /\ nth_error l (i - k) = Some e.
Proof.
  induction l as [|x l IH]; intros k i e; cbn [length seq combine In].
  - split; [intros []|]. intros [_ H]. destruct (i - k); discriminate.
  - rewrite IH. split.
    + intros [E|[H1 H2]]; [injection E as <- <-; rewrite Nat.sub_diag; split; [lia|reflexivity]|]. split; [lia|]. replace (i - k) with (S (i - S k)) by lia. exact H2.
    + intros [H1 H2]. destruct (Nat.eq_dec k i) as [<-|N]; [rewrite Nat.sub_diag in H2; cbn in H2; left; congruence|]. right. split; [lia|].
      replace (i - k) with (S (i - S k)) in H2 by lia. exact H2.
Qed.
Lemma combine_seq_fst {A} (l : list A) : forall k, map fst (combine (seq k (length l)) l) = seq k (length l).
Proof. induction l as [|x l IH]; intros k; cbn; [reflexivity|]. f_equal. apply IH. Qed.

Lemma line_voltages_spec es vs :
  (forall vs', set_nominal_voltages_recur_line es vs = Ok vs' ->
     length vs' = length vs /\
     (forall i, (forall e, nth_error es i = Some e -> e_cls e = "Line" -> volt vs i = None -> e_from e = None) -> nth_error vs' i = nth_error vs i) /\
     (forall i e f, nth_error es i = Some e -> e_cls e = "Line" -> nth_error vs i = Some (Some None) -> e_from e = Some f ->
        exists p, bears es f p /\ ((forall e', nth_error es p = Some e' -> e_cls e' <> "Line") -> nth_error vs' i = Some (Some (volt vs p))))) /\
  ((exists vs', set_nominal_voltages_recur_line es vs = Ok vs') <->
   (forall i e f, nth_error es i = Some e -> e_cls e = "Line" -> volt vs i = None -> e_from e = Some f -> exists p, bears es f p)).
Proof.
  destruct (lines_spec es (combine (seq 0 (length es)) es) vs) as [L1 L2]; [rewrite combine_seq_fst; apply seq_NoDup|].
  assert (I : forall i e, In (i, e) (combine (seq 0 (length es)) es) <-> nth_error es i = Some e).
  { intros i e. rewrite combine_seq_In, Nat.sub_0_r. split; [tauto|]. intros H. split; [lia|exact H]. }
  split.
  - intros vs' E. destruct (L1 vs' E) as (J0 & J1 & J2). split; [exact J0|]. split.
    + intros i H. apply J1. intros e He. apply H, I, He.
    + intros i e f He C Vi F. destruct (J2 i e f) as (p & Lp & Hp); [apply I; exact He|exact C|unfold volt; rewrite Vi; reflexivity|exact F|].
      exists p. split; [apply lookup_spec; exact Lp|]. intros Hn. rewrite Hp; [rewrite nth_vset, Nat.eqb_refl, Vi; reflexivity|]. intros e' He'. apply Hn, I, He'.
  - split.
    + intros [vs' E] i e f He C Vi F. destruct (L1 vs' E) as (_ & _ & J2). destruct (J2 i e f) as (p & Lp & _); [apply I; exact He|exact C|exact Vi|exact F|].
      exists p. apply lookup_spec. exact Lp.
    + intros H. apply L2. intros i e f He C Vi F. destruct (H i e f) as [p Hp]; [apply I; exact He|exact C|exact Vi|exact F|]. apply lookup_spec in Hp. congruence.
Qed.

(** ** Construction *)
Lemma modifier_source es srcs args : length args <> 1 ->
  ((forall s, ~ bus_name srcs s) -> modifier_init es srcs args = Err EValue) /\
  (forall a b, bus_name srcs (Some a) -> bus_name srcs (Some b) -> a <> b -> ~ bus_name srcs None -> modifier_init es srcs args = Err EValue) /\
  (forall a b, bus_name srcs a -> bus_name srcs b -> a <> b -> exists e, modifier_init es srcs args = Err e) /\
  (forall a, bus_name srcs (Some a) -> (forall b, bus_name srcs b -> b = Some a) ->
     modifier_init es srcs args = do n <- build es a; Ok (mkModifier a (source_voltage srcs) n)) /\
  (forall m, modifier_init es srcs args = Ok m -> bus_name srcs (Some (m_source m)) /\ forall b, bus_name srcs b -> b = Some (m_source m)).
Proof.
  intros L. destruct (find_source_spec srcs args L) as (F1 & F2 & F3 & F4). split; [|split; [|split; [|split]]].
  - intros H. unfold modifier_init. rewrite (F2 H). reflexivity.
  - intros a b Ha Hb N NN. unfold modifier_init. rewrite (F4 a b Ha Hb N NN). reflexivity.
  - intros a b Ha Hb N. destruct (F3 a b Ha Hb N) as [e He]. exists e. unfold modifier_init. rewrite He. reflexivity.
  - intros a Ha U. unfold modifier_init. rewrite (proj2 (F1 (Some a))); [reflexivity|]. split; [exact Ha|]. split; [exact U|discriminate].
  - intros m E. destruct (init_spec _ _ _ _ E) as (Fs & _ & _). apply F1 in Fs. destruct Fs as (H1 & H2 & _). auto.
Qed.
Lemma modifier_given es srcs a : modifier_init es srcs [a] = do n <- build es a; Ok (mkModifier a (source_voltage srcs) n).
Proof. reflexivity. Qed.

(** ** A concrete network *)
Definition xsrcs : list source_obj := [mkSource (Some "s") true (Some 12470%Q); mkSource (Some "z") false None; mkSource (Some "s") true (Some 7200%Q)].
Definition xwind (p : nat) : res (list (option Q)) := if Nat.eqb p 7 then Ok [Some 7200%Q; None; Some 240%Q] else Err EAttr.
Definition xvolts : volts := [Some None; Some None; Some None; None; Some (Some 1%Q); Some None; Some None; None; Some None; Some (Some 3%Q); Some None; Some None].
Definition xres : volts := [Some (Some 7200%Q); Some (Some 7200%Q); Some (Some 240%Q); None; Some (Some 240%Q); Some None; Some None; None; Some None; Some (Some 3%Q); Some None; Some (Some 240%Q)].
Definition xmod : modifier := mkModifier "s" (Some 7200%Q) xnet.
Lemma xmod_init : modifier_init xes xsrcs [] = Ok xmod.
Proof. vm_compute. reflexivity. Qed.
Lemma xes_no_loop i : last_span xes "s" "s" i -> e_cls i <> "PowerTransformer".
Proof.
  intros (p & q & E & Hs & _). assert (H : In i xes) by (rewrite E; apply in_app_iff; right; left; reflexivity). clear E.
  unfold xes in H. cbn [In] in H. repeat (destruct H as [<-|H]; [try (intros Q; discriminate Q); destruct Hs as [[H1 H2]|[H1 H2]]; discriminate|]). destruct H.
Qed.
