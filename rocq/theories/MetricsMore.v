(** Customers, loads by number of phases, overloaded transformers and rated power. *)
From Verif Require Import Base BaseFacts StoreModel NetworkModel NetworkSpec CenterTapModel CenterTapSpec CenterTapProofs MetricsModel MetricsSpec MetricsProofs MetricsLines MetricsLoads.
From Coq Require Import QArith Qabs Lqa Lia.
Local Open Scope string_scope.
Local Open Scope nat_scope.
Local Open Scope list_scope.

Lemma py_max_spec l m p : py_max l = Ok m -> ((m < p)%Q <-> forall x, In x l -> (x < p)%Q).
Proof.
  destruct l as [|x r]; cbn [py_max]; [discriminate|]. intros E. injection E as <-.
  assert (H : forall r x, (fold_left (fun m y => if Qlt_b m y then y else m) r x < p)%Q <-> (x < p)%Q /\ forall y, In y r -> (y < p)%Q).
  { clear. induction r as [|y r IH]; intros x; cbn [fold_left]; [split; [intros H; split; [exact H|intros ? []]|tauto]|]. rewrite IH. destruct (Qlt_b x y) eqn:L.
    - apply Qlt_spec in L. split; [intros [H H']; split; [lra|intros z [<-|Hz]; auto]|intros [H H']; split; [apply H'; left; reflexivity|intros z Hz; apply H'; right; exact Hz]].
    - assert (L' : (y <= x)%Q) by (destruct (Qlt_le_dec x y) as [C|C]; [apply Qlt_spec in C; congruence|exact C]).
      split; [intros [H H']; split; [exact H|intros z [<-|Hz]; [lra|auto]]|intros [H H']; split; [exact H|intros z Hz; apply H'; right; exact Hz]]. }
  rewrite H. split; [intros [H1 H2] y [<-|Hy]; auto|intros H'; split; [apply H'; left; reflexivity|intros y Hy; apply H'; right; exact Hy]].
Qed.
Lemma some_only_In (l : list winding) x : In x (some_only (map wd_power l)) <-> exists w, In w l /\ wd_power w = Some x.
Proof.
  unfold some_only. rewrite in_flat_map. split.
  - intros (y & Hy & Hx). apply in_map_iff in Hy. destruct Hy as (w & <- & Hw). exists w. split; [exact Hw|]. destruct (wd_power w); [destruct Hx as [->|[]]; reflexivity|destruct Hx].
  - intros (w & Hw & E). exists (Some x). split; [apply in_map_iff; exists w; auto|left; reflexivity].
Qed.

Section More.
Variables (LV MV : Q) (by_transformers : bool) (feeder_name : string -> option (option string)) (power_behind : option string -> option Q).
Notation object_incs := (object_incs LV MV by_transformers feeder_name power_behind).
Notation a_load := MetricsSpec.a_load.

Lemma users_amount x l : load_incs LV MV by_transformers x = Ok l -> (amount "num_customers" l == val (mo_users x))%Q /\
  (amount "sum_distribution_transformer_mva" l == if by_transformers then 0 else val (mo_kva x) * micro)%Q.
Proof.
  unfold load_incs. destruct (demand_incs x) as [d|] eqn:D; cbn [bind]; [|discriminate]. intros E. injection E as <-. rewrite !amount_app.
  rewrite !(amount_none "num_customers" d _ (fun i => demand_keys x d i D)), !(amount_none "sum_distribution_transformer_mva" d _ (fun i => demand_keys x d i D)) by reflexivity.
  rewrite !(amount_none "num_customers" (level_incs LV MV x) _ (fun i => level_keys LV MV x i)), !(amount_none "sum_distribution_transformer_mva" (level_incs LV MV x) _ (fun i => level_keys LV MV x i)) by reflexivity.
  split; destruct (mo_users x), (mo_kva x), by_transformers; cbn; ring.
Qed.
Lemma load_case o : (exists x, mb_body o = Load x) \/ forall x, mb_body o <> Load x.
Proof. destruct (mb_body o); eauto; right; discriminate. Qed.
Lemma serves_amount o l : object_incs o = Ok l -> yes serves o (amount "num_customers" l).
Proof.
  intros E. destruct (load_case o) as [[x B]|N].
  - unfold MetricsModel.object_incs in E. rewrite B in E. destruct (users_amount _ _ E) as [A _]. eapply yes_ext; [|exact A]. destruct (mo_users x) as [u|] eqn:U; cbn [val].
    + left. exists u. split; [exists x; auto|reflexivity].
    + right. split; [|reflexivity]. intros q (y & C & H). assert (y = x) by congruence. subst. congruence.
  - right. split; [intros q (y & C & _); exact (N _ C)|]. eapply other_amount; eauto; first [reflexivity|discriminate].
Qed.
Lemma number_live n pls : number (fun x => pl_drop x = false) pls (inject_Z (Z.of_nat n)) <-> length (live pls) = n.
Proof. unfold live. apply number_nat. intros x. apply negb_true_iff. Qed.

Lemma load_number V n k o l : (k = "num_lv_1ph_loads" /\ V = low LV /\ n = 1) \/ (k = "num_lv_3ph_loads" /\ V = low LV /\ n = 3) \/ (k = "num_mv_3ph_loads" /\ V = medium LV MV /\ n = 3) ->
  object_incs o = Ok l -> yes (fun o x => a_load V n o /\ x = 1%Q) o (amount k l).
Proof.
  intros K E. destruct (load_case o) as [[x B]|N].
  2: { right. split; [intros q [(y & pls & C & _) _]; exact (N _ C)|]. eapply other_amount; eauto; destruct K as [(-> & _)|[(-> & _)|(-> & _)]]; first [reflexivity|discriminate]. }
  unfold MetricsModel.object_incs in E. rewrite B in E. destruct (load_split _ _ _ _ _ E) as (d & _ & _ & A).
  eapply yes_ext; [|apply A; destruct K as [(-> & _)|[(-> & _)|(-> & _)]]; reflexivity].
  assert (AL : a_load V n o <-> V (mo_volt x) /\ exists pls, mo_phases x = Some pls /\ length (live pls) = n).
  { split; [intros (y & pls & C & Hv & Hp & Hn); assert (y = x) by congruence; subst; split; [exact Hv|exists pls; split; [exact Hp|apply number_live; exact Hn]]|].
    intros (Hv & pls & Hp & Hn). exists x, pls. split; [exact B|]. split; [exact Hv|]. split; [exact Hp|apply number_live; exact Hn]. }
  assert (No : ~ a_load V n o -> yes (fun o x => a_load V n o /\ x = 1%Q) o 0%Q) by (intros H; right; split; [intros q [C _]; contradiction|reflexivity]).
  assert (Ye : a_load V n o -> yes (fun o x => a_load V n o /\ x = 1%Q) o 1%Q) by (intros H; left; exists 1%Q; split; [auto|reflexivity]).
  assert (Go : forall b v, (b = true <-> a_load V n o) -> (v == if b then 1 else 0)%Q -> yes (fun o x => a_load V n o /\ x = 1%Q) o v).
  { intros b v Hb Hv. eapply yes_ext; [|exact Hv]. destruct b; [apply Ye, Hb; reflexivity|apply No; intros C; apply Hb in C; discriminate]. }
  unfold level_incs. destruct (mo_volt x) as [v|] eqn:Ev.
  2: { apply No. rewrite AL. intros [C _]. destruct K as [(_ & -> & _)|[(_ & -> & _)|(_ & -> & _)]]; destruct C as (y & C & _); discriminate. }
  destruct (mo_phases x) as [pls|] eqn:Ep; [|apply No; rewrite AL; intros [_ (pls & C & _)]; discriminate].
  assert (AL' : a_load V n o <-> V (Some v) /\ length (live pls) = n) by (rewrite AL; split; [intros (H & y & E' & H'); injection E' as <-; auto|intros []; eauto]). clear AL.
  assert (LW : low LV (Some v) <-> Qle_bool (v * sqrt3) LV = true) by (rewrite Qle_spec; split; [intros (y & C & H); injection C as <-; exact H|intros H; exists v; auto]).
  assert (MD : medium LV MV (Some v) <-> Qlt_b (v * sqrt3) MV && Qlt_b LV (v * sqrt3) = true) by (rewrite andb_true_iff, !Qlt_spec; split; [intros (y & C & H1 & H2); injection C as <-; auto|intros []; exists v; auto]).
  destruct (Qle_bool (v * sqrt3) LV) eqn:EL.
  - destruct K as [(-> & -> & ->)|[(-> & -> & ->)|(-> & -> & ->)]].
    + apply (Go (Nat.eqb (length (live pls)) 1)); [rewrite AL', LW, Nat.eqb_eq; tauto|]. rewrite amount_app, (amount_none _ (phase_incs _ _ _ _) _ (phase_incs_keys _ _ _ _)) by reflexivity. destruct (length (live pls)) as [|[|[|[|m]]]]; reflexivity.
    + apply (Go (Nat.eqb (length (live pls)) 3)); [rewrite AL', LW, Nat.eqb_eq; tauto|]. rewrite amount_app, (amount_none _ (phase_incs _ _ _ _) _ (phase_incs_keys _ _ _ _)) by reflexivity. destruct (length (live pls)) as [|[|[|[|m]]]]; reflexivity.
    + eapply yes_ext; [apply No|].
      * rewrite AL'. intros [C _]. assert (L : low LV (Some v)) by (apply LW; reflexivity). exact (low_not_medium _ _ _ L C).
      * rewrite amount_app, (amount_none _ (phase_incs _ _ _ _) _ (phase_incs_keys _ _ _ _)) by reflexivity. destruct (length (live pls)) as [|[|[|[|m]]]]; reflexivity.
  - destruct (Qlt_b (v * sqrt3) MV && Qlt_b LV (v * sqrt3)) eqn:EM.
    + destruct K as [(-> & -> & ->)|[(-> & -> & ->)|(-> & -> & ->)]].
      * eapply yes_ext; [apply No; rewrite AL', LW; intros []; discriminate|]. rewrite amount_when, andb_false_r. reflexivity.
      * eapply yes_ext; [apply No; rewrite AL', LW; intros []; discriminate|]. rewrite amount_when, andb_false_r. reflexivity.
      * apply (Go (Nat.eqb (length (live pls)) 3)); [rewrite AL', MD, Nat.eqb_eq; tauto|]. rewrite amount_when, andb_true_r. reflexivity.
    + apply No. rewrite AL'. destruct K as [(-> & -> & ->)|[(-> & -> & ->)|(-> & -> & ->)]]; rewrite ?LW, ?MD; intros []; discriminate.
Qed.

(** *** Transformers *)
Lemma not_trans k o l : (forall t, mb_body o <> Transformer t) -> k = "num_overloaded_transformers" -> object_incs o = Ok l -> (amount k l == 0)%Q.
Proof.
  intros N ->. unfold MetricsModel.object_incs. destruct (mb_body o) as [ln|x| | |t|] eqn:B; intros E.
  - destruct (line_cases _ _ _ _ _ E) as (ws & len & W & -> & C). rewrite amount_app, (amount_none _ (head_form feeder_name ln) head_keys); [|apply head_form_keys|reflexivity].
    destruct C as [[-> _]|(v & q & _ & _ & -> & [[-> _]|[-> _]])]; [reflexivity|rewrite (amount_none _ _ (len_keys "lv")); [ring|apply len_form_keys|reflexivity]|rewrite (amount_none _ _ (len_keys "mv")); [ring|apply len_form_keys|reflexivity]].
  - eapply amount_none; [intros i; eapply load_incs_keys; exact E|reflexivity].
  - injection E as <-. reflexivity.
  - injection E as <-. reflexivity.
  - exfalso. eapply N. reflexivity.
  - injection E as <-. reflexivity.
Qed.
Lemma kind_incs_keys t l i : kind_incs by_transformers t = Ok l -> In i l -> In (fst i) ["num_distribution_transformers"; "sum_distribution_transformer_mva"; "num_1ph_transformers"; "num_3ph_transformers"].
Proof.
  unfold kind_incs. destruct (mt_windings t) as [[|w r]|]; try (intros E; injection E as <-; intros []). destruct (wd_volt w); [|intros E; injection E as <-; intros []].
  destruct r as [|w' r]; [discriminate|]. destruct (wd_volt w'); [|intros E; injection E as <-; intros []]. intros E. injection E as <-. intros H. apply when_In in H.
  destruct H as [<-|H]; [cbn; auto|]. apply in_app_iff in H. destruct H as [H|H].
  - apply when_In in H. destruct (wd_power w); [destruct H as [<-|[]]; cbn; auto|destruct H].
  - destruct (wd_phases w) as [[|[|[|[|n]]]]|]; try destruct H as [<-|[]]; cbn; auto; destruct H.
Qed.
Lemma overload_amount o l : object_incs o = Ok l -> yes (fun o x => overloaded power_behind o /\ x = 1%Q) o (amount "num_overloaded_transformers" l).
Proof.
  intros E. assert (Case : (exists t, mb_body o = Transformer t) \/ forall t, mb_body o <> Transformer t) by (destruct (mb_body o); eauto; right; discriminate).
  destruct Case as [[t B]|N]; [|right; split; [intros q [(t & ws & p & C & _) _]; exact (N _ C)|eapply not_trans; eauto]].
  unfold MetricsModel.object_incs in E. rewrite B in E. destruct (overload_incs _ _ t) as [a|] eqn:Ea; cbn [bind] in E; [|discriminate]. destruct (kind_incs _ t) as [b|] eqn:Eb; cbn [bind] in E; [|discriminate]. injection E as <-.
  eapply yes_ext; [|rewrite amount_app, (amount_none _ b _ (fun i => kind_incs_keys t b i Eb)) by reflexivity; rewrite Qplus_0_r; reflexivity].
  unfold overload_incs in Ea. destruct (power_behind _) as [p|] eqn:Pb; [|injection Ea as <-; right; split; [intros q [(t' & ws & p & _ & _ & C & _) _]; congruence|reflexivity]].
  destruct (mt_windings t) as [ws|] eqn:W; [|discriminate]. destruct (py_max _) as [m|] eqn:M; cbn [bind] in Ea; [|discriminate]. injection Ea as <-.
  assert (Iff : overloaded power_behind o <-> (m < p)%Q).
  { rewrite (py_max_spec _ _ p M). split.
    - intros (t' & ws' & p' & C & C1 & C2 & H) x Hx. assert (t' = t) by congruence. subst t'. assert (ws' = ws) by congruence. subst ws'. assert (p' = p) by congruence. subst p'.
      apply some_only_In in Hx. destruct Hx as (w & Hw & Ew). eapply H; eauto.
    - intros H. exists t, ws, p. split; [exact B|]. split; [exact W|]. split; [exact Pb|]. intros w r Hw Er. apply H. apply some_only_In. eauto. }
  rewrite <- Qlt_spec in Iff. eapply yes_ext; [|rewrite amount_when; cbn [String.eqb Ascii.eqb Bool.eqb]; rewrite andb_true_r; reflexivity]. destruct (Qlt_b m p).
  - left. exists 1%Q. split; [|reflexivity]. split; [apply Iff; reflexivity|reflexivity].
  - right. split; [|reflexivity]. intros q [C _]. apply Iff in C. discriminate.
Qed.
Lemma rated_amount o l : object_incs o = Ok l -> yes (rated by_transformers) o (amount "sum_distribution_transformer_mva" l).
Proof.
  intros E. unfold MetricsModel.object_incs in E. unfold rated. destruct (mb_body o) as [ln|x| | |t|] eqn:B.
  - right. split; [destruct by_transformers; [intros q [(t & ? & ? & ? & ? & ? & C & _) _]; congruence|intros q (y & k & C & _); congruence]|].
    destruct (line_cases _ _ _ _ _ E) as (ws & len & W & -> & C). rewrite amount_app, (amount_none _ (head_form feeder_name ln) head_keys); [|apply head_form_keys|reflexivity].
    destruct C as [[-> _]|(v & q & _ & _ & -> & [[-> _]|[-> _]])]; [reflexivity|rewrite (amount_none _ _ (len_keys "lv")); [ring|apply len_form_keys|reflexivity]|rewrite (amount_none _ _ (len_keys "mv")); [ring|apply len_form_keys|reflexivity]].
  - destruct (users_amount _ _ E) as [_ A]. destruct by_transformers.
    + right. split; [intros q [(t & ? & ? & ? & ? & ? & C & _) _]; congruence|exact A].
    + eapply yes_ext; [|exact A]. destruct (mo_kva x) as [k|] eqn:K; cbn [val].
      * left. exists (k * micro)%Q. split; [exists x, k; split; [congruence|]; split; [exact K|reflexivity]|reflexivity].
      * right. split; [|ring]. intros q (y & k & C & C1 & _). assert (y = x) by congruence. subst. congruence.
  - right. split; [destruct by_transformers; [intros q [(t & ? & ? & ? & ? & ? & C & _) _]; congruence|intros q (y & k & C & _); congruence]|]. injection E as <-. reflexivity.
  - right. split; [destruct by_transformers; [intros q [(t & ? & ? & ? & ? & ? & C & _) _]; congruence|intros q (y & k & C & _); congruence]|]. injection E as <-. reflexivity.
  - destruct (overload_incs _ _ t) as [a|] eqn:Ea; cbn [bind] in E; [|discriminate]. destruct (kind_incs _ t) as [b|] eqn:Eb; cbn [bind] in E; [|discriminate]. injection E as <-.
    assert (A0 : (amount "sum_distribution_transformer_mva" a == 0)%Q).
    { clear - Ea. unfold overload_incs in Ea. destruct (power_behind _) as [tot|]; [|injection Ea as <-; reflexivity]. destruct (mt_windings t) as [ws|]; [|discriminate].
      destruct (py_max _) as [m|]; cbn [bind] in Ea; [|discriminate]. injection Ea as <-. rewrite amount_when, andb_false_r. reflexivity. }
    eapply yes_ext; [|rewrite amount_app, A0, Qplus_0_l; reflexivity]. unfold kind_incs in Eb.
    destruct by_transformers.
    2: { right. split; [intros q (y & k & C & _); congruence|]. destruct (mt_windings t) as [[|w r]|]; try (injection Eb as <-; reflexivity). destruct (wd_volt w) as [v|]; [|injection Eb as <-; reflexivity].
         destruct r as [|w' r]; [discriminate|]. destruct (wd_volt w') as [v'|]; injection Eb as <-; [|reflexivity]. destruct (negb _); [|reflexivity]. cbn [when app]. destruct (wd_phases w) as [[|[|[|[|n]]]]|]; reflexivity. }
    assert (ST : a_step None o <-> exists w w' r v v', mt_windings t = Some (w :: w' :: r) /\ wd_volt w = Some v /\ wd_volt w' = Some v' /\ ~ (v == v')%Q).
    { unfold a_step. split; [intros (t' & w & w' & r & v & v' & E1 & E2 & E3 & E4 & E5 & _); assert (t' = t) by congruence; subst; exists w, w', r, v, v'; auto|intros (w & w' & r & v & v' & H1 & H2 & H3 & H4); exists t, w, w', r, v, v'; split; [congruence|]; auto 6]. }
    assert (No : ~ a_step None o -> yes (rated true) o 0%Q) by (intros H; right; split; [intros q [C _]; contradiction|reflexivity]).
    change (yes (rated true) o (amount "sum_distribution_transformer_mva" b)).
    destruct (mt_windings t) as [[|w r]|] eqn:W; try (injection Eb as <-; apply No; rewrite ST; intros (? & ? & ? & ? & ? & C & _); discriminate).
    destruct (wd_volt w) as [v|] eqn:V; [|injection Eb as <-; apply No; rewrite ST; intros (? & ? & ? & ? & ? & C & C1 & _); congruence].
    destruct r as [|w' r]; [discriminate|]. destruct (wd_volt w') as [v'|] eqn:V'; [|injection Eb as <-; apply No; rewrite ST; intros (? & ? & ? & ? & ? & C & C1 & C2 & _); congruence].
    injection Eb as <-. destruct (Qeq_bool v v') eqn:Q1; cbn [negb when].
    + apply Qeq_bool_iff in Q1. apply No. rewrite ST. intros (a0 & b0 & c0 & v0 & v1 & C & C1 & C2 & C3). assert (a0 = w) by congruence. assert (b0 = w') by congruence. subst. assert (v0 = v) by congruence. assert (v1 = v') by congruence. subst. contradiction.
    + assert (Ne : ~ (v == v')%Q) by (intros C; apply Qeq_bool_iff in C; congruence). assert (As : a_step None o) by (apply ST; exists w, w', r, v, v'; auto).
      assert (Z : (amount "sum_distribution_transformer_mva" match wd_phases w with Some 1%nat => [("num_1ph_transformers", 1%Q)] | Some 3%nat => [("num_3ph_transformers", 1%Q)] | _ => [] end == 0)%Q) by (destruct (wd_phases w) as [[|[|[|[|n]]]]|]; reflexivity).
      eapply yes_ext; [|cbn [app amount when]; rewrite amount_app, Z; reflexivity]. destruct (wd_power w) as [p|] eqn:P.
      * left. exists (p * micro)%Q. split; [split; [exact As|]; exists t, w, (w' :: r), p; split; [exact B|]; split; [exact W|]; split; [exact P|reflexivity]|cbn; ring].
      * right. split; [|cbn; ring]. intros q [_ (t' & w0 & r0 & p & C & C1 & C2 & _)]. assert (t' = t) by congruence. subst. assert (w0 = w) by congruence. subst. congruence.
  - right. split; [destruct by_transformers; [intros q [(t & ? & ? & ? & ? & ? & C & _) _]; congruence|intros q (y & k & C & _); congruence]|]. injection E as <-. reflexivity.
Qed.
End More.
