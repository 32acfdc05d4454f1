(** C108: a switch of each feeder becomes a recloser. *)
From Verif Require Import Base BaseFacts StoreModel NetworkModel NetworkSpec NetworkProofs NetworkQueries NetworkDown NetworkTop VoltModel VoltSpec VoltProofs RecloserModel RecloserSpec RecloserProofs.
From Coq Require Import QArith Lia.
Local Open Scope string_scope.
Local Open Scope nat_scope.
Local Open Scope list_scope.

(** Feeder by feeder, the switch at the drawn depth is replaced, on the way that always takes the first successor. *)
Theorem C108_reclosers : forall es srcs args m draws st, modifier_init es srcs args = Ok m -> all_named es -> wired st -> length st = length es -> heads_ok es st -> (forall i, 1 <= draws i) ->
  exists st', replace_kth_switch_with_recloser es (m_net m) draws st = Ok st' /\ feeders_done es (net_di (m_net m)) draws 0 0 st None st'.
Proof.
  intros es srcs args m draws st I AN W L HO DR. destruct (init_spec _ _ _ _ I) as (_ & _ & B). apply build_built in B.
  apply (replace_ok es (m_source m) (m_net m) B AN draws DR es 0 0 st None None); try assumption; reflexivity.
Qed.
Print Assumptions C108_reclosers.

Lemma closed_member st k l p : nth_closed st k l p -> In p l /\ closed st p.
Proof. induction 1; cbn; intuition. Qed.
Lemma feeders_changes es d draws i k st lp st' : feeders_done es d draws i k st lp st' ->
  length st' = length st /\ forall p o, nth_error st p = Some o -> nth_error st' p = Some o \/ (closed st p /\ nth_error st' p = Some (recloser o)).
Proof.
  induction 1 as [k i st lp _|k i e st lp st' _ _ _ IH|k i e st lp st' _ _ _ _ IH|k i e h v st lp st1 lp1 st' _ _ _ _ _ FD _ [IL IH]]; try exact IH; [split; [reflexivity|]; now left|].
  destruct FD as (l & _ & [(q & NC & (L & O & o1 & E1 & E2) & _)|(_ & -> & _)]); [|now split]. split; [congruence|]. intros p o E.
  apply closed_member in NC. destruct NC as [_ NC]. destruct (Nat.eq_dec p q) as [->|N].
  - assert (o1 = o) by congruence. subst o1. destruct (IH q _ E2) as [H|[(o' & w & ws & E' & S' & _) H]]; [right; split; [exact NC|exact H]|]. rewrite E2 in E'. injection E' as <-. discriminate S'.
  - assert (Ep : nth_error st1 p = Some o) by (rewrite O; assumption). destruct (IH p o Ep) as [H|[(o' & w & ws & E' & S' & W' & N') H]]; [now left|right]. split; [|exact H]. exists o', w, ws. repeat split; congruence.
Qed.
(** Nothing but closed switches is changed, and those become reclosers that are no switches. *)
Theorem C108_only_switches : forall es srcs args m draws st, modifier_init es srcs args = Ok m -> all_named es -> wired st -> length st = length es -> heads_ok es st -> (forall i, 1 <= draws i) ->
  exists st', replace_kth_switch_with_recloser es (m_net m) draws st = Ok st' /\ length st' = length st /\
    forall p o, nth_error st p = Some o -> nth_error st' p = Some o \/
      (closed st p /\ nth_error st' p = Some (mkRobj (r_head o) (r_volt o) (Some (Some false)) (r_wires o) (Some (Some true)))).
Proof.
  intros es srcs args m draws st I AN W L HO DR. destruct (C108_reclosers es srcs args m draws st I AN W L HO DR) as (st' & E & F). exists st'. split; [exact E|]. exact (feeders_changes _ _ _ _ _ _ _ _ F).
Qed.
Print Assumptions C108_only_switches.

Lemma meets_fun es d lp h l l' : meets es d lp h l -> meets es d lp h l' -> l = l'.
Proof.
  assert (SA : forall h c cs, successors d h = c :: cs -> arc d h c).
  { intros h0 c cs E. assert (I : In c (successors d h0)) by (rewrite E; now left). unfold successors in I. apply in_map_iff in I. destruct I as ([[a b] t] & <- & H). apply filter_In in H. destruct H as [H Q]. cbn in *. apply String.eqb_eq in Q. subst a. exists t. exact H. }
  intros M. revert l'. induction M as [lp h N|lp h c cs i m p l S Li Hm Hp M IH|h c cs p l S No M IH|h c cs S No]; intros l' M'; inversion M' as [? ? N'|? ? c' cs' i' m' p' ? S' Li' Hm' Hp' M1|? c' cs' p' ? S' No' M1|? c' cs' S' No']; subst; try reflexivity;
    try (exfalso; eapply N; eapply SA; eassumption); try (exfalso; eapply N'; eapply SA; eassumption); rewrite S in S'; injection S' as <- <-; try (exfalso; eapply No; eassumption); try (exfalso; eapply No'; eassumption).
  - assert (i' = i) by (eapply last_span_fun; eassumption). subst i'. assert (m' = m) by congruence. subst m'.
    assert (p' = p). { apply lookup_spec in Hp. apply lookup_spec in Hp'. congruence. } subst p'. f_equal. now apply IH.
  - f_equal. now apply IH.
Qed.
Lemma feeders_single es d draws i k st lp st' : feeders_done es d draws i k st lp st' -> forall j e h v, nth_error es j = Some e -> e_name e = Some (Some h) ->
  (forall p, connection st p <-> p = j) -> volt_is st j (Some v) -> (v < 69000)%Q -> wired st ->
  (j < i -> st' = st) /\ (i <= j -> exists lp', feeder_done es d st lp h (draws k) st' lp').
Proof.
  induction 1 as [k i st lp NI|k i e0 st lp st' EI NC F IH|k i e0 st lp st' EI C HV F IH|k i e0 h0 v0 st lp st1 lp1 st' EI C VI VL EN FD F IH]; intros j e h v EJ EH CO VJ VV W.
  - split; [reflexivity|]. intros LE. apply nth_error_None in NI. assert (j < length es) by (apply nth_error_Some; congruence). lia.
  - assert (i <> j) by (intros ->; apply NC; now apply CO). destruct (IH j e h v EJ EH CO VJ VV W) as [A1 A2]. split; intros; [apply A1; lia|apply A2; lia].
  - apply CO in C. subst j. exfalso. apply (Qlt_not_le _ _ VV). now apply HV.
  - apply CO in C. subst j. split; [lia|]. intros _. assert (h0 = h) by congruence. subst h0.
    destruct (feeder_keeps es {| net_graph := empty_graph; net_di := d |} st lp h (draws k) st1 lp1 FD W) as [W1 [L1 SH]].
    assert (SX : forall p o, nth_error st p = Some o -> exists o', nth_error st1 p = Some o' /\ r_head o' = r_head o /\ r_volt o' = r_volt o).
    { intros p o E. destruct (nth_error st1 p) as [o'|] eqn:E'; [|apply nth_error_None in E'; assert (p < length st) by (apply nth_error_Some; congruence); lia].
      destruct (SH p o' E') as (o2 & E2 & H2 & V2). exists o'. split; [reflexivity|]. rewrite E in E2. injection E2 as ->. split; congruence. }
    destruct (IH i e h v EJ EH) as [A1 _]; try assumption.
    + intros p. rewrite <- CO. split; intros (o & E & H).
      * destruct (SH p o E) as (o2 & E2 & H2 & _). exists o2. split; [exact E2|congruence].
      * destruct (SX p o E) as (o2 & E2 & H2 & _). exists o2. split; [exact E2|congruence].
    + destruct VJ as (o & E & H). destruct (SX i o E) as (o2 & E2 & _ & H2). exists o2. split; [exact E2|congruence].
    + rewrite (A1 ltac:(lia)). now exists lp1.
Qed.

(** A model with one feeder head, the object [j] named [h]. *)
Definition one_head (es : list elem) (st : list robj) (j : nat) (h : string) : Prop :=
  (exists e, nth_error es j = Some e /\ e_name e = Some (Some h)) /\ (forall p, connection st p <-> p = j) /\ exists v, volt_is st j (Some v) /\ (v < 69000)%Q.
Lemma one_feeder es srcs args m draws st j h : modifier_init es srcs args = Ok m -> all_named es -> wired st -> length st = length es -> one_head es st j h -> (forall i, 1 <= draws i) ->
  exists st' lp', replace_kth_switch_with_recloser es (m_net m) draws st = Ok st' /\ feeder_done es (net_di (m_net m)) st None h (draws 0) st' lp'.
Proof.
  intros I AN W L ((e & EJ & EN) & CO & v & VJ & VV) DR. destruct (C108_reclosers es srcs args m draws st I AN W L) as (st' & E & F); [|exact DR|].
  - intros p e' o EP OP HP. assert (p = j) by (apply CO; exists o; now split). subst p. destruct VJ as (o' & E' & V'). split; [congruence|]. exists h. congruence.
  - destruct (feeders_single _ _ _ _ _ _ _ _ F j e h v EJ EN CO VJ VV W) as [_ A]. destruct (A ltac:(lia)) as [lp' FD]. now exists st', lp'.
Qed.

(** Switches that are not on the way of first successors are never replaced: without one on it nothing changes. *)
Theorem C108_branches_refuted : forall es srcs args m draws st j h l, modifier_init es srcs args = Ok m -> all_named es -> wired st -> length st = length es -> one_head es st j h -> (forall i, 1 <= draws i) ->
  meets es (net_di (m_net m)) None h l -> (forall p, In p l -> ~ closed st p) -> replace_kth_switch_with_recloser es (m_net m) draws st = Ok st.
Proof.
  intros es srcs args m draws st j h l I AN W L OH DR M NC. destruct (one_feeder es srcs args m draws st j h I AN W L OH DR) as (st' & lp' & E & l' & M' & R).
  rewrite <- (meets_fun _ _ _ _ _ _ M M') in R. rewrite E. destruct R as [(p & H & _)|(_ & -> & _)]; [|reflexivity]. apply closed_member in H. destruct H as [H1 H2]. destruct (NC p H1 H2).
Qed.
Print Assumptions C108_branches_refuted.

(** A switch is counted again where the way goes on to a load: the first and only switch is replaced when the second one is asked for. *)
Theorem C108_depth_refuted : forall es srcs args m draws st j h c cs i nm p x xs, modifier_init es srcs args = Ok m -> all_named es -> wired st -> length st = length es -> one_head es st j h -> (forall i, 1 <= draws i) ->
  successors (net_di (m_net m)) h = c :: cs -> last_span es h c i -> e_name i = Some (Some nm) -> bears es nm p -> closed st p ->
  successors (net_di (m_net m)) c = x :: xs -> (forall i, ~ last_span es c x i) -> (forall y, ~ arc (net_di (m_net m)) x y) -> draws 0 = 2 ->
  exists st', replace_kth_switch_with_recloser es (m_net m) draws st = Ok st' /\ becomes_recloser st p st'.
Proof.
  intros es srcs args m draws st j h c cs i nm p x xs I AN W L OH DR S1 Li Hn Hb C S2 No NA D2. destruct (one_feeder es srcs args m draws st j h I AN W L OH DR) as (st' & lp' & E & l' & M' & R).
  assert (M : meets es (net_di (m_net m)) None h [p; p]). { eapply meets_object; [exact S1|exact Li|exact Hn|exact Hb|]. eapply meets_again; [exact S2|exact No|]. now apply meets_end. }
  rewrite <- (meets_fun _ _ _ _ _ _ M M'), D2 in R. exists st'. split; [exact E|]. destruct R as [(q & H & BR & _)|(H & _)].
  - apply closed_member in H. destruct H as [[<-|[<-|[]]] _]; exact BR.
  - exfalso. apply (H p). apply closed_later; [exact C|]. now apply closed_here.
Qed.
Print Assumptions C108_depth_refuted.

Lemma replace_stops es n s draws : built es s n -> all_named es -> (forall i, 1 <= draws i) -> forall l i k st last lp j o, skipn i es = l -> wired st -> length st = length es -> known es last lp ->
  i <= j -> j < length es -> nth_error st j = Some o -> r_head o = Some (Some true) -> r_volt o = Some None -> exists e, replace_from es n (S (length (d_nodes (net_di n)))) draws l i k st last = Err e.
Proof.
  intros B AN DR. induction l as [|e r IH]; intros i k st last lp j o SK W LEN K LE LT EO EH EV.
  - assert (X := skipn_length i es). rewrite SK in X. cbn in X. lia.
  - assert (SK' : skipn (S i) es = r). { clear - SK. revert i SK. induction es as [|x l IH]; intros [|i] SK; cbn in *; try congruence. now apply IH. }
    cbn [replace_from]. destruct (nth_error st i) as [o'|] eqn:EI; [|apply nth_error_None in EI; lia].
    destruct (Nat.eq_dec i j) as [->|N]; [assert (o' = o) by congruence; subst o'; rewrite EH, EV; now exists EType|].
    assert (GO : forall k, exists e0, replace_from es n (S (length (d_nodes (net_di n)))) draws r (S i) k st last = Err e0) by (intros k0; apply (IH (S i) k0 st last lp j o); (assumption || lia)).
    destruct (r_head o') as [[[|]|]|]; try apply GO. destruct (r_volt o') as [[v|]|]; [|now exists EType|apply GO]. destruct (Qle_bool 69000 v); [apply GO|]. destruct (e_name e) as [[h|]|]; try apply GO.
    destruct (walk_top es s n B AN st last lp h (draws k) W LEN K (DR k)) as (st1 & last1 & lp1 & -> & K1 & FD). cbn [bind].
    destruct (feeder_keeps es n _ _ _ _ _ _ FD W) as [W1 [L1 SH]].
    destruct (nth_error st1 j) as [o1|] eqn:E1; [|apply nth_error_None in E1; lia]. destruct (SH j o1 E1) as (o2 & E2 & H2 & V2).
    apply (IH (S i) (S k) st1 last1 lp1 j o1); try assumption; try lia; try congruence.
Qed.
(** A substation connection whose nominal voltage is not known stops the function. *)
Theorem C108_voltage_refuted : forall es srcs args m draws st j o, modifier_init es srcs args = Ok m -> all_named es -> wired st -> length st = length es -> (forall i, 1 <= draws i) ->
  nth_error st j = Some o -> r_head o = Some (Some true) -> r_volt o = Some None -> exists e, replace_kth_switch_with_recloser es (m_net m) draws st = Err e.
Proof.
  intros es srcs args m draws st j o I AN W L DR E H V. destruct (init_spec _ _ _ _ I) as (_ & _ & B). apply build_built in B.
  apply (replace_stops es (m_net m) (m_source m) draws B AN DR es 0 0 st None None j o); try assumption; try reflexivity; [lia|]. rewrite <- L. apply nth_error_Some. congruence.
Qed.
Print Assumptions C108_voltage_refuted.

(** ** The hypotheses can be met *)
Definition res_es : list elem := [xnode "s"; xnode "h"; xnode "a"; xnode "b"; xline "l0" "s" "h" 1; xline "s1" "h" "a" 1; xline "s2" "a" "b" 1; xload "ld" "b"; xline "s3" "h" "c" 1].
Definition plain_obj := mkRobj None (Some None) None None None.
Definition line_obj (sw : bool) := mkRobj None (Some None) (Some (Some sw)) (Some (Some [Some false; None])) (Some None).
Definition res_st : list robj := [plain_obj; mkRobj (Some (Some true)) (Some (Some 12470%Q)) None None None; plain_obj; plain_obj; line_obj false; line_obj true; line_obj true; plain_obj; line_obj true].
Definition res_net := net_or_empty (build res_es "s").
Example C108_hypotheses_met :
  modifier_init res_es [] ["s"] = Ok (mkModifier "s" None res_net) /\ all_named res_es /\ wired res_st /\ length res_st = length res_es /\ one_head res_es res_st 1 "h" /\ heads_ok res_es res_st /\
  replace_kth_switch_with_recloser res_es res_net (fun _ => 2) res_st = Ok (rset res_st 6 (recloser (line_obj true))) /\
  replace_kth_switch_with_recloser res_es res_net (fun _ => 3) res_st = Ok (rset res_st 6 (recloser (line_obj true))).
Proof.
  split; [vm_compute; reflexivity|]. split.
  { intros i H _. unfold res_es in H. cbn [In] in H. repeat (destruct H as [<-|H]; [eexists; reflexivity|]). destruct H. }
  split. { intros p o E S. do 9 (destruct p as [|p]; [injection E as <-; discriminate|]). destruct p; discriminate. }
  split; [reflexivity|]. split.
  { split; [eexists; split; reflexivity|]. split; [|exists 12470%Q; split; [eexists; split; reflexivity|reflexivity]].
    intros p. split; [intros (o & E & H)|intros ->; eexists; split; reflexivity]. do 9 (destruct p as [|p]; [injection E as <-; (discriminate || reflexivity)|]). destruct p; discriminate. }
  split. { intros p e o EE E H. destruct p as [|[|p]]; [injection E as <-; discriminate H| |].
    - injection EE as <-. injection E as <-. split; [discriminate|]. eexists. reflexivity.
    - exfalso. cbn [nth_error res_st] in E. clear EE. do 7 (destruct p as [|p]; [injection E as <-; discriminate H|]). destruct p; discriminate E. }
  split; vm_compute; reflexivity.
Qed.
