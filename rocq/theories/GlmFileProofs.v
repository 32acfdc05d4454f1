(** Proofs about the file of the GridLAB-D writer: regulators, and the parts of the file. *)
From Verif Require Import Base BaseFacts NetworkModel GlmWriteModel GlmWriteSpec GlmWriteProofs GlmConfProofs GlmConfLineProofs.
From Coq Require Import QArith Lia Permutation.
Local Open Scope string_scope.
Local Open Scope nat_scope.
Local Open Scope list_scope.

Section File.
Variable num : Q -> string.
Variable cplx : Q -> Q -> string.
Variable order : dict gval -> dict gval.

(** ** Settings of regulators *)
Lemma wd_settings_spec wds d : wd_settings num d wds = fold_left (pw_settings num) (pws wds) d.
Proof.
  unfold wd_settings, pws. destruct wds as [l|]; [|reflexivity]. revert d. induction l as [|w l IH]; intros d; [reflexivity|]. cbn [fold_left flat_map].
  rewrite fold_left_app, IH. destruct (w_pws w); reflexivity.
Qed.
Lemma reg_settings_spec ms r d : reg_settings num ms r d = fold_left (pw_settings num) (reg_pws ms r) d.
Proof.
  unfold reg_settings, reg_pws. destruct (r_trafo r) as [c|]; [|apply wd_settings_spec]. unfold trafos. revert d. induction ms as [|o ms IH]; intros d; [reflexivity|].
  cbn [fold_left flat_map]. rewrite IH, flat_map_app, fold_left_app. f_equal. destruct o; try reflexivity. cbn [flat_map]. rewrite app_nil_r.
  destruct (oeqb (t_name t) (Some c)); [apply wd_settings_spec|reflexivity].
Qed.
Lemma pw_get d j ph : dget (pw_settings num d j) ("tap_pos_" ++ ph) = if oeqb (pw_phase j) (Some ph) then Some (text_or_none num (pw_tap j)) else dget d ("tap_pos_" ++ ph).
Proof.
  unfold pw_settings. destruct (pw_phase j) as [p|]; [|reflexivity]. cbn [oeqb].
  assert (Z : forall (d : dict string) x, dget (match pw_x j with Some _ => dset d ("compensator_r_setting_" ++ p) x | None => d end) ("tap_pos_" ++ ph) = dget d ("tap_pos_" ++ ph)) by (intros e x; destruct (pw_x j); [now rewrite dget_dset|reflexivity]).
  assert (Z' : forall (d : dict string) x, dget (match pw_r j with Some _ => dset d ("compensator_r_setting_" ++ p) x | None => d end) ("tap_pos_" ++ ph) = dget d ("tap_pos_" ++ ph)) by (intros e x; destruct (pw_r j); [now rewrite dget_dset|reflexivity]).
  rewrite Z, Z', dget_dset. reflexivity.
Qed.
Lemma taps_get L d ph : dget (fold_left (pw_settings num) L d) ("tap_pos_" ++ ph) =
  match filter (fun j => oeqb (pw_phase j) (Some ph)) (rev L) with j :: _ => Some (text_or_none num (pw_tap j)) | [] => dget d ("tap_pos_" ++ ph) end.
Proof.
  induction L as [|j L IH] using rev_ind; [reflexivity|]. rewrite fold_left_app, rev_app_distr. cbn [fold_left rev app filter]. rewrite pw_get.
  destruct (oeqb (pw_phase j) (Some ph)); [reflexivity|exact IH].
Qed.
Definition setting_key (k : string) : Prop := okb k = true /\ exists p, k = ("tap_pos_" ++ p)%string \/ k = ("compensator_r_setting_" ++ p)%string.
Definition good_settings (s : dict string) : Prop := uniq s /\ forall k, In k (map fst s) -> setting_key k.
Lemma good_pw s j : (forall p, pw_phase j = Some p -> no_blank p) -> good_settings s -> good_settings (pw_settings num s j).
Proof.
  intros P G. unfold pw_settings. destruct (pw_phase j) as [p|]; [|exact G]. pose proof (nob_blank _ (P p eq_refl)) as N.
  assert (S : forall s k v, setting_key k -> good_settings s -> good_settings (dset s k v)).
  { intros s' k v K [U H]. split; [now apply dset_uniq|]. intros x Hx. apply dset_fst in Hx. destruct Hx as [->|Hx]; auto. }
  assert (K1 : setting_key ("tap_pos_" ++ p)) by (split; [exact N|exists p; auto]).
  assert (K2 : setting_key ("compensator_r_setting_" ++ p)) by (split; [exact N|exists p; auto]).
  destruct (pw_x j), (pw_r j); auto.
Qed.
Lemma good_fold L : forall s, (forall j p, In j L -> pw_phase j = Some p -> no_blank p) -> good_settings s -> good_settings (fold_left (pw_settings num) L s).
Proof.
  induction L as [|j L IH]; intros s P G; [exact G|]. cbn [fold_left]. apply IH; [intros j' p Hj; apply P; now right|]. apply good_pw; [|exact G]. intros p. apply P. now left.
Qed.
Lemma reg_pws_ok ms r : phases_ok ms -> In r (regs ms) -> forall j p, In j (reg_pws ms r) -> pw_phase j = Some p -> no_blank p.
Proof.
  intros (_ & _ & Ht & Hr) Ir j p Hj Hp. unfold reg_pws in Hj. destruct (r_trafo r); [|exact (Hr r j p Ir Hj Hp)].
  apply in_flat_map in Hj. destruct Hj as (t & It & Hj). destruct (oeqb _ _); [|destruct Hj]. exact (Ht t j p It Hj Hp).
Qed.

(** ** Configurations of regulators *)
Definition rds (l : list gobj) : list (option string * dict gval) := map (fun r => (r_name r, reg_dic r)) (regs l).
Lemma reg_fold_confs ms l : forall cs ns ph k rows, let '(cs', ns', k', _) := confs num cplx "" "regulator_config_" (rds l) (cs, ns, k, rows) in
  exists ph', fold_left (reg_step num ms) l (cs, ns, ph, k) = (cs', ns', ph', k').
Proof.
  induction l as [|o l IH]; intros cs ns ph k rows; [cbn; eauto|]. cbn [fold_left]. destruct o; try exact (IH cs ns ph k rows).
  change (rds (GReg r :: l)) with ((r_name r, reg_dic r) :: rds l). unfold confs. cbn [fold_left fst snd]. unfold configure at 2. cbn [reg_step].
  destruct (cfind cs (reg_dic r)) as [c|]; apply IH.
Qed.
Definition users (d : dict gval) (l : list greg) : list greg := filter (fun r => same_set (reg_dic r) d) l.
Lemma reg_fold_ph ms l : forall d, let '(cs, _, ph, _) := fold_left (reg_step num ms) l ([], [], [], 1) in
  (cfind cs d = None <-> users d (regs l) = []) /\
  cfind ph d = match users d (regs l) with [] => None | rs => Some (fold_left (fun s r => reg_settings num ms r s) rs []) end.
Proof.
  induction l as [|o l IH] using rev_ind; intros d; [cbn; tauto|]. rewrite fold_left_app. cbn [fold_left].
  assert (R : forall x, regs (l ++ [x]) = regs l ++ match x with GReg r => [r] | _ => [] end) by (intros x; unfold regs; rewrite flat_map_app; cbn; now rewrite app_nil_r).
  rewrite R. destruct (fold_left (reg_step num ms) l ([], [], [], 1)) as [[[cs ns] ph] k]. destruct o; try (cbn [reg_step]; rewrite app_nil_r; apply IH).
  unfold users. rewrite filter_app. fold (users d (regs l)). cbn [filter reg_step].
  destruct (IH (reg_dic r)) as [I1 I2]. destruct (IH d) as [J1 J2].
  destruct (same_set (reg_dic r) d) eqn:S.
  - assert (Eu : users (reg_dic r) (regs l) = users d (regs l)).
    { unfold users. apply filter_ext. intros r'. destruct (same_set (reg_dic r') d) eqn:E; [eauto using same_trans, same_sym|].
      destruct (same_set (reg_dic r') (reg_dic r)) eqn:E'; [|reflexivity]. rewrite <- E. symmetry. eauto using same_trans. }
    destruct (cfind cs (reg_dic r)) as [c|] eqn:Ec.
    + assert (Nu : users d (regs l) <> []) by (rewrite <- Eu; intros H; apply I1 in H; discriminate). rewrite cfind_cput, S, I2, Eu. split.
      * rewrite J1. split; [congruence|]. intros H. destruct (users d (regs l)); discriminate.
      * destruct (users d (regs l)) as [|r0 rs]; [congruence|]. cbn [app]. rewrite fold_left_app. reflexivity.
    + assert (Nu : users d (regs l) = []) by (rewrite <- Eu; apply I1; reflexivity). rewrite !cfind_cput, S. rewrite same_refl. rewrite Nu. cbn [app fold_left]. split; [|reflexivity].
      split; discriminate.
  - rewrite app_nil_r. destruct (cfind cs (reg_dic r)) as [c|] eqn:Ec.
    + rewrite cfind_cput, S. auto.
    + rewrite !cfind_cput, S. auto.
Qed.

Lemma reg_keys_ok k : In k ["time_delay"; "raise_taps"; "lower_taps"; "power_transducer_ratio"; "current_transducer_ratio"; "band_width"; "band_center"; "pt_phase"; "connect_type"] -> okb k = true /\ k <> "name".
Proof. cbn. intros H. repeat (destruct H as [<-|H]; [split; [reflexivity|discriminate]|]). destruct H. Qed.
Lemma reg_dic_good r : good_dic (reg_dic r) /\ forall k, In k (map fst (reg_dic r)) -> ~ setting_key k.
Proof.
  assert (K : forall k, In k (map fst (reg_dic r)) -> In k ["time_delay"; "raise_taps"; "lower_taps"; "power_transducer_ratio"; "current_transducer_ratio"; "band_width"; "band_center"; "pt_phase"; "connect_type"]).
  { intros k. unfold reg_dic. cbv zeta. intros H. apply dset_fst in H. destruct H as [->|H]; [cbn; tauto|]. do 5 (apply oset_fst in H; destruct H as [->|H]; [cbn; tauto|]).
    assert (H' : k = "lower_taps" \/ In k (map fst (oset (oset [] "time_delay" (r_delay r) VN) "raise_taps" (r_high r) VN))) by (destruct (r_low r); [now apply dset_fst in H|now apply oset_fst in H]).
    destruct H' as [->|H']; [cbn; tauto|]. do 2 (apply oset_fst in H'; destruct H' as [->|H']; [cbn; tauto|]). destruct H'. }
  split.
  - apply (keys_good _ _) with (2 := K); [|exact reg_keys_ok]. unfold reg_dic. cbv zeta. apply dset_uniq. do 5 apply oset_uniq.
    destruct (r_low r); [apply dset_uniq|apply oset_uniq]; do 2 apply oset_uniq; constructor.
  - intros k H (_ & p & S). apply K in H. cbn in H. repeat (destruct H as [<-|H]; [destruct S as [S|S]; discriminate S|]). destruct H.
Qed.
Lemma reg_dic_get r k : dget (reg_dic r) k =
  if String.eqb "connect_type" k then Some (VS "WYE_WYE") else if String.eqb "pt_phase" k then option_map VS (r_ptphase r)
  else if String.eqb "band_center" k then option_map VN (r_center r) else if String.eqb "band_width" k then option_map VN (r_width r)
  else if String.eqb "current_transducer_ratio" k then option_map VN (r_ct r) else if String.eqb "power_transducer_ratio" k then option_map VN (r_pt r)
  else if String.eqb "lower_taps" k then option_map VN (match r_low r with Some x => Some x | None => r_high r end)
  else if String.eqb "raise_taps" k then option_map VN (r_high r) else if String.eqb "time_delay" k then option_map VN (r_delay r) else None.
Proof.
  unfold reg_dic. cbv zeta. rewrite dget_dset. destruct (String.eqb "connect_type" k) eqn:E1; [reflexivity|]. 
  Ltac step K := match goal with |- context [String.eqb ?s K] => destruct (String.eqb s K) eqn:?E end.
  assert (L : forall d, dget (match r_low r with Some x => dset d "lower_taps" (VN x) | None => oset d "lower_taps" (r_high r) VN end) k =
     if String.eqb "lower_taps" k then match (match r_low r with Some x => Some x | None => r_high r end) with Some x => Some (VN x) | None => dget d k end else dget d k).
  { intros d. destruct (r_low r); [rewrite dget_dset; reflexivity|]. apply dget_oset. }
  rewrite !dget_oset, L, !dget_oset. cbn [dget].
  destruct (String.eqb "pt_phase" k) eqn:E2. { apply String.eqb_eq in E2. subst k. cbn. now destruct (r_ptphase r). }
  destruct (String.eqb "band_center" k) eqn:E3. { apply String.eqb_eq in E3. subst k. cbn. now destruct (r_center r). }
  destruct (String.eqb "band_width" k) eqn:E4. { apply String.eqb_eq in E4. subst k. cbn. now destruct (r_width r). }
  destruct (String.eqb "current_transducer_ratio" k) eqn:E5. { apply String.eqb_eq in E5. subst k. cbn. now destruct (r_ct r). }
  destruct (String.eqb "power_transducer_ratio" k) eqn:E6. { apply String.eqb_eq in E6. subst k. cbn. now destruct (r_pt r). }
  destruct (String.eqb "lower_taps" k) eqn:E7. { apply String.eqb_eq in E7. subst k. cbn. destruct (r_low r); [reflexivity|now destruct (r_high r)]. }
  destruct (String.eqb "raise_taps" k) eqn:E8. { apply String.eqb_eq in E8. subst k. cbn. now destruct (r_high r). }
  destruct (String.eqb "time_delay" k) eqn:E9; [now destruct (r_delay r)|reflexivity].
Qed.

(** *** The blocks *)
Definition settings_in (ph : list (dict gval * dict string)) (d : dict gval) : dict string := match cfind ph d with Some x => x | None => [] end.
Definition rconf_b (ph : list (dict gval * dict string)) (dc : dict gval * string) : block :=
  ("regulator_configuration", ("name", snd dc) :: shown num cplx (order (fst dc)) ++ settings_in ph (fst dc)).
Hypothesis perm : forall d, Permutation d (order d).

Lemma order_fst d k : In k (map fst (order d)) <-> In k (map fst d).
Proof. split; intros H; [eapply Permutation_in; [apply Permutation_map, Permutation_sym, perm|exact H]|eapply Permutation_in; [apply Permutation_map, perm|exact H]]. Qed.
Lemma order_uniq d : uniq d -> uniq (order d).
Proof. unfold uniq. intros U. eapply Permutation_NoDup; [apply Permutation_map, perm|exact U]. Qed.
Lemma order_get d k : uniq d -> dget (order d) k = dget d k.
Proof.
  intros U. destruct (dget d k) as [v|] eqn:E.
  - apply (dget_in _ _ _ U) in E. apply (dget_in _ _ _ (order_uniq d U)). eapply Permutation_in; [apply perm|exact E].
  - apply dget_none. rewrite order_fst. now apply dget_none.
Qed.
Lemma vals_dict (s : dict string) k : uniq s -> vals s k = match dget s k with Some v => [v] | None => [] end.
Proof.
  unfold uniq. induction s as [|[k' v] d IH]; intros N; [reflexivity|]. inversion N as [|x l Hx Hl]; subst. cbn [dget]. rewrite vals_cons, IH by exact Hl.
  destruct (String.eqb k' k) eqn:E; [|reflexivity]. apply String.eqb_eq in E. subst k'. assert (dget d k = None) as -> by (apply dget_none; exact Hx). reflexivity.
Qed.
Lemma rconf_name ph d c : good_dic d -> good_settings (settings_in ph d) -> values (rconf_b ph (d, c)) "name" = [c].
Proof.
  intros (U & N & _) (Us & Ks). unfold rconf_b. cbn [fst snd]. rewrite values_vals, vals_cons, vals_app, vals_shown, vals_dict, order_get, N by (auto using order_uniq).
  assert (dget (settings_in ph d) "name" = None) as ->; [|reflexivity]. apply dget_none. intros H. apply Ks in H. destruct H as (_ & p & [H|H]); discriminate H.
Qed.
Lemma rconf_val ph d c k : good_dic d -> good_settings (settings_in ph d) -> k <> "name" -> values (rconf_b ph (d, c)) k =
  match dget d k with Some v => [show num cplx v] | None => [] end ++ match dget (settings_in ph d) k with Some v => [v] | None => [] end.
Proof.
  intros (U & N & _) (Us & Ks) K. unfold rconf_b. cbn [fst snd]. rewrite values_vals, vals_cons, vals_app, vals_shown, vals_dict, order_get by (auto using order_uniq).
  destruct (String.eqb "name" k) eqn:E; [apply String.eqb_eq in E; congruence|reflexivity].
Qed.
Lemma dec_rconf ph dc : good_dic (fst dc) -> good_settings (settings_in ph (fst dc)) ->
  decodes (obj_rows "object regulator_configuration {" (("name", snd dc) :: shown num cplx (order (fst dc)) ++ settings_in ph (fst dc))) [rconf_b ph dc].
Proof.
  intros (U & N & K) (Us & Ks). apply dec_obj; [split; reflexivity|]. intros p [<-|H]; [reflexivity|]. apply in_app_or in H. destruct H as [H|H]; apply (in_map fst) in H.
  - rewrite shown_fst, order_fst in H. auto.
  - apply Ks in H. now destruct H.
Qed.
Lemma named_rconfs ph new c d : (forall d c, In (d, c) new -> good_dic d /\ good_settings (settings_in ph d)) -> NoDup (map snd new) -> In (d, c) new ->
  named (map (rconf_b ph) new) "regulator_configuration" c = [rconf_b ph (d, c)].
Proof.
  intros G. induction new as [|[e x] new IH]; intros N H; [destruct H|]. inversion N as [|y l Hy Hl]; subst. cbn [map named filter].
  destruct (G e x (or_introl eq_refl)) as [Ge Ne]. rewrite (rconf_name ph e x Ge Ne). cbn [fst rconf_b String.eqb Ascii.eqb Bool.eqb andb smem existsb].
  assert (Z : forall y, ~ In y (map snd new) -> filter (fun b => (String.eqb (fst b) "regulator_configuration" && smem y (values b "name"))%bool) (map (rconf_b ph) new) = []).
  { intros y Hn. clear -G Hn perm. induction new as [|[e' x'] new IH]; [reflexivity|]. cbn [map filter]. destruct (G e' x') as [Ge Ne]; [cbn; auto|].
    rewrite (rconf_name ph e' x' Ge Ne). cbn [fst rconf_b String.eqb Ascii.eqb Bool.eqb andb smem existsb]. cbn in Hn. rewrite orb_false_r.
    destruct (String.eqb y x') eqn:E; [apply String.eqb_eq in E; subst; tauto|]. apply IH; [|tauto]. intros d c [H|H]; apply (G d c); cbn; auto. }
  rewrite orb_false_r. destruct H as [H|H].
  - injection H as -> ->. rewrite String.eqb_refl. f_equal. apply Z. exact Hy.
  - destruct (String.eqb c x) eqn:E; [apply String.eqb_eq in E; subst c; exfalso; apply Hy; apply (in_map snd) in H; exact H|].
    apply IH; [|exact Hl|exact H]. intros d' c' H'. apply (G d' c'). now right.
Qed.
Lemma reg_conf_ok ph r d' c : good_dic d' -> (forall k, In k (map fst d') -> ~ setting_key k) -> good_settings (settings_in ph d') -> same_set d' (reg_dic r) = true ->
  reg_conf_says num r (rconf_b ph (d', c)) /\
  forall k, setting_key k -> values (rconf_b ph (d', c)) k = match dget (settings_in ph d') k with Some v => [v] | None => [] end.
Proof.
  intros G' S' Gs S. destruct (reg_dic_good r) as [G Nk].
  assert (F : forall k, k <> "name" -> ~ (exists p, k = ("tap_pos_" ++ p)%string \/ k = ("compensator_r_setting_" ++ p)%string) -> fits num (dget (reg_dic r) k) (values (rconf_b ph (d', c)) k)).
  { intros k K Ns. rewrite rconf_val by assumption. assert (dget (settings_in ph d') k = None) as ->.
    { apply dget_none. intros H. destruct Gs as [_ Gs]. apply Gs in H. destruct H as [_ H]. auto. }
    rewrite app_nil_r. apply same_fits; [apply G'|apply G|exact S]. }
  split.
  - assert (Q : forall k, In k ["time_delay"; "raise_taps"; "lower_taps"; "power_transducer_ratio"; "current_transducer_ratio"; "band_width"; "band_center"; "pt_phase"; "connect_type"] -> fits num (dget (reg_dic r) k) (values (rconf_b ph (d', c)) k)).
    { intros k Hk. apply F; [now apply reg_keys_ok|]. intros (p & H). cbn in Hk. repeat (destruct Hk as [<-|Hk]; [destruct H as [H|H]; discriminate H|]). destruct Hk. }
    unfold reg_conf_says, okQ.
    assert (N : forall o vs, fits num (option_map VN o) vs -> match o with Some q => exists q', (q' == q)%Q /\ vs = [num q'] | None => vs = [] end) by (intros [q|] vs H; exact H).
    repeat match goal with |- _ /\ _ => split end; try (apply N);
      try (match goal with |- fits _ _ (values _ ?k) => pose proof (Q k) as H; rewrite reg_dic_get in H; cbn [String.eqb Ascii.eqb Bool.eqb] in H; apply H; cbn; tauto end).
    + pose proof (Q "pt_phase") as H. rewrite reg_dic_get in H. cbn [String.eqb Ascii.eqb Bool.eqb] in H. specialize (H ltac:(cbn; tauto)). destruct (r_ptphase r); exact H.
    + pose proof (Q "connect_type") as H. rewrite reg_dic_get in H. cbn [String.eqb Ascii.eqb Bool.eqb] in H. apply H. cbn; tauto.
  - intros k Hk. assert (Kn : k <> "name") by (destruct Hk as (_ & p & [->| ->]); discriminate). rewrite rconf_val by assumption.
    assert (dget d' k = None) as ->; [|reflexivity]. apply dget_none. intros H. exact (S' k H Hk).
Qed.

(** ** Regulators *)
Definition ends_key (r : greg) : list string := match r_from r, r_to r with Some f, Some t => [(f ++ "_" ++ t)%string] | _, _ => [] end.
Fixpoint kept (seen : list string) (rs : list greg) : list greg :=
  match rs with
  | [] => []
  | r :: t => if existsb (fun k => smem k seen) (ends_key r) then kept seen t else r :: kept (seen ++ ends_key r) t
  end.
Lemma reg_write_spec ns l : forall seen rows, exists seen', fold_left (reg_write ns) l (seen, rows) =
  (seen', rows ++ flat_map (fun r => obj_rows "object regulator{" (reg_props ns r)) (kept seen (regs l))) /\ forall k, In k seen' <-> In k seen \/ exists r, In r (regs l) /\ In k (ends_key r).
Proof.
  induction l as [|o l IH]; intros seen rows; [exists seen; cbn; rewrite app_nil_r; split; [reflexivity|]; intros k; split; [tauto|]; intros [H|(r & [] & _)]; exact H|].
  cbn [fold_left]. destruct o; try exact (IH seen rows).
  change (regs (GReg r :: l)) with (r :: regs l).
  assert (W : reg_write ns (seen, rows) (GReg r) = if existsb (fun k => smem k seen) (ends_key r) then (seen, rows) else (seen ++ ends_key r, rows ++ obj_rows "object regulator{" (reg_props ns r))).
  { cbn [reg_write]. unfold ends_key. destruct (r_from r), (r_to r); cbn [existsb]; rewrite ?app_nil_r, ?orb_false_r; reflexivity. }
  rewrite W. cbn [kept]. destruct (existsb (fun k => smem k seen) (ends_key r)) eqn:Es.
  - destruct (IH seen rows) as (seen' & E & H). exists seen'. split; [exact E|]. intros k. rewrite H. split; [intros [X|(r' & X & Y)]; [now left|right; exists r'; split; [now right|exact Y]]|].
    intros [X|(r' & [<-|X] & Y)]; [now left| |right; eauto]. left. apply existsb_exists in Es. destruct Es as (x & Hx & Ex). 
    assert (x = k) as -> by (unfold ends_key in Hx, Y; destruct (r_from r), (r_to r); try destruct Y; destruct Hx as [<-|[]]; try destruct H0; auto).
    unfold smem in Ex. apply existsb_exists in Ex. destruct Ex as (y & Hy & Ey). apply String.eqb_eq in Ey. now subst.
  - destruct (IH (seen ++ ends_key r) (rows ++ obj_rows "object regulator{" (reg_props ns r))) as (seen' & E & H). exists seen'. split; [rewrite E; cbn [flat_map]; now rewrite app_assoc|].
    intros k. rewrite H, in_app_iff. split.
    + intros [[X|X]|(r' & X & Y)]; [now left|right; exists r; split; [now left|exact X]|right; exists r'; split; [now right|exact Y]].
    + intros [X|(r' & [<-|X] & Y)]; [auto|auto|right; eauto].
Qed.
Lemma smem_false k l : smem k l = false <-> ~ In k l.
Proof.
  unfold smem. destruct (existsb (String.eqb k) l) eqn:E.
  - apply existsb_exists in E. destruct E as (x & Hx & Ex). apply String.eqb_eq in Ex. subst. split; [discriminate|tauto].
  - split; [|reflexivity]. intros _ H. assert (existsb (String.eqb k) l = true) by (apply existsb_exists; exists k; split; [exact H|apply String.eqb_refl]). congruence.
Qed.
Lemma nodup_app_r {A} (a b : list A) : NoDup (a ++ b) -> NoDup b.
Proof. induction a as [|x a IH]; cbn; [trivial|]. intros H. inversion H. auto. Qed.
Lemma kept_all rs : forall seen, NoDup (flat_map ends_key rs) -> (forall k, In k seen -> ~ In k (flat_map ends_key rs)) -> kept seen rs = rs.
Proof.
  induction rs as [|r rs IH]; intros seen N D; [reflexivity|]. cbn [kept flat_map] in *.
  assert (E : existsb (fun k => smem k seen) (ends_key r) = false).
  { destruct (existsb (fun k => smem k seen) (ends_key r)) eqn:E; [|reflexivity]. apply existsb_exists in E. destruct E as (k & Hk & Hs). exfalso.
    destruct (smem k seen) eqn:X; [|discriminate]. assert (In k seen) by (destruct (in_dec string_dec k seen) as [H|H]; [exact H|apply smem_false in H; congruence]). apply (D k H). apply in_or_app. now left. }
  rewrite E. f_equal. apply IH.
  - exact (nodup_app_r _ _ N).
  - intros k Hk Hi. apply in_app_or in Hk. destruct Hk as [Hk|Hk]; [apply (D k Hk); apply in_or_app; now right|].
    clear -N Hk Hi. induction (ends_key r) as [|x l IHl]; [destruct Hk|]. cbn in N. inversion N as [|y z Hy Hz]; subst. destruct Hk as [->|Hk]; [apply Hy; apply in_or_app; now right|auto].
Qed.
Lemma kept_none rs seen : (forall r, In r rs -> ends_key r <> [] /\ forall k, In k (ends_key r) -> In k seen) -> kept seen rs = [].
Proof.
  induction rs as [|r rs IH]; intros H; [reflexivity|]. cbn [kept]. destruct (H r (or_introl eq_refl)) as [Ne Hs].
  assert (existsb (fun k => smem k seen) (ends_key r) = true) as ->.
  { destruct (ends_key r) as [|k l]; [congruence|]. cbn. assert (smem k seen = true) as -> by (destruct (smem k seen) eqn:E; [reflexivity|apply smem_false in E; exfalso; apply E, Hs; now left]). reflexivity. }
  apply IH. intros r' Hr'. apply H. now right.
Qed.
End File.
