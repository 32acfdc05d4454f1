(** The elements, the references and the configurations in a file of the GridLAB-D writer. *)
From Verif Require Import Base BaseFacts NetworkModel GlmWriteModel GlmWriteSpec GlmWriteProofs GlmConfProofs GlmConfLineProofs GlmFileProofs GlmPartsProofs.
From Coq Require Import QArith Lia Permutation.
Local Open Scope string_scope.
Local Open Scope nat_scope.
Local Open Scope list_scope.

Lemma oc_app cs a b : of_class cs (a ++ b) = of_class cs a ++ of_class cs b.
Proof. apply filter_app. Qed.
Lemma oc_all {A} cs (f : A -> block) l : (forall x, smem (fst (f x)) cs = true) -> of_class cs (map f l) = map f l.
Proof. intros H. induction l as [|x l IH]; [reflexivity|]. unfold of_class in *. cbn [map filter]. now rewrite H, IH. Qed.
Lemma oc_none {A} cs (f : A -> block) l : (forall x, smem (fst (f x)) cs = false) -> of_class cs (map f l) = [].
Proof. intros H. induction l as [|x l IH]; [reflexivity|]. unfold of_class in *. cbn [map filter]. now rewrite H, IH. Qed.
Lemma named_app a b cls c : named (a ++ b) cls c = named a cls c ++ named b cls c.
Proof. apply filter_app. Qed.
Lemma named_none {A} cls c (f : A -> block) l : (forall x, String.eqb (fst (f x)) cls = false) -> named (map f l) cls c = [].
Proof. intros H. induction l as [|x l IH]; [reflexivity|]. unfold named in *. cbn [map filter]. now rewrite H, IH. Qed.
Lemma line_class_in l : In (line_class l) line_classes.
Proof. unfold line_class, line_classes. destruct (oeqb _ _); [cbn; tauto|]. destruct (l_fuse l) as [[]|], (l_switch l) as [[]|]; cbn; tauto. Qed.
Lemma line_class_not cls l : ~ In cls line_classes -> String.eqb (line_class l) cls = false.
Proof. intros H. apply String.eqb_neq. intros E. apply H. rewrite <- E. apply line_class_in. Qed.
Lemma line_class_smem l : smem (line_class l) line_classes = true.
Proof. destruct (smem (line_class l) line_classes) eqn:E; [reflexivity|]. apply smem_false in E. destruct (E (line_class_in l)). Qed.
Lemma line_class_no cs l : (forall c, In c line_classes -> smem c cs = false) -> smem (line_class l) cs = false.
Proof. intros H. apply H, line_class_in. Qed.
Lemma forall2_map {A B} (P : A -> B -> Prop) (f : A -> B) l : (forall x, In x l -> P x (f x)) -> Forall2 P l (map f l).
Proof. induction l as [|x l IH]; intros H; constructor; [apply H; now left|]. apply IH. intros y Hy. apply H. now right. Qed.
Lemma forall2_in_l {A B} (P : A -> B -> Prop) l l' x : Forall2 P l l' -> In x l -> exists y, In y l' /\ P x y.
Proof. intros F. induction F as [|a b l l' H F IH]; [intros []|]. intros [<-|I]; [exists b; split; [now left|exact H]|]. destruct (IH I) as (y & Hy & Q). exists y. split; [now right|exact Q]. Qed.

(** Selecting the blocks of one part of a file *)
Ltac part := repeat first [rewrite oc_app | rewrite named_app];
  repeat first [ match goal with |- context [of_class ?cs (map ?f ?l)] => rewrite (oc_none cs f l) by (intros; reflexivity) end | rewrite (oc_none _ (line_b _ _)) by (intros; apply line_class_no; intros ? Hc; cbn in Hc; repeat (destruct Hc as [<-|Hc]; [reflexivity|]); destruct Hc)
               | match goal with |- context [named (map ?f ?l) ?cls ?c] => rewrite (named_none cls c f l) by (intros; reflexivity) end | rewrite (named_none _ _ (line_b _ _)) by (intros; apply line_class_not; cbn; intuition discriminate) ];
  cbn [app]; rewrite ?app_nil_r.

Section Write.
Variable num : Q -> string.
Variable cplx : Q -> Q -> string.
Variable order : dict gval -> dict gval.
Hypothesis perm : forall d, Permutation d (order d).

Lemma reached_good hs st : reached num cplx order hs st -> good_state st /\ forall k, In k (ws_seen st) <-> In k (flat_map joined (flat_map regs hs)).
Proof.
  induction 1 as [|hs st ww ms rows st' R [IG IS] P E]; [split; [exact good_state0|intros k; reflexivity]|].
  destruct (file_parts num cplx order perm ww ms st rows st' IG P E) as (lps & tds & tnew & lds & lnew & rnew & _ & _ & _ & _ & _ & G & S & _). split; [exact G|].
  intros k. rewrite (S k), IS. cbn [flat_map]. rewrite flat_map_app, in_app_iff, (in_flat_map joined (regs ms)). unfold joined, ends_key. tauto.
Qed.

Lemma elements hs st ww ms rows st' : reached num cplx order hs st -> phases_ok ms -> write_glm num cplx order ww ms st = Ok (rows, st') ->
  Forall2 (node_says num) (nodes ms) (of_class ["node"] (file rows)) /\
  Forall2 (cap_says num) (capacitors ms) (of_class ["capacitor"] (file rows)) /\
  Forall2 (load_says num cplx) (loads ms) (of_class ["load"] (file rows)) /\
  Forall2 trafo_says (own_trafos ms) (of_class ["transformer"] (file rows)) /\
  Forall2 (line_says num) (lines ms) (of_class line_classes (file rows)).
Proof.
  intros R P E. destruct (reached_good hs st R) as [G _].
  destruct (file_parts num cplx order perm ww ms st rows st' G P E) as (lps & tds & tnew & lds & lnew & rnew & Fl & _ & _ & _ & _ & _ & _ & _ & _ & F). rewrite F. clear F.
  split; [part; rewrite oc_all by reflexivity; apply forall2_map; intros n _; apply node_ok|].
  split; [part; rewrite oc_all by reflexivity; apply forall2_map; intros c _; apply cap_ok|].
  split. { part. rewrite oc_all by reflexivity. clear -Fl. induction Fl as [|l ps ls lps H F IH]; constructor; [exact (load_ok num cplx l ps H)|exact IH]. }
  split; [part; rewrite oc_all by reflexivity; apply forall2_map; intros t _; apply trafo_ok|].
  rewrite !oc_app. repeat (match goal with |- context [of_class ?cs (map ?f ?l)] => rewrite (oc_none cs f l) by (intros; reflexivity) end; cbn [app]). rewrite oc_all by (intros l; apply line_class_smem). apply forall2_map. intros l _. apply line_ok.
Qed.

Lemma regulators hs st ww ms rows st' : reached num cplx order hs st -> phases_ok ms -> write_glm num cplx order ww ms st = Ok (rows, st') ->
  NoDup (flat_map joined (regs ms)) -> (forall k, In k (flat_map joined (regs ms)) -> ~ In k (flat_map joined (flat_map regs hs))) ->
  Forall2 reg_says (regs ms) (of_class ["regulator"] (file rows)).
Proof.
  intros R P E N D. destruct (reached_good hs st R) as [G S].
  destruct (file_parts num cplx order perm ww ms st rows st' G P E) as (lps & tds & tnew & lds & lnew & rnew & Fl & _ & _ & _ & _ & _ & _ & _ & _ & F). rewrite F. clear F.
  part. rewrite oc_all by reflexivity. rewrite kept_all; [|exact N|]. { apply forall2_map. intros r _. apply reg_ok. }
  intros k Hk. rewrite S in Hk. intros H. exact (D k H Hk).
Qed.

(** ** Configurations *)
Lemma conf_ref prefix ds cs ns new n d : conf_res prefix ds [] [] cs ns new -> (forall d, In d (map snd ds) -> good_dic d) -> NoDup (map fst ds) -> In (n, d) ds ->
  NoDup (map snd new) /\ (forall d c, In (d, c) new -> good_dic d) /\ exists d' c, oget ns n = Some c /\ cfind cs d = Some c /\ In (d', c) new /\ same_set d' d = true.
Proof.
  intros (Ec & Nm & Dn & Fn & On) G N I. cbn [app] in Ec. subst cs. split; [rewrite Nm; apply numbers_nodup, seq_NoDup|]. split; [intros e c H; apply G; exact (proj1 (Dn e c H))|].
  pose proof (Fn n d I) as Hc. destruct (cfind new d) as [c|] eqn:Ef; [|congruence]. destruct (cfind_in _ _ _ Ef) as (d' & Hd' & Sd). exists d', c.
  split; [|auto]. rewrite On, (lastd_in ds n d N I). exact Ef.
Qed.
Lemma tds_fst {X} (name : X -> option string) (dic : X -> res (dict gval)) xs ds : Forall2 (fun x nd => fst nd = name x /\ dic x = Ok (snd nd)) xs ds -> map fst ds = map name xs.
Proof. induction 1 as [|x nd xs ds [H _] F IH]; [reflexivity|]. cbn. now rewrite H, IH. Qed.
Lemma tds_in {X} (name : X -> option string) (dic : X -> res (dict gval)) xs ds x : Forall2 (fun x nd => fst nd = name x /\ dic x = Ok (snd nd)) xs ds -> In x xs -> exists d, dic x = Ok d /\ In (name x, d) ds.
Proof. intros F I. destruct (forall2_in_l _ _ _ _ F I) as ([n d] & Hd & Hn & E). cbn in *. subst n. eauto. Qed.
Lemma tds_good {X} (name : X -> option string) (dic : X -> res (dict gval)) xs ds : (forall x d, dic x = Ok d -> good_dic d) -> Forall2 (fun x nd => fst nd = name x /\ dic x = Ok (snd nd)) xs ds ->
  forall d, In d (map snd ds) -> good_dic d.
Proof. intros G. induction 1 as [|x [n e] xs ds [_ H] F IH]; [intros d []|]. intros d [<-|I]; [exact (G x _ H)|auto]. Qed.
Lemma good_two d : good_dic d -> uniq d /\ dget d "name" = None.
Proof. intros (U & N & _). auto. Qed.

Lemma own_in ms t : In t (own_trafos ms) -> In t (trafos ms).
Proof. unfold own_trafos. intros H. apply filter_In in H. tauto. Qed.

Lemma trafo_refs ww ms rows st : phases_ok ms -> write_glm num cplx order ww ms wstate0 = Ok (rows, st) -> NoDup (map t_name (trafos ms)) ->
  Forall2 (fun t b => trafo_says t b /\ (t_name t <> None -> exists conf, refers (file rows) b "transformer_configuration" conf /\ trafo_conf_says num t conf))
    (own_trafos ms) (of_class ["transformer"] (file rows)).
Proof.
  intros P E N. destruct (file_parts num cplx order perm ww ms wstate0 rows st good_state0 P E) as (lps & tds & tnew & lds & lnew & rnew & _ & Ft & Rt & _ & _ & _ & _ & _ & _ & F). rewrite F. clear F.
  assert (W : forall b c, named (map (node_b num) (nodes ms) ++ map (cap_b num) (capacitors ms) ++ map load_b lps ++ map (conf_b num cplx "transformer_configuration") tnew ++
      map (trafo_b (ws_tn st)) (own_trafos ms) ++ map (rconf_b num cplx order (ws_rp st)) (ws_rc st) ++ map (reg_b (ws_rn st)) (kept (ws_seen wstate0) (regs ms)) ++
      map (conf_b num cplx "line_configuration") lnew ++ map (line_b num (ws_ln st)) (lines ms)) "transformer_configuration" c = b <-> named (map (conf_b num cplx "transformer_configuration") tnew) "transformer_configuration" c = b).
  { intros b c. part. reflexivity. }
  set (bs := map (node_b num) (nodes ms) ++ _) in *. assert (O : of_class ["transformer"] bs = map (trafo_b (ws_tn st)) (own_trafos ms)) by (unfold bs; part; rewrite oc_all by reflexivity; reflexivity).
  rewrite O. apply forall2_map. intros t It. split; [apply trafo_ok|]. intros Nn.
  destruct (tds_in _ _ _ _ t Ft (own_in ms t It)) as (d & Ed & Hd). rewrite <- (tds_fst _ _ _ _ Ft) in N.
  destruct (conf_ref _ _ _ _ _ _ _ Rt (tds_good _ _ _ _ trafo_good Ft) N Hd) as (Nn' & Gn & d' & c & Oc & _ & Hd' & Sd).
  exists (conf_b num cplx "transformer_configuration" (d', c)). split; [|exact (trafo_conf_ok num cplx _ t d d' c Ed (Gn _ _ Hd') Sd)].
  exists c. split; [rewrite (proj2 (trafo_ok _ t)); unfold conf_of; destruct (t_name t); [now rewrite Oc|congruence]|]. split.
  - apply W. apply named_confs; [intros e x He; apply good_two; eauto|exact Nn'|exact Hd'].
  - destruct (good_two _ (Gn _ _ Hd')). now apply conf_b_name.
Qed.

Lemma line_refs ms rows st : number_texts num cplx -> phases_ok ms -> write_glm num cplx order None ms wstate0 = Ok (rows, st) -> NoDup (map l_name (filter plain (lines ms))) ->
  Forall2 (fun l b => line_says num l b /\ (l_name l <> None -> plain l = true -> exists conf, refers (file rows) b "line_configuration" conf /\
      (distinct_phases l -> positive_entries l -> line_conf_says num l conf)))
    (lines ms) (of_class line_classes (file rows)).
Proof.
  intros T P E N. destruct (file_parts num cplx order perm None ms wstate0 rows st good_state0 P E) as (lps & tds & tnew & lds & lnew & rnew & _ & _ & _ & _ & [Fl Rl] & _ & _ & _ & _ & F). rewrite F. clear F.
  assert (W : forall b c, named (map (node_b num) (nodes ms) ++ map (cap_b num) (capacitors ms) ++ map load_b lps ++ map (conf_b num cplx "transformer_configuration") tnew ++
      map (trafo_b (ws_tn st)) (own_trafos ms) ++ map (rconf_b num cplx order (ws_rp st)) (ws_rc st) ++ map (reg_b (ws_rn st)) (kept (ws_seen wstate0) (regs ms)) ++
      map (conf_b num cplx "line_configuration") lnew ++ map (line_b num (ws_ln st)) (lines ms)) "line_configuration" c = b <-> named (map (conf_b num cplx "line_configuration") lnew) "line_configuration" c = b).
  { intros b c. part. reflexivity. }
  set (bs := map (node_b num) (nodes ms) ++ _) in *. assert (O : of_class line_classes bs = map (line_b num (ws_ln st)) (lines ms)).
  { unfold bs. rewrite !oc_app. repeat (match goal with |- context [of_class ?cs (map ?f ?l)] => rewrite (oc_none cs f l) by (intros; reflexivity) end; cbn [app]). rewrite oc_all by (intros l; apply line_class_smem). reflexivity. }
  rewrite O. apply forall2_map. intros l Il. split; [apply line_ok|]. intros Nn Pl.
  assert (Ip : In l (filter plain (lines ms))) by (apply filter_In; auto).
  destruct (tds_in _ _ _ _ l Fl Ip) as (d & Ed & Hd). rewrite <- (tds_fst _ _ _ _ Fl) in N.
  destruct (conf_ref _ _ _ _ _ _ _ Rl (tds_good _ _ _ _ (fun x e H => proj1 (line_dic_spec cplx x e H)) Fl) N Hd) as (Nn' & Gn & d' & c & Oc & _ & Hd' & Sd).
  exists (conf_b num cplx "line_configuration" (d', c)). split; [|intros Dp Pe; exact (line_conf_ok num cplx _ l d d' c T Dp Pe Ed (Gn _ _ Hd') Sd)].
  exists c. split; [|split].
  - rewrite (proj2 (line_ok num _ l)). unfold conf_of. assert (smem (line_class l) ["underground_line"; "overhead_line"] = true) as ->.
    { unfold line_class, plain in *. destruct (oeqb (l_type l) (Some "underground")); [reflexivity|]. destruct (l_fuse l) as [[]|], (l_switch l) as [[]|]; try discriminate Pl; reflexivity. }
    destruct (l_name l); [now rewrite Oc|congruence].
  - apply W. apply named_confs; [intros e x He; apply good_two; eauto|exact Nn'|exact Hd'].
  - destruct (good_two _ (Gn _ _ Hd')). now apply conf_b_name.
Qed.

Lemma controls_same r r' : same_set (reg_dic r) (reg_dic r') = same_controls r r'.
Proof.
  assert (U : forall r, uniq (reg_dic r)) by (intros x; apply (proj1 (reg_dic_good x))).
  assert (Q1 : forall a b, oqeqb a b = true <-> match option_map VN a, option_map VN b with Some x, Some y => gval_eqb x y = true | None, None => True | _, _ => False end).
  { intros [a|] [b|]; cbn; intuition congruence. }
  assert (Q2 : forall a b, oeqb a b = true <-> match option_map VS a, option_map VS b with Some x, Some y => gval_eqb x y = true | None, None => True | _, _ => False end).
  { intros [a|] [b|]; cbn; intuition congruence. }
  destruct (same_controls r r') eqn:E.
  - unfold same_controls in E. repeat rewrite andb_true_iff in E. destruct E as (((((((E1 & E2) & E3) & E4) & E5) & E6) & E7) & E8). unfold lowest in E3.
    apply get_same; [apply U|apply U|]. intros k. rewrite !reg_dic_get. destruct (String.eqb "connect_type" k); [reflexivity|].
    destruct (String.eqb "pt_phase" k); [apply Q2; exact E8|]. repeat (match goal with |- context [if String.eqb ?a k then _ else _] => destruct (String.eqb a k); [apply Q1; assumption|] end). exact I.
  - destruct (same_set (reg_dic r) (reg_dic r')) eqn:S; [|reflexivity]. rewrite <- E. pose proof (fun k => same_get _ _ k (U r) (U r') S) as H. symmetry.
    unfold same_controls, lowest. repeat rewrite andb_true_iff.
    pose proof (H "time_delay") as H1. pose proof (H "raise_taps") as H2. pose proof (H "lower_taps") as H3. pose proof (H "power_transducer_ratio") as H4. pose proof (H "current_transducer_ratio") as H5.
    pose proof (H "band_width") as H6. pose proof (H "band_center") as H7. pose proof (H "pt_phase") as H8. clear H. rewrite !reg_dic_get in H1, H2, H3, H4, H5, H6, H7, H8.
    cbn [String.eqb Ascii.eqb Bool.eqb] in *. rewrite !Q1, Q2. tauto.
Qed.

Lemma reg_refs ww ms rows st : phases_ok ms -> write_glm num cplx order ww ms wstate0 = Ok (rows, st) -> NoDup (map r_name (regs ms)) -> NoDup (flat_map joined (regs ms)) ->
  Forall2 (fun r b => reg_says r b /\ (r_name r <> None -> exists conf, refers (file rows) b "regulator_configuration" conf /\ reg_conf_says num r conf /\
      (filter (fun r' => same_controls r' r) (regs ms) = [r] -> tap_says num ms r conf)))
    (regs ms) (of_class ["regulator"] (file rows)).
Proof.
  intros P E N Nj. destruct (file_parts num cplx order perm ww ms wstate0 rows st good_state0 P E) as (lps & tds & tnew & lds & lnew & rnew & _ & _ & _ & Rr & _ & Gs & _ & (ns & k & Rf) & _ & F). rewrite F. clear F.
  rewrite kept_all; [|exact Nj|intros x []].
  assert (W : forall b c, named (map (node_b num) (nodes ms) ++ map (cap_b num) (capacitors ms) ++ map load_b lps ++ map (conf_b num cplx "transformer_configuration") tnew ++
      map (trafo_b (ws_tn st)) (own_trafos ms) ++ map (rconf_b num cplx order (ws_rp st)) (ws_rc st) ++ map (reg_b (ws_rn st)) (regs ms) ++
      map (conf_b num cplx "line_configuration") lnew ++ map (line_b num (ws_ln st)) (lines ms)) "regulator_configuration" c = b <-> named (map (rconf_b num cplx order (ws_rp st)) (ws_rc st)) "regulator_configuration" c = b).
  { intros b c. part. reflexivity. }
  set (bs := map (node_b num) (nodes ms) ++ _) in *. assert (O : of_class ["regulator"] bs = map (reg_b (ws_rn st)) (regs ms)) by (unfold bs; part; rewrite oc_all by reflexivity; reflexivity).
  rewrite O. apply forall2_map. intros r Ir. split; [apply reg_ok|]. intros Nn.
  assert (Hd : In (r_name r, reg_dic r) (rds ms)) by (unfold rds; apply (in_map (fun r => (r_name r, reg_dic r))); exact Ir).
  assert (Gd : forall d, In d (map snd (rds ms)) -> good_dic d) by (intros d H; unfold rds in H; rewrite map_map in H; apply in_map_iff in H; destruct H as (x & <- & _); apply reg_dic_good).
  assert (N' : NoDup (map fst (rds ms))) by (unfold rds; rewrite map_map; exact N).
  destruct (conf_ref _ _ _ _ _ _ _ Rr Gd N' Hd) as (Nn' & Gn & d' & c & Oc & _ & Hd' & Sd). destruct Rr as (Er & _). cbn [ws_rc wstate0 app] in Er. rewrite <- Er in Nn', Hd', Gn.
  destruct Gs as [Gs1 Gs2]. destruct (Gs1 d' c Hd') as [Gd' Nk].
  assert (Gset : forall d, good_settings (settings_in (ws_rp st) d)).
  { intros d. unfold settings_in. destruct (cfind (ws_rp st) d) as [s|] eqn:Ef; [|split; [constructor|intros x []]]. destruct (cfind_in _ _ _ Ef) as (e & He & _). exact (Gs2 e s He). }
  exists (rconf_b num cplx order (ws_rp st) (d', c)). split; [|split].
  - exists c. split; [rewrite (proj2 (reg_ok _ r)); unfold conf_of; destruct (r_name r); [now rewrite Oc|congruence]|]. split.
    + apply W. apply named_rconfs; [exact perm| |exact Nn'|exact Hd']. intros e x He. split; [eauto|apply Gset].
    + apply rconf_name; [exact perm|exact Gd'|apply Gset].
  - apply reg_conf_ok; [exact perm|exact Gd'|exact Nk|apply Gset|exact Sd].
  - intros One ph. rewrite rconf_val by (try exact perm; try exact Gd'; try apply Gset; discriminate).
    assert (dget d' ("tap_pos_" ++ ph) = None) as ->.
    { apply dget_none. intros H. apply (Nk _ H). split; [destruct Gd' as (_ & _ & K); exact (K _ H)|eauto]. }
    cbn [app]. pose proof (reg_fold_ph num order ms ms (reg_dic r)) as Rp. cbn [ws_rc ws_rn ws_rp wstate0] in Rf.
    destruct (fold_left (reg_step num ms) ms ([], [], [], 1)) as [[[cs' ns'] ph'] k'] eqn:Ex in Rp. pose proof (eq_trans (eq_sym Rf) Ex) as Ey. injection Ey as _ _ <- _. destruct Rp as [_ Rp].
    assert (users (reg_dic r) (regs ms) = [r]) as U. { rewrite <- One. unfold users. apply filter_ext. intros x. apply controls_same. }
    rewrite U in Rp. unfold settings_in. rewrite (cfind_cong _ _ _ Sd), Rp. cbn [fold_left]. rewrite reg_settings_spec, taps_get.
    destruct (filter (fun j => oeqb (pw_phase j) (Some ph)) (rev (reg_pws ms r))); reflexivity.
Qed.

(** ** A second write *)
Lemma tds_fun {X} (name : X -> option string) (dic : X -> res (dict gval)) xs : forall ds ds',
  Forall2 (fun x nd => fst nd = name x /\ dic x = Ok (snd nd)) xs ds -> Forall2 (fun x nd => fst nd = name x /\ dic x = Ok (snd nd)) xs ds' -> ds = ds'.
Proof.
  induction xs as [|x xs IH]; intros ds ds' F F'; inversion F as [|? [n d] ? ? [H1 H2]]; subst; inversion F' as [|? [n' d'] ? ? [H1' H2']]; subst; [reflexivity|]. cbn in *.
  rewrite H2 in H2'. injection H2' as <-. f_equal; [congruence|auto].
Qed.
Lemma no_new prefix ds cs0 ns0 cs ns new cs' ns' new' : conf_res prefix ds cs0 ns0 cs ns new -> conf_res prefix ds cs ns cs' ns' new' -> new' = [].
Proof.
  intros (_ & _ & _ & F & _) (_ & _ & D & _). destruct new' as [|[d c] new']; [reflexivity|]. destruct (D d c (or_introl eq_refl)) as (H & Hn & _).
  apply in_map_iff in H. destruct H as ([n e] & E & H). cbn in E. subst e. destruct (F n d H Hn).
Qed.
Lemma still_named prefix ds cs0 ns0 cs ns new n d : conf_res prefix ds cs0 ns0 cs ns new -> NoDup (map fst ds) -> In (n, d) ds -> oget ns n <> None.
Proof. intros (_ & _ & _ & F & O) N I. rewrite O, (lastd_in _ _ _ N I). exact (F n d I). Qed.

Lemma second_write hs st0 ww ms rows1 st1 rows2 st2 : reached num cplx order hs st0 -> phases_ok ms ->
  write_glm num cplx order None ms st0 = Ok (rows1, st1) -> write_glm num cplx order ww ms st1 = Ok (rows2, st2) ->
  of_class ["transformer_configuration"; "line_configuration"] (file rows2) = [] /\
  (NoDup (map t_name (trafos ms)) -> Forall2 (fun t b => t_name t <> None -> values b "configuration" <> []) (own_trafos ms) (of_class ["transformer"] (file rows2))) /\
  ((forall r, In r (regs ms) -> r_from r <> None /\ r_to r <> None) -> of_class ["regulator"] (file rows2) = []).
Proof.
  intros R P E1 E2. destruct (reached_good hs st0 R) as [G0 _].
  destruct (file_parts num cplx order perm None ms st0 rows1 st1 G0 P E1) as (lps & tds & tnew & lds & lnew & rnew & _ & Ft & Rt & _ & [Fl Rl] & G1 & Sn & _).
  destruct (file_parts num cplx order perm ww ms st1 rows2 st2 G1 P E2) as (lps' & tds' & tnew' & lds' & lnew' & rnew' & _ & Ft' & Rt' & _ & Rl' & _ & _ & _ & _ & F). rewrite F. clear F.
  rewrite <- (tds_fun _ _ _ _ _ Ft Ft') in *. pose proof (no_new _ _ _ _ _ _ _ _ _ _ Rt Rt') as ->.
  assert (lnew' = []) as ->. { destruct ww; cbn in Rl'; [tauto|]. destruct Rl' as [Fl' Rl']. rewrite <- (tds_fun _ _ _ _ _ Fl Fl') in *. exact (no_new _ _ _ _ _ _ _ _ _ _ Rl Rl'). }
  split; [part; reflexivity|]. split.
  - intros N. part. rewrite oc_all by reflexivity. apply forall2_map. intros t It Nn. rewrite (proj2 (trafo_ok _ t)). destruct (tds_in _ _ _ _ t Ft (own_in ms t It)) as (d & _ & Hd).
    rewrite <- (tds_fst _ _ _ _ Ft) in N. pose proof (still_named _ _ _ _ _ _ _ _ _ Rt' N Hd) as Ho. unfold conf_of. destruct (t_name t) as [n|]; [|congruence]. destruct (oget (ws_tn st2) (Some n)); [discriminate|congruence].
  - intros He. part. rewrite kept_none; [reflexivity|]. intros r Ir. destruct (He r Ir) as [Hf Ht]. split.
    + unfold ends_key. destruct (r_from r), (r_to r); congruence.
    + intros k Hk. apply Sn. right. eauto.
Qed.

(** ** Sharing *)
Lemma trafo_shared ww ms hs st0 rows st : reached num cplx order hs st0 -> phases_ok ms -> write_glm num cplx order ww ms st0 = Ok (rows, st) -> NoDup (map t_name (trafos ms)) ->
  Forall2 (fun t b => Forall2 (fun t' b' => t_name t <> None -> t_name t' <> None -> t_install t = t_install t' -> t_noload t = t_noload t' -> t_wds t = t_wds t' -> t_react t = t_react t' ->
      values b "configuration" = values b' "configuration") (own_trafos ms) (of_class ["transformer"] (file rows))) (own_trafos ms) (of_class ["transformer"] (file rows)).
Proof.
  intros R P E N. destruct (reached_good hs st0 R) as [G _]. destruct (file_parts num cplx order perm ww ms st0 rows st G P E) as (lps & tds & tnew & lds & lnew & rnew & _ & Ft & Rt & _ & _ & _ & _ & _ & _ & F). rewrite F. clear F.
  part. rewrite oc_all by reflexivity. rewrite <- (tds_fst _ _ _ _ Ft) in N.
  assert (V : forall t, In t (own_trafos ms) -> t_name t <> None -> exists d, trafo_dic t = Ok d /\ values (trafo_b (ws_tn st) t) "configuration" = opt (cfind (ws_tc st) d) (fun c => c)).
  { intros t It Nn. destruct (tds_in _ _ _ _ t Ft (own_in ms t It)) as (d & Ed & Hd). exists d. split; [exact Ed|]. rewrite (proj2 (trafo_ok _ t)). unfold conf_of. destruct (t_name t) as [n|] eqn:En; [|congruence].
    destruct Rt as (_ & _ & _ & _ & O). now rewrite O, (lastd_in _ _ _ N Hd). }
  apply forall2_map. intros t It. apply forall2_map. intros t' It' Nt Nt' H1 H2 H3 H4. destruct (V t It Nt) as (d & Ed & ->). destruct (V t' It' Nt') as (d' & Ed' & ->).
  unfold trafo_dic in *. rewrite H1, H2, H3, H4 in Ed. rewrite Ed in Ed'. now injection Ed' as <-.
Qed.
Lemma line_shared ms hs st0 rows st : reached num cplx order hs st0 -> phases_ok ms -> write_glm num cplx order None ms st0 = Ok (rows, st) -> NoDup (map l_name (filter plain (lines ms))) ->
  Forall2 (fun l b => Forall2 (fun l' b' => l_name l <> None -> l_name l' <> None -> plain l = true -> plain l' = true -> l_wires l = l_wires l' -> l_z l = l_z l' ->
      values b "configuration" = values b' "configuration") (lines ms) (of_class line_classes (file rows))) (lines ms) (of_class line_classes (file rows)).
Proof.
  intros R P E N. destruct (reached_good hs st0 R) as [G _]. destruct (file_parts num cplx order perm None ms st0 rows st G P E) as (lps & tds & tnew & lds & lnew & rnew & _ & _ & _ & _ & [Fl Rl] & _ & _ & _ & _ & F). rewrite F. clear F.
  rewrite !oc_app. repeat (match goal with |- context [of_class ?cs (map ?f ?l)] => rewrite (oc_none cs f l) by (intros; reflexivity) end; cbn [app]). rewrite oc_all by (intros l; apply line_class_smem).
  rewrite <- (tds_fst _ _ _ _ Fl) in N.
  assert (V : forall l, In l (lines ms) -> l_name l <> None -> plain l = true -> exists d, line_dic cplx l = Ok d /\ values (line_b num (ws_ln st) l) "configuration" = opt (cfind (ws_lc st) d) (fun c => c)).
  { intros l Il Nn Pl. destruct (tds_in _ _ _ _ l Fl (proj2 (filter_In _ _ _) (conj Il Pl))) as (d & Ed & Hd). exists d. split; [exact Ed|]. rewrite (proj2 (line_ok num _ l)). unfold conf_of.
    assert (smem (line_class l) ["underground_line"; "overhead_line"] = true) as ->.
    { unfold line_class, plain in *. destruct (oeqb (l_type l) (Some "underground")); [reflexivity|]. destruct (l_fuse l) as [[]|], (l_switch l) as [[]|]; try discriminate Pl; reflexivity. }
    destruct (l_name l) as [n|] eqn:En; [|congruence]. destruct Rl as (_ & _ & _ & _ & O). now rewrite O, (lastd_in _ _ _ N Hd). }
  apply forall2_map. intros l Il. apply forall2_map. intros l' Il' Nt Nt' Pl Pl' H1 H2. destruct (V l Il Nt Pl) as (d & Ed & ->). destruct (V l' Il' Nt' Pl') as (d' & Ed' & ->).
  unfold line_dic, line_phases in *. rewrite H1, H2 in Ed. rewrite Ed in Ed'. now injection Ed' as <-.
Qed.
End Write.
