(** The loops, the post-processing and the single metrics. *)
From Verif Require Import Base BaseFacts StoreModel NetworkModel NetworkSpec CenterTapModel CenterTapSpec CenterTapProofs MetricsModel MetricsSpec MetricsProofs MetricsLines MetricsLoads.
From Coq Require Import QArith Qabs Lqa Lia.
Local Open Scope string_scope.
Local Open Scope nat_scope.
Local Open Scope list_scope.

(** ** Post-processing *)

Lemma scale_spec f ks : forall c, NoDup ks -> dkeys (scale f ks c) = dkeys c /\
  forall k, dget (scale f ks c) k = match dget c k with Some q => Some (if smem k ks then (q * f)%Q else q) | None => None end.
Proof.
  unfold scale. induction ks as [|k0 ks IH]; intros c N; cbn [fold_left].
  - split; [reflexivity|]. intros k. cbn. destruct (dget c k); reflexivity.
  - apply NoDup_cons_iff in N. destruct N as [N0 N]. destruct (dget c k0) as [q0|] eqn:E0.
    + destruct (IH (dset c k0 (q0 * f)%Q) N) as [K G]. split; [rewrite K; eapply dset_keys; eauto|]. intros k. rewrite G. change (smem k (k0 :: ks)) with (String.eqb k k0 || smem k ks).
      rewrite dget_dset. destruct (String.eqb_spec k0 k) as [E|Ne].
      * subst k. rewrite E0, String.eqb_refl. cbn [orb]. apply smem_not_In in N0. rewrite N0. reflexivity.
      * destruct (String.eqb_spec k k0) as [E|_]; [congruence|]. reflexivity.
    + destruct (IH c N) as [K G]. split; [exact K|]. intros k. rewrite G. change (smem k (k0 :: ks)) with (String.eqb k k0 || smem k ks). destruct (String.eqb_spec k k0) as [->|Ne]; [rewrite E0; reflexivity|reflexivity].
Qed.
Definition fac (k : string) : Q := (if smem k miles_keys then mile else if smem k kilo_keys then milli else 1)%Q.
Lemma dget_app {V} (a b : dict V) k : dget (a ++ b) k = match dget a k with Some v => Some v | None => dget b k end.
Proof. induction a as [|[k' v] a IH]; cbn; [reflexivity|]. destruct (String.eqb k' k); [reflexivity|exact IH]. Qed.
Lemma dget_map {V W} (f : V -> W) (d : dict V) k : dget (map (fun kv => (fst kv, f (snd kv))) d) k = option_map f (dget d k).
Proof. induction d as [|[k' v] d IH]; cbn; [reflexivity|]. destruct (String.eqb k' k); [reflexivity|exact IH]. Qed.

Definition share (a tot : Q) : Q := if Qeq_bool tot 0 then 0%Q else (a / tot * 100)%Q.
Definition oh_share (a tot : Q) : value := if Qeq_bool tot 0 then NaN else Num (a / tot * 100)%Q.
Definition spread (a b c tot : Q) : value := if Qeq_bool tot 0 then NaN else Num ((Qabs (a - tot / 3) + Qabs (b - tot / 3) + Qabs (c - tot / 3)) / tot)%Q.

Lemma finish_spec c : dkeys c = counters -> exists g r, finish c = Ok r /\
  (forall k, In k counters -> dget c k = Some (g k)) /\
  (forall k, In k counters -> exists q, dget r k = Some (Num q) /\ (q == g k * fac k)%Q) /\
  (let tot := (g "sum_lv_pha_load_kw" + g "sum_lv_phb_load_kw" + g "sum_lv_phc_load_kw")%Q in
   dget r "perct_lv_pha_load_kw" = Some (Num (share (g "sum_lv_pha_load_kw") tot)) /\
   dget r "perct_lv_phb_load_kw" = Some (Num (share (g "sum_lv_phb_load_kw") tot)) /\
   dget r "perct_lv_phc_load_kw" = Some (Num (share (g "sum_lv_phc_load_kw") tot))) /\
  (let tot := (g "lv_len_mi" * mile + g "mv_len_mi" * mile)%Q in
   dget r "perct_mv_oh_len" = Some (oh_share (g "mv_oh_1ph_len_mi" * mile + g "mv_oh_2ph_len_mi" * mile + g "mv_oh_3ph_len_mi" * mile)%Q tot) /\
   dget r "perct_lv_oh_len" = Some (oh_share (g "lv_oh_1ph_len_mi" * mile + g "lv_oh_2ph_len_mi" * mile + g "lv_oh_3ph_len_mi" * mile)%Q tot)) /\
  dget r "avg_load_imbalance_by_phase" = Some (spread (g "sum_load_pha_kw" * milli) (g "sum_load_phb_kw" * milli) (g "sum_load_phc_kw" * milli) (g "sum_load_kw" * milli)) /\
  dget r "ratio_1ph_to_3ph_transformers" = Some (if Qeq_bool (g "num_3ph_transformers") 0 then Inf else Num (g "num_1ph_transformers" / g "num_3ph_transformers")%Q) /\
  dget r "num_sectionalizers_per_recloser" = Some (if Qeq_bool (g "num_reclosers") 0 then NaN else Num (g "num_sectionalizers" / g "num_reclosers")%Q) /\
  dget r "ratio_mv_len_to_num_cust" = Some (if Qeq_bool (g "num_customers") 0 then NaN else Num (g "mv_len_mi" * mile / g "num_customers")%Q) /\
  dget r "ratio_lv_len_to_num_cust" = (if Qeq_bool (g "num_customers") 0 then None else Some (Num (g "lv_len_mi" * mile / g "num_customers")%Q)).
Proof.
  intros K. set (g := fun k => match dget c k with Some q => q | None => 0%Q end).
  assert (G : forall k, In k counters -> dget c k = Some (g k)).
  { intros k Hk. unfold g. destruct (dget c k) eqn:E; [reflexivity|]. apply dget_None in E. rewrite K in E. contradiction. }
  clearbody g. exists g. unfold finish.
  assert (N1 : NoDup miles_keys) by (unfold miles_keys; repeat constructor; cbn; intuition discriminate).
  assert (N2 : NoDup kilo_keys) by (unfold kilo_keys; repeat constructor; cbn; intuition discriminate).
  destruct (scale_spec mile miles_keys c N1) as [K1 G1]. destruct (scale_spec milli kilo_keys (scale mile miles_keys c) N2) as [K2 G2].
  set (c' := scale milli kilo_keys (scale mile miles_keys c)) in *. clearbody c'. rewrite K1, K in K2.
  assert (G' : forall k, In k counters -> dget c' k = Some (if smem k kilo_keys then ((if smem k miles_keys then g k * mile else g k) * milli) else (if smem k miles_keys then g k * mile else g k))%Q).
  { intros k Hk. rewrite G2, G1, (G k Hk). reflexivity. }
  rewrite !G by (apply smem_In; reflexivity). cbn [of_opt bind]. rewrite !G' by (apply smem_In; reflexivity).
  cbn [of_opt bind smem existsb miles_keys kilo_keys String.eqb Ascii.eqb Bool.eqb orb].
  eexists. split; [reflexivity|]. split; [exact G|]. split.
  { intros k Hk. eexists. split; [rewrite dget_app, dget_map, (G' k Hk); cbn [option_map]; reflexivity|].
    unfold fac. assert (D : smem k kilo_keys = true -> smem k miles_keys = false).
    { intros H. apply smem_In in H. cbn in H. decompose [or] H; try contradiction; subst k; reflexivity. }
    destruct (smem k kilo_keys); [rewrite D by reflexivity; reflexivity|]. destruct (smem k miles_keys); [reflexivity|ring]. }
  assert (X : forall k, smem k counters = false -> dget (map (fun kv => (fst kv, Num (snd kv))) c') k = None).
  { intros k Hk. rewrite dget_map. destruct (dget c' k) eqn:E; [|reflexivity]. apply dget_Some_key in E. rewrite K2 in E. apply smem_In in E. congruence. }
  rewrite !dget_app. rewrite !X by reflexivity. cbn [dget String.eqb Ascii.eqb Bool.eqb].
  split; [repeat split|]. split; [repeat split|]. split; [reflexivity|]. split; [reflexivity|]. split; [reflexivity|]. split; [reflexivity|].
  destruct (Qeq_bool (g "num_customers") 0); reflexivity.
Qed.

(** ** The loops *)

Section Top.
Variables (LV MV : Q) (by_transformers : bool) (feeder_name : string -> option (option string)) (power_behind : option string -> option Q).
Notation object_incs := (object_incs LV MV by_transformers feeder_name power_behind).
Notation analyze := (analyze LV MV by_transformers feeder_name power_behind).
Notation compute_all_metrics := (compute_all_metrics LV MV by_transformers feeder_name power_behind).
Notation compute_all_metrics_per_feeder := (compute_all_metrics_per_feeder LV MV by_transformers feeder_name power_behind).
Notation feeder_step := (feeder_step LV MV by_transformers feeder_name power_behind).

Lemma fresh_keys : dkeys fresh = counters.
Proof. reflexivity. Qed.
Lemma fresh_get k : In k counters -> dget fresh k = Some 0%Q.
Proof.
  intros H. destruct (dget fresh k) as [q|] eqn:E.
  - apply dget_In in E. unfold fresh in E. apply in_map_iff in E. destruct E as (k' & E & _). congruence.
  - apply dget_None in E. rewrite fresh_keys in E. contradiction.
Qed.

Lemma computed objs r : compute_all_metrics objs = Ok r -> exists ls g, Forall2 (fun o l => object_incs o = Ok l) objs ls /\
  (forall k, In k counters -> (g k == total (amount k) ls)%Q /\ exists q, dget r k = Some (Num q) /\ (q == g k * fac k)%Q) /\
  (let tot := (g "sum_lv_pha_load_kw" + g "sum_lv_phb_load_kw" + g "sum_lv_phc_load_kw")%Q in
   dget r "perct_lv_pha_load_kw" = Some (Num (share (g "sum_lv_pha_load_kw") tot)) /\
   dget r "perct_lv_phb_load_kw" = Some (Num (share (g "sum_lv_phb_load_kw") tot)) /\
   dget r "perct_lv_phc_load_kw" = Some (Num (share (g "sum_lv_phc_load_kw") tot))) /\
  (let tot := (g "lv_len_mi" * mile + g "mv_len_mi" * mile)%Q in
   dget r "perct_mv_oh_len" = Some (oh_share (g "mv_oh_1ph_len_mi" * mile + g "mv_oh_2ph_len_mi" * mile + g "mv_oh_3ph_len_mi" * mile)%Q tot) /\
   dget r "perct_lv_oh_len" = Some (oh_share (g "lv_oh_1ph_len_mi" * mile + g "lv_oh_2ph_len_mi" * mile + g "lv_oh_3ph_len_mi" * mile)%Q tot)) /\
  dget r "avg_load_imbalance_by_phase" = Some (spread (g "sum_load_pha_kw" * milli) (g "sum_load_phb_kw" * milli) (g "sum_load_phc_kw" * milli) (g "sum_load_kw" * milli)) /\
  dget r "ratio_1ph_to_3ph_transformers" = Some (if Qeq_bool (g "num_3ph_transformers") 0 then Inf else Num (g "num_1ph_transformers" / g "num_3ph_transformers")%Q) /\
  dget r "num_sectionalizers_per_recloser" = Some (if Qeq_bool (g "num_reclosers") 0 then NaN else Num (g "num_sectionalizers" / g "num_reclosers")%Q).
Proof.
  unfold MetricsModel.compute_all_metrics. destruct (foldM analyze objs fresh) as [c|] eqn:F; cbn [bind]; [|discriminate]. intros E.
  destruct (analyze_fold _ _ _ _ _ _ _ _ F) as (ls & H & K & V). rewrite fresh_keys in K. destruct (finish_spec c K) as (g & r' & E' & G & R & P1 & P2 & P3 & P4 & P5 & _).
  assert (r' = r) by congruence. subst r'. exists ls, g. split; [exact H|]. split; [|auto 6].
  intros k Hk. split; [|apply R; exact Hk]. destruct (V k 0%Q (fresh_get k Hk)) as (y & Ey & Q1). rewrite (G k Hk) in Ey. injection Ey as ->. rewrite Q1. ring.
Qed.
Lemma ratios objs r : compute_all_metrics objs = Ok r ->
  quotient r "ratio_1ph_to_3ph_transformers" "num_1ph_transformers" "num_3ph_transformers" (Some Inf) /\
  quotient r "num_sectionalizers_per_recloser" "num_sectionalizers" "num_reclosers" (Some NaN) /\
  quotient r "ratio_mv_len_to_num_cust" "mv_len_mi" "num_customers" (Some NaN) /\
  quotient r "ratio_lv_len_to_num_cust" "lv_len_mi" "num_customers" None.
Proof.
  unfold MetricsModel.compute_all_metrics. destruct (foldM analyze objs fresh) as [c|] eqn:F; cbn [bind]; [|discriminate]. intros E.
  destruct (analyze_fold _ _ _ _ _ _ _ _ F) as (ls & H & K & V). rewrite fresh_keys in K. destruct (finish_spec c K) as (g & r' & E' & G & R & P1 & P2 & P3 & P4 & P5 & P6 & P7).
  assert (r' = r) by congruence. subst r'. clear - R P4 P5 P6 P7.
  assert (Q1 : forall k a b none, In a counters -> In b counters -> fac b = 1%Q ->
    dget r k = (if Qeq_bool (g b) 0 then none else Some (Num (g a * fac a / g b)%Q)) -> quotient r k a b none).
  { intros k a b none Ha Hb Fb Ek. destruct (R a Ha) as (x & Ex & Vx). destruct (R b Hb) as (y & Ey & Vy). rewrite Fb in Vy. exists x, y. split; [exists x; split; [exact Ex|reflexivity]|]. split; [exists y; split; [exact Ey|reflexivity]|].
    assert (By : (y == g b)%Q) by (rewrite Vy; ring). split; intros Z.
    - rewrite By in Z. apply Qeq_bool_iff in Z. rewrite Z in Ek. exact Ek.
    - destruct (Qeq_bool (g b) 0) eqn:B; [apply Qeq_bool_iff in B; rewrite <- By in B; contradiction|]. eexists. split; [exact Ek|]. rewrite Vx, By. reflexivity. }
  assert (One : forall v a, (v == g a * 1)%Q -> (v == g a)%Q) by (intros v a ->; ring).
  split; [|split; [|split]].
  - destruct (R "num_1ph_transformers") as (x & Ex & Vx); [apply smem_In; reflexivity|]. destruct (R "num_3ph_transformers") as (y & Ey & Vy); [apply smem_In; reflexivity|]. apply One in Vx. apply One in Vy.
    exists x, y. split; [exists x; split; [exact Ex|reflexivity]|]. split; [exists y; split; [exact Ey|reflexivity]|]. destruct (Qeq_bool (g "num_3ph_transformers") 0) eqn:B.
    + apply Qeq_bool_iff in B. split; [intros _; exact P4|intros N; rewrite Vy in N; contradiction].
    + split; [intros Z; rewrite Vy in Z; apply Qeq_bool_iff in Z; congruence|]. intros _. eexists. split; [exact P4|]. rewrite Vx, Vy. reflexivity.
  - destruct (R "num_sectionalizers") as (x & Ex & Vx); [apply smem_In; reflexivity|]. destruct (R "num_reclosers") as (y & Ey & Vy); [apply smem_In; reflexivity|]. apply One in Vx. apply One in Vy.
    exists x, y. split; [exists x; split; [exact Ex|reflexivity]|]. split; [exists y; split; [exact Ey|reflexivity]|]. destruct (Qeq_bool (g "num_reclosers") 0) eqn:B.
    + apply Qeq_bool_iff in B. split; [intros _; exact P5|intros N; rewrite Vy in N; contradiction].
    + split; [intros Z; rewrite Vy in Z; apply Qeq_bool_iff in Z; congruence|]. intros _. eexists. split; [exact P5|]. rewrite Vx, Vy. reflexivity.
  - apply Q1; [apply smem_In; reflexivity|apply smem_In; reflexivity|reflexivity|]. rewrite P6. destruct (Qeq_bool (g "num_customers") 0); reflexivity.
  - apply Q1; [apply smem_In; reflexivity|apply smem_In; reflexivity|reflexivity|exact P7].
Qed.

(** *** Success *)
Lemma analyze_total c o l : dkeys c = counters -> object_incs o = Ok l -> exists c', analyze c o = Ok c' /\ dkeys c' = counters.
Proof.
  intros K E. unfold MetricsModel.analyze. rewrite E. cbn [bind]. destruct (bump_total l c) as [c' Ec]; [intros i Hi; rewrite K; eapply incs_keys; eauto|].
  exists c'. split; [exact Ec|]. destruct (bump_fold _ _ _ Ec) as [K' _]. congruence.
Qed.
Lemma py_max_ok x l : exists m, py_max (x :: l) = Ok m.
Proof. cbn. eauto. Qed.
Lemma countable_incs o : countable o -> exists l, object_incs o = Ok l.
Proof.
  unfold countable, MetricsModel.object_incs. destruct (mb_body o) as [ln|x| | |t|]; [| |eauto|eauto| |eauto].
  - intros [(ws & W) (x & X)]. unfold line_incs. rewrite W.
    assert (LI : forall v, exists i, length_incs v (length (phases ws)) ln = Ok i) by (intros v; unfold length_incs; rewrite X; cbn [of_opt bind]; destruct (Qle_bool 0 x); eauto).
    destruct (ml_volt ln) as [v|]; [|cbn; eauto]. destruct (Qle_bool _ _); [destruct (LI "lv") as [i ->]; cbn; eauto|]. destruct (_ && _); [destruct (LI "mv") as [i ->]; cbn; eauto|cbn; eauto].
  - intros H. unfold load_incs, demand_incs. destruct H as [->|(y & r & p & q & -> & Ep & Eq)]; [cbn; eauto|]. rewrite Ep, Eq. cbn. eauto.
  - intros (w & w' & r & p & W & P). unfold overload_incs, kind_incs. rewrite W. cbn [map some_only flat_map]. rewrite P. cbn [app].
    destruct (power_behind _) as [tot|]; cbn [bind].
    + unfold py_max. cbn [bind]. destruct (wd_volt w); [destruct (wd_volt w')|]; cbn [bind]; eauto.
    + destruct (wd_volt w); [destruct (wd_volt w')|]; cbn [bind]; eauto.
Qed.
Lemma loop_total objs : forall c, dkeys c = counters -> Forall countable objs -> exists c', foldM analyze objs c = Ok c' /\ dkeys c' = counters.
Proof.
  induction objs as [|o objs IH]; intros c K H; cbn [foldM]; [eauto|]. apply Forall_cons_iff in H. destruct H as [H0 H]. destruct (countable_incs _ H0) as [l El].
  destruct (analyze_total c o l K El) as (c1 & -> & K1). cbn [bind]. apply IH; auto.
Qed.
Lemma compute_total objs : Forall countable objs -> exists r, compute_all_metrics objs = Ok r.
Proof.
  intros H. unfold MetricsModel.compute_all_metrics. destruct (loop_total objs fresh fresh_keys H) as (c & -> & K). cbn [bind]. destruct (finish_spec c K) as (g & r & E & _). eauto.
Qed.

(** *** Feeders *)
Lemma mapped_spec m x f : mapped m x f <-> match x with Some k => dget m k | None => None end = Some f.
Proof. unfold mapped. destruct x as [k|]; split; [intros (k' & E & H); injection E as <-; exact H|eauto|intros (k' & E & _); discriminate|discriminate]. Qed.
Lemma not_mapped m x : (forall g, ~ mapped m x g) <-> match x with Some k => dget m k | None => None end = None.
Proof.
  split; intros H.
  - destruct (match x with Some k => dget m k | None => None end) as [g|] eqn:E; [|reflexivity]. exfalso. apply (H g). apply mapped_spec. exact E.
  - intros g C. apply mapped_spec in C. congruence.
Qed.
Lemma get_feeder_spec m o x f : mb_name o = Some x -> (get_feeder m o x = Some f <-> belongs m o f).
Proof.
  intros N. unfold get_feeder, belongs.
  assert (H : (exists name, mb_name o = Some name /\ (mapped m name f \/ (forall g, ~ mapped m name g) /\ (mapped m (mb_conn o) f \/ (forall g, ~ mapped m (mb_conn o) g) /\ mapped m (mb_from o) f))) <->
     (mapped m x f \/ (forall g, ~ mapped m x g) /\ (mapped m (mb_conn o) f \/ (forall g, ~ mapped m (mb_conn o) g) /\ mapped m (mb_from o) f))).
  { split; [intros (y & E & H); assert (y = x) by congruence; subst; exact H|intros H; exists x; auto]. }
  rewrite H. clear H. rewrite !not_mapped, !mapped_spec.
  destruct (match x with Some k => dget m k | None => None end) as [g|]; [split; [auto|intros [E|[E _]]; [exact E|discriminate]]|].
  destruct (match mb_conn o with Some k => dget m k | None => None end) as [g|].
  - split; [auto|]. intros [E|[_ [E|[E _]]]]; [discriminate|exact E|discriminate].
  - split; [auto|]. intros [E|[_ [E|[_ E]]]]; [discriminate|discriminate|exact E].
Qed.
Lemma belongs_fun m o f g : belongs m o f -> belongs m o g -> f = g.
Proof. intros H H'. destruct H as (x & E & Hx). apply (get_feeder_spec m o x) in H'; [|exact E]. assert (H : belongs m o f) by (exists x; auto). apply (get_feeder_spec m o x) in H; [|exact E]. congruence. Qed.

Lemma feeder_fold m names objs : forall r r', foldM (feeder_step m names) objs r = Ok r' -> forall f c, In f names -> dget r f = Some c ->
  exists objs' c', selects (fun o => belongs m o f) objs objs' /\ dget r' f = Some c' /\ foldM analyze objs' c = Ok c'.
Proof.
  induction objs as [|o objs IH]; intros r r' E f c Hf Hc; cbn [foldM] in E.
  - injection E as <-. exists [], c. split; [constructor|auto].
  - unfold MetricsModel.feeder_step at 1 in E. destruct (mb_name o) as [x|] eqn:N; cbn [bind] in E.
    2: { destruct (IH _ _ E f c Hf Hc) as (objs' & c' & S & G & F). exists objs', c'. split; [|auto]. apply sel_out; [|exact S]. intros (y & C & _). congruence. }
    destruct (get_feeder m o x) as [g|] eqn:Gf; cbn [bind] in E.
    2: { destruct (IH _ _ E f c Hf Hc) as (objs' & c' & S & G & F). exists objs', c'. split; [|auto]. apply sel_out; [|exact S]. intros C. apply (get_feeder_spec m o x f N) in C. congruence. }
    destruct (smem g names) eqn:Sg; cbn [bind] in E.
    + destruct (dget r g) as [cg|] eqn:Eg; cbn [of_opt bind] in E; [|discriminate]. destruct (analyze cg o) as [cg'|] eqn:Ea; cbn [bind] in E; [|discriminate].
      destruct (String.eqb_spec g f) as [->|Ne].
      * assert (cg = c) by congruence. subst cg. destruct (IH _ _ E f cg' Hf (dget_dset_same _ _ _)) as (objs' & c' & S & G & F). exists (o :: objs'), c'. split; [apply sel_in; [apply (get_feeder_spec m o x f N); exact Gf|exact S]|].
        split; [exact G|]. cbn [foldM]. rewrite Ea. exact F.
      * destruct (IH _ _ E f c Hf) as (objs' & c' & S & G & F); [rewrite dget_dset_other by exact Ne; exact Hc|]. exists objs', c'. split; [|auto]. apply sel_out; [|exact S].
        intros C. apply (get_feeder_spec m o x f N) in C. congruence.
    + destruct (IH _ _ E f c Hf Hc) as (objs' & c' & S & G & F). exists objs', c'. split; [|auto]. apply sel_out; [|exact S].
      intros C. apply (get_feeder_spec m o x f N) in C. assert (g = f) by congruence. subst. apply smem_In in Hf. congruence.
Qed.
Lemma start_get names f : forall r : dict (dict Q), dget r f = Some fresh \/ In f names -> dget (fold_left (fun r k => dset r k fresh) names r) f = Some fresh.
Proof.
  induction names as [|k names IH]; intros r H; cbn [fold_left]; [destruct H as [H|[]]; exact H|]. apply IH. rewrite dget_dset.
  destruct (String.eqb_spec k f) as [E|N]; [left; reflexivity|]. destruct H as [H|[H|H]]; [left; exact H|congruence|right; exact H].
Qed.
Lemma finish_all (r : dict (dict Q)) R : mapM (fun kc => do d <- finish (snd kc); Ok (fst kc, d)) r = Ok R -> forall f c, dget r f = Some c -> exists d, finish c = Ok d /\ dget R f = Some d.
Proof.
  revert R. induction r as [|[k c0] r IH]; intros R; cbn [mapM]; [intros E f c H; discriminate|]. cbn [fst snd]. destruct (finish c0) as [d0|] eqn:E0; cbn [bind]; [|discriminate].
  destruct (mapM _ r) as [R'|] eqn:E; cbn [bind]; [|discriminate]. intros E1. injection E1 as <-. intros f c H. cbn [dget] in *. destruct (String.eqb k f).
  - injection H as <-. exists d0. auto.
  - apply (IH R' eq_refl). exact H.
Qed.
Lemma per_feeder m names objs R f : compute_all_metrics_per_feeder m names objs = Ok R -> In f names ->
  exists objs' r, selects (fun o => belongs m o f) objs objs' /\ dget R f = Some r /\ compute_all_metrics objs' = Ok r.
Proof.
  unfold MetricsModel.compute_all_metrics_per_feeder. destruct (foldM _ objs _) as [r0|] eqn:F; cbn [bind]; [|discriminate]. intros E Hf.
  destruct (feeder_fold _ _ _ _ _ F f fresh Hf) as (objs' & c' & S & G & An); [apply start_get; right; exact Hf|].
  destruct (finish_all _ _ E f c' G) as (d & Fd & Gd). exists objs', d. split; [exact S|]. split; [exact Gd|]. unfold MetricsModel.compute_all_metrics. rewrite An. exact Fd.
Qed.

Lemma feeder_loop_total m names objs : forall r, (forall f, In f names -> exists c, dget r f = Some c) -> (forall f c, dget r f = Some c -> dkeys c = counters) -> Forall countable objs ->
  exists r', foldM (feeder_step m names) objs r = Ok r' /\ forall f c, dget r' f = Some c -> dkeys c = counters.
Proof.
  induction objs as [|o objs IH]; intros r Hn Hk H; cbn [foldM]; [eauto|]. apply Forall_cons_iff in H. destruct H as [H0 H]. unfold MetricsModel.feeder_step at 1.
  destruct (mb_name o) as [x|]; cbn [bind]; [|auto]. destruct (get_feeder m o x) as [g|]; cbn [bind]; [|auto]. destruct (smem g names) eqn:Sg; cbn [bind]; [|auto].
  apply smem_In in Sg. destruct (Hn g Sg) as [c Ec]. rewrite Ec. cbn [of_opt bind]. destruct (countable_incs _ H0) as [l El]. destruct (analyze_total c o l (Hk _ _ Ec) El) as (c' & -> & K'). cbn [bind].
  apply IH; [| |exact H].
  - intros f Hf. rewrite dget_dset. destruct (String.eqb g f); eauto.
  - intros f c0. rewrite dget_dset. destruct (String.eqb g f); [intros E; injection E as <-; exact K'|apply Hk].
Qed.
Lemma start_keys names : forall r : dict (dict Q), (forall f c, dget r f = Some c -> dkeys c = counters) -> forall f c, dget (fold_left (fun r k => dset r k fresh) names r) f = Some c -> dkeys c = counters.
Proof.
  induction names as [|k names IH]; intros r H f c; cbn [fold_left]; [apply H|]. apply IH. intros f0 c0. rewrite dget_dset. destruct (String.eqb k f0); [intros E; injection E as <-; reflexivity|apply H].
Qed.
Lemma start_nodup names : forall r : dict (dict Q), NoDup (dkeys r) -> NoDup (dkeys (fold_left (fun r k => dset r k fresh) names r)).
Proof. induction names as [|k names IH]; intros r H; cbn [fold_left]; [exact H|]. apply IH. apply dset_NoDup. exact H. Qed.
Lemma step_nodup m names r o r' : feeder_step m names r o = Ok r' -> NoDup (dkeys r) -> NoDup (dkeys r').
Proof.
  unfold MetricsModel.feeder_step. destruct (mb_name o) as [x|]; [|intros E; injection E as <-; auto]. destruct (get_feeder m o x) as [g|]; [|intros E; injection E as <-; auto].
  destruct (smem g names); [|intros E; injection E as <-; auto]. destruct (dget r g) as [c|]; cbn [of_opt bind]; [|discriminate]. destruct (analyze c o) as [c'|]; cbn [bind]; [|discriminate].
  intros E H. injection E as <-. apply dset_NoDup. exact H.
Qed.
Lemma per_feeder_total m names objs : Forall countable objs -> exists R, compute_all_metrics_per_feeder m names objs = Ok R.
Proof.
  intros H. unfold MetricsModel.compute_all_metrics_per_feeder.
  destruct (feeder_loop_total m names objs (fold_left (fun r k => dset r k fresh) names [])) as (r & E & K).
  - intros f Hf. exists fresh. apply start_get. right. exact Hf.
  - apply start_keys. discriminate.
  - exact H.
  - rewrite E. cbn [bind]. assert (N : NoDup (dkeys r)).
    { assert (P : forall l s s', foldM (feeder_step m names) l s = Ok s' -> NoDup (dkeys s) -> NoDup (dkeys s')).
      { induction l as [|o l IH]; intros s s' Es Hs; cbn [foldM] in Es; [injection Es as <-; exact Hs|]. destruct (feeder_step m names s o) as [s1|] eqn:E1; cbn [bind] in Es; [|discriminate]. eapply IH; [exact Es|]. eapply step_nodup; eauto. }
      apply (P _ _ _ E). apply start_nodup. constructor. }
    assert (K' : forall kc, In kc r -> dkeys (snd kc) = counters) by (intros [k c] Hkc; apply (K k c); apply dget_NoDup; auto).
    clear - K'. induction r as [|[k c] r IH]; cbn [mapM]; [eauto|]. cbn [fst snd]. destruct (finish_spec c) as (g & d & Ed & _); [apply (K' (k, c)); left; reflexivity|]. rewrite Ed. cbn [bind].
    destruct IH as [R' ->]; [intros kc Hkc; apply K'; right; exact Hkc|]. cbn [bind]. eauto.
Qed.
End Top.
