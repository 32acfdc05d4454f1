(** Proofs about the metrics. *)
From Verif Require Import Base BaseFacts StoreModel NetworkModel NetworkSpec CenterTapModel CenterTapSpec CenterTapProofs MetricsModel MetricsSpec.
From Coq Require Import QArith Qabs Lqa Lia.
Local Open Scope string_scope.
Local Open Scope nat_scope.
Local Open Scope list_scope.

(** ** Sums *)

Lemma sums_ext {A} (P : A -> Q -> Prop) l q q' : sums P l q -> (q == q')%Q -> sums P l q'.
Proof.
  intros H. revert q'. induction H as [q E|a x l q q1 Hx H IH E|a l q N H IH]; intros q' E'.
  - constructor. rewrite <- E'. exact E.
  - apply (sums_in P a x l q q' Hx H). rewrite <- E'. exact E.
  - apply sums_out; auto.
Qed.
Lemma sums_fun {A} (P : A -> Q -> Prop) l q q' : (forall a x y, In a l -> P a x -> P a y -> (x == y)%Q) -> sums P l q -> sums P l q' -> (q == q')%Q.
Proof.
  revert q q'. induction l as [|a l IH]; intros q q' F H H'.
  - inversion H; inversion H'; subst. lra.
  - assert (F' : forall a0 x y, In a0 l -> P a0 x -> P a0 y -> (x == y)%Q) by (intros; eapply F; eauto; right; assumption).
    inversion H as [|? x ? q1 ? Px S1 E1|? ? ? N1 S1]; subst; inversion H' as [|? x' ? q1' ? Px' S1' E1'|? ? ? N1' S1']; subst.
    + rewrite E1, E1', (IH _ _ F' S1 S1'), (F a x x'); [lra|left; reflexivity|assumption|assumption].
    + exfalso. eapply N1'; eauto.
    + exfalso. eapply N1; eauto.
    + exact (IH _ _ F' S1 S1').
Qed.
Fixpoint total {A} (f : A -> Q) (l : list A) : Q := match l with [] => 0 | a :: r => (f a + total f r)%Q end.
Lemma sums_total {A} (P : A -> Q -> Prop) (f : A -> Q) l :
  (forall a, In a l -> (exists x, P a x /\ (f a == x)%Q) \/ ((forall x, ~ P a x) /\ (f a == 0)%Q)) -> sums P l (total f l).
Proof.
  induction l as [|a l IH]; intros H; cbn [total]; [constructor; reflexivity|].
  assert (S : sums P l (total f l)) by (apply IH; intros; apply H; right; assumption).
  destruct (H a (or_introl eq_refl)) as [(x & Px & E)|(N & E)].
  - apply (sums_in P a x l (total f l)); auto. rewrite E. reflexivity.
  - apply sums_out; auto. eapply sums_ext; [exact S|]. rewrite E. ring.
Qed.
(** The list of values has the right one for each element. *)
Lemma sums_list {A B} (P : A -> Q -> Prop) (f : B -> Q) l (ls : list B) :
  Forall2 (fun a b => (exists x, P a x /\ (f b == x)%Q) \/ ((forall x, ~ P a x) /\ (f b == 0)%Q)) l ls -> sums P l (total f ls).
Proof.
  induction 1 as [|a b l ls [(x & Px & E)|(N & E)] H IH]; cbn [total]; [constructor; reflexivity| |].
  - apply (sums_in P a x l (total f ls)); auto. rewrite E. reflexivity.
  - apply sums_out; auto. eapply sums_ext; [exact IH|]. rewrite E. ring.
Qed.
Lemma total_ext {A} (f g : A -> Q) l : (forall a, In a l -> (f a == g a)%Q) -> (total f l == total g l)%Q.
Proof. induction l as [|a l IH]; intros H; cbn; [reflexivity|]. rewrite (H a), IH; [reflexivity|intros; apply H; right; assumption|left; reflexivity]. Qed.
Lemma total_le {A} (f g : A -> Q) l : (forall a, In a l -> (f a <= g a)%Q) -> (total f l <= total g l)%Q.
Proof.
  induction l as [|a l IH]; intros H; cbn; [lra|]. assert (H1 := H a (or_introl eq_refl)).
  assert (H2 : (total f l <= total g l)%Q) by (apply IH; intros; apply H; right; assumption). lra.
Qed.
Lemma total_app {A} (f : A -> Q) l l' : (total f (l ++ l') == total f l + total f l')%Q.
Proof. induction l as [|a l IH]; cbn; [ring|]. rewrite IH. ring. Qed.
Lemma total_plus {A} (f g : A -> Q) l : (total (fun a => f a + g a)%Q l == total f l + total g l)%Q.
Proof. induction l as [|a l IH]; cbn; [ring|]. rewrite IH. ring. Qed.
Lemma total_zero {A} (l : list A) : (total (fun _ => 0%Q) l == 0)%Q.
Proof. induction l; cbn; [reflexivity|]. rewrite IHl. ring. Qed.
Lemma total_nonneg {A} (f : A -> Q) l : (forall a, In a l -> (0 <= f a)%Q) -> (0 <= total f l)%Q.
Proof. intros H. rewrite <- (total_zero l). apply total_le. exact H. Qed.

(** ** Increments *)

Fixpoint amount (k : string) (l : incs) : Q :=
  match l with [] => 0%Q | (k', v) :: r => ((if String.eqb k' k then v else 0) + amount k r)%Q end.
Lemma amount_app k l l' : (amount k (l ++ l') == amount k l + amount k l')%Q.
Proof. induction l as [|[k' v] l IH]; cbn [amount app]; [ring|]. rewrite IH. ring. Qed.
Lemma amount_concat k ls : (amount k (concat ls) == total (amount k) ls)%Q.
Proof. induction ls as [|l ls IH]; cbn; [reflexivity|]. rewrite amount_app, IH. reflexivity. Qed.

Lemma dset_keys {V} (d : dict V) k v v0 : dget d k = Some v0 -> dkeys (dset d k v) = dkeys d.
Proof.
  induction d as [|[k' v'] d IH]; cbn; [discriminate|]. destruct (String.eqb_spec k' k) as [->|N]; cbn; [reflexivity|].
  intros E. f_equal. apply IH. exact E.
Qed.

Lemma bump_fold l : forall c c', foldM bump l c = Ok c' ->
  dkeys c' = dkeys c /\ forall k x, dget c k = Some x -> exists y, dget c' k = Some y /\ (y == x + amount k l)%Q.
Proof.
  induction l as [|[k0 v] l IH]; intros c c'; cbn [foldM].
  - intros E. injection E as <-. split; [reflexivity|]. intros k x E. exists x. split; [exact E|]. cbn. ring.
  - unfold bump at 1. cbn [fst snd]. destruct (dget c k0) as [x0|] eqn:E0; cbn [bind]; [|discriminate]. intros E. destruct (IH _ _ E) as [K V].
    split; [rewrite K; eapply dset_keys; eauto|]. intros k x Ek. cbn [amount]. destruct (String.eqb_spec k0 k) as [->|N].
    + assert (x0 = x) by congruence. subst x0. destruct (V k (x + v)%Q) as (y & Hy & Eq); [apply dget_dset_same|]. exists y. split; [exact Hy|]. rewrite Eq. ring.
    + destruct (V k x) as (y & Hy & Eq); [rewrite dget_dset_other; auto|]. exists y. split; [exact Hy|]. rewrite Eq. ring.
Qed.
Lemma bump_total l : forall c, (forall i, In i l -> In (fst i) (dkeys c)) -> exists c', foldM bump l c = Ok c'.
Proof.
  induction l as [|[k v] l IH]; intros c H; cbn [foldM]; [eauto|]. unfold bump at 1. cbn [fst snd].
  destruct (dget c k) as [x|] eqn:E; [|exfalso; apply dget_None in E; apply E; apply (H (k, v)); left; reflexivity].
  cbn [bind]. apply IH. intros i Hi. rewrite (dset_keys _ _ _ _ E). apply H. right. exact Hi.
Qed.

Lemma abc_spec x : abc x = true <-> an_abc x.
Proof. unfold abc, an_abc. rewrite is_in_spec. cbn. intuition congruence. Qed.
Lemma okey_spec x y : okey_eqb x (Some y) = true <-> x = Some y.
Proof. destruct x as [x|]; cbn; [rewrite String.eqb_eq|]; split; congruence. Qed.
Lemma Qle_spec a b : Qle_bool a b = true <-> (a <= b)%Q.
Proof. apply Qle_bool_iff. Qed.
Lemma Qlt_spec a b : Qlt_b a b = true <-> (a < b)%Q.
Proof.
  unfold Qlt_b. split; intros H.
  - apply Qnot_le_lt. intros C. apply Qle_spec in C. rewrite C in H. discriminate.
  - destruct (Qle_bool b a) eqn:E; [|reflexivity]. apply Qle_spec in E. lra.
Qed.

Lemma number_filter {A} (P : A -> Prop) (f : A -> bool) l : (forall a, f a = true <-> P a) -> number P l (inject_Z (Z.of_nat (length (filter f l)))).
Proof.
  intros H. induction l as [|a l IH]; cbn [filter length]; [constructor; reflexivity|]. destruct (f a) eqn:E.
  - apply (sums_in _ a 1%Q l _ _ (conj (proj1 (H a) E) eq_refl) IH). cbn [length]. rewrite Nat2Z.inj_succ. unfold Z.succ. rewrite inject_Z_plus. ring.
  - apply sums_out; [|exact IH]. intros x [Px _]. apply H in Px. congruence.
Qed.
Lemma number_fun {A} (P : A -> Prop) l q q' : number P l q -> number P l q' -> (q == q')%Q.
Proof. apply sums_fun. intros a x y _ [_ ->] [_ ->]. reflexivity. Qed.
Lemma number_nat {A} (P : A -> Prop) (f : A -> bool) l n : (forall a, f a = true <-> P a) -> (number P l (inject_Z (Z.of_nat n)) <-> length (filter f l) = n).
Proof.
  intros H. split; intros E.
  - assert (Z := number_fun _ _ _ _ E (number_filter P f l H)). apply (proj1 (inject_Z_injective _ _)) in Z. apply Nat2Z.inj in Z. symmetry. exact Z.
  - subst n. apply number_filter. exact H.
Qed.
Lemma has_phases_spec l ws n : ml_wires l = Some ws -> (has_phases n l <-> length (phases ws) = n).
Proof.
  intros E. unfold has_phases, phases. assert (H : forall w, abc (w_phase w) && negb (w_drop w) = true <-> an_abc (w_phase w) /\ w_drop w = false).
  { intros w. rewrite andb_true_iff, abc_spec, negb_true_iff. reflexivity. }
  split.
  - intros (ws' & E' & N). assert (ws' = ws) by congruence. subst. apply (number_nat _ _ _ _ H) in N. exact N.
  - intros N. exists ws. split; [exact E|]. apply (number_nat _ _ _ _ H). exact N.
Qed.
Lemma overhead_spec l : overhead l = true <-> is_overhead l.
Proof. apply okey_spec. Qed.

Lemma amount_none k l ks : (forall i, In i l -> In (fst i) ks) -> smem k ks = false -> (amount k l == 0)%Q.
Proof.
  intros H S. apply smem_not_In in S. induction l as [|[k' v] l IH]; cbn [amount]; [reflexivity|].
  destruct (String.eqb_spec k' k) as [->|N]; [exfalso; apply S; apply (H (k, v)); left; reflexivity|]. rewrite IH; [ring|]. intros; apply H; right; assumption.
Qed.
Definition len_keys (v : string) : list string :=
  [v ++ "_len_mi"; v ++ "_1ph_len_mi"; v ++ "_oh_1ph_len_mi"; v ++ "_2ph_len_mi"; v ++ "_oh_2ph_len_mi"; v ++ "_3ph_len_mi"; v ++ "_oh_3ph_len_mi"]%string.
Lemma when_In {A} b (l : list A) x : In x (when b l) -> In x l.
Proof. destruct b; [auto|intros []]. Qed.
Lemma amount_when k b k' : (amount k (when b [(k', 1%Q)]) == if b && String.eqb k' k then 1 else 0)%Q.
Proof. destruct b; cbn; [|reflexivity]. destruct (String.eqb k' k); ring. Qed.
Definition len_form (v : string) (x : Q) (n : nat) (oh : bool) : incs :=
  (v ++ "_len_mi", x)%string ::
  match n with
  | 1 => (v ++ "_1ph_len_mi", x)%string :: when oh [(v ++ "_oh_1ph_len_mi", x)%string]
  | 2 => (v ++ "_2ph_len_mi", x)%string :: when oh [(v ++ "_oh_2ph_len_mi", x)%string]
  | 3 => (v ++ "_3ph_len_mi", x)%string :: when oh [(v ++ "_oh_3ph_len_mi", x)%string]
  | _ => []
  end.
Lemma len_form_keys v x n oh i : In i (len_form v x n oh) -> In (fst i) (len_keys v).
Proof.
  unfold len_form, len_keys. intros [<-|H]; [left; reflexivity|]. destruct n as [|[|[|[|n]]]]; try contradiction;
    (destruct H as [<-|H]; [|apply when_In in H; destruct H as [<-|[]]]); cbn [fst In]; tauto.
Qed.
Lemma phase_incs_keys pre post f pls i : In i (phase_incs pre post f pls) -> In (fst i) [pre ++ "a" ++ post; pre ++ "b" ++ post; pre ++ "c" ++ post]%string.
Proof.
  unfold phase_incs. rewrite in_flat_map. intros (x & _ & H). unfold phase_key in H.
  destruct (okey_eqb (pl_phase x) (Some "A")); [|destruct (okey_eqb (pl_phase x) (Some "B")); [|destruct (okey_eqb (pl_phase x) (Some "C")); [|contradiction]]];
    (destruct (pl_p x); [destruct H as [<-|[]]; cbn [fst In]; tauto|contradiction]).
Qed.

Section Metrics.
Variables (LV MV : Q) (by_transformers : bool) (feeder_name : string -> option (option string)) (power_behind : option string -> option Q).
Notation object_incs := (object_incs LV MV by_transformers feeder_name power_behind).
Notation analyze := (analyze LV MV by_transformers feeder_name power_behind).
Notation compute_all_metrics := (compute_all_metrics LV MV by_transformers feeder_name power_behind).
Notation compute_all_metrics_per_feeder := (compute_all_metrics_per_feeder LV MV by_transformers feeder_name power_behind).

Lemma analyze_fold objs : forall c c', foldM analyze objs c = Ok c' ->
  exists ls, Forall2 (fun o l => object_incs o = Ok l) objs ls /\ dkeys c' = dkeys c /\
    forall k x, dget c k = Some x -> exists y, dget c' k = Some y /\ (y == x + total (amount k) ls)%Q.
Proof.
  induction objs as [|o objs IH]; intros c c'; cbn [foldM].
  - intros E. injection E as <-. exists []. split; [constructor|]. split; [reflexivity|]. intros k x E. exists x. split; [exact E|]. cbn. ring.
  - unfold MetricsModel.analyze at 1. destruct (object_incs o) as [l|] eqn:El; cbn [bind]; [|discriminate].
    destruct (foldM bump l c) as [c1|] eqn:E1; cbn [bind]; [|discriminate]. intros E. destruct (bump_fold _ _ _ E1) as [K1 V1].
    destruct (IH _ _ E) as (ls & F & K & V). exists (l :: ls). split; [constructor; auto|]. split; [congruence|]. intros k x Ek.
    destruct (V1 _ _ Ek) as (y & Ey & Q1). destruct (V _ _ Ey) as (z & Ez & Q2). exists z. split; [exact Ez|]. rewrite Q2, Q1. cbn [total]. ring.
Qed.

(** *** What an object adds *)

Definition head_form (l : mline) : incs :=
  link feeder_name l ++ when (ml_fuse l) [("num_fuses", 1%Q)] ++ when (ml_switch l) [("num_switches", 1%Q)] ++
  when (ml_recloser l) [("num_reclosers", 1%Q)] ++ when (ml_breaker l) [("num_breakers", 1%Q)] ++ when (ml_sectionalizer l) [("num_sectionalizers", 1%Q)].

Lemma low_not_medium v : low LV v -> ~ medium LV MV v.
Proof using LV MV. clear feeder_name power_behind by_transformers. intros (x & E & H) (y & E' & H' & _). assert (x = y) by congruence. subst. exact (Qlt_not_le _ _ H' H). Qed.

Lemma line_cases l inc : line_incs LV MV feeder_name l = Ok inc -> exists ws len, ml_wires l = Some ws /\ inc = head_form l ++ len /\
  ((len = [] /\ ((~ low LV (ml_volt l) /\ ~ medium LV MV (ml_volt l)) \/ exists x, ml_length l = Some x /\ (x < 0)%Q)) \/
   exists v x, ml_length l = Some x /\ (0 <= x)%Q /\ len = len_form v x (length (phases ws)) (overhead l) /\
     ((v = "lv" /\ low LV (ml_volt l)) \/ (v = "mv" /\ medium LV MV (ml_volt l)))).
Proof using LV MV feeder_name. clear by_transformers power_behind.
  unfold line_incs. destruct (ml_wires l) as [ws|]; [|discriminate]. intros E. exists ws.
  set (r := match ml_volt l with Some v => _ | None => _ end) in E. destruct r as [len|] eqn:R; subst r; cbn [bind] in E; [|discriminate].
  exists len. split; [reflexivity|]. split; [injection E as <-; unfold head_form; rewrite <- !app_assoc; reflexivity|]. clear E inc.
  destruct (ml_volt l) as [v|].
  2: { injection R as <-. left. split; [reflexivity|]. left. split; intros (x & Hx & _); discriminate. }
  assert (LI : forall w, length_incs w (length (phases ws)) l = Ok len ->
     (len = [] /\ exists x, ml_length l = Some x /\ (x < 0)%Q) \/
     exists x, ml_length l = Some x /\ (0 <= x)%Q /\ len = len_form w x (length (phases ws)) (overhead l)).
  { intros w. unfold length_incs. destruct (ml_length l) as [x|]; cbn [of_opt bind]; [|discriminate]. destruct (Qle_bool 0 x) eqn:Ex; intros E; injection E as <-.
    - right. exists x. split; [reflexivity|]. split; [apply Qle_spec; exact Ex|]. reflexivity.
    - left. split; [reflexivity|]. exists x. split; [reflexivity|]. apply Qnot_le_lt. intros C. apply Qle_spec in C. congruence. }
  destruct (Qle_bool (v * sqrt3) LV) eqn:EL.
  - apply Qle_spec in EL. apply LI in R. destruct R as [[-> R]|(x & Hx & Px & ->)]; [left; auto|]. right. exists "lv", x. split; [exact Hx|]. split; [exact Px|]. split; [reflexivity|].
    left. split; [reflexivity|]. exists v. auto.
  - assert (NL : ~ (v * sqrt3 <= LV)%Q) by (intros C; apply Qle_spec in C; congruence). destruct (Qlt_b (v * sqrt3) MV && Qlt_b LV (v * sqrt3)) eqn:EM.
    + apply andb_true_iff in EM. rewrite !Qlt_spec in EM. apply LI in R. destruct R as [[-> R]|(x & Hx & Px & ->)]; [left; auto|].
      right. exists "mv", x. split; [exact Hx|]. split; [exact Px|]. split; [reflexivity|]. right. split; [reflexivity|]. exists v. tauto.
    + injection R as <-. left. split; [reflexivity|]. left. split.
      * intros (y & Ey & Hy). injection Ey as <-. contradiction.
      * intros (y & Ey & Hy & Hy'). injection Ey as <-. apply andb_false_iff in EM. rewrite <- !not_true_iff_false, !Qlt_spec in EM. tauto.
Qed.

Definition yes {A} (P : A -> Q -> Prop) (a : A) (v : Q) : Prop := (exists x, P a x /\ (v == x)%Q) \/ ((forall x, ~ P a x) /\ (v == 0)%Q).

Lemma link_form l : link feeder_name l = [("num_links_adjacent_feeders", 1%Q)] /\
    (exists x y f g, ml_from l = Some x /\ ml_to l = Some y /\ feeder_name x = Some (Some f) /\ feeder_name y = Some (Some g) /\ f <> g) \/
  link feeder_name l = [] /\
    ~ (exists x y f g, ml_from l = Some x /\ ml_to l = Some y /\ feeder_name x = Some (Some f) /\ feeder_name y = Some (Some g) /\ f <> g).
Proof.
  unfold link. destruct (ml_from l) as [x|]; [destruct (ml_to l) as [y|]|]; try (right; split; [reflexivity|intros (?&?&?&?&?&?&?); congruence]).
  destruct (feeder_name x) as [[f|]|] eqn:Ef; [destruct (feeder_name y) as [[g|]|] eqn:Eg| |]; try (right; split; [reflexivity|intros (?&?&?&?&E1&E2&E3&E4&_); congruence]).
  destruct (String.eqb_spec f g) as [->|N]; cbn.
  - right. split; [reflexivity|]. intros (x' & y' & f' & g' & E1 & E2 & E3 & E4 & Ne). congruence.
  - left. split; [reflexivity|]. exists x, y, f, g. auto 6.
Qed.


Definition head_keys := ["num_links_adjacent_feeders"; "num_fuses"; "num_switches"; "num_reclosers"; "num_breakers"; "num_sectionalizers"].
Lemma head_form_keys l i : In i (head_form l) -> In (fst i) head_keys.
Proof using feeder_name. clear LV MV by_transformers power_behind.
  unfold head_form, head_keys. rewrite !in_app_iff. intros [H|H]; [destruct (link_form l) as [[E _]|[E _]]; rewrite E in H; [destruct H as [<-|[]]; left; reflexivity|contradiction]|].
  decompose [or] H; match goal with H : In _ (when _ _) |- _ => apply when_In in H; destruct H as [<-|[]] end; cbn [fst In]; tauto.
Qed.

Definition load_keys := ["num_customers"; "sum_distribution_transformer_mva"; "num_lv_1ph_loads"; "num_lv_3ph_loads"; "num_mv_3ph_loads";
  "sum_lv_pha_load_kw"; "sum_lv_phb_load_kw"; "sum_lv_phc_load_kw"; "sum_load_kw"; "sum_load_pha_kw"; "sum_load_phb_kw"; "sum_load_phc_kw"; "sum_load_kvar"].
Definition trans_keys := ["num_overloaded_transformers"; "num_distribution_transformers"; "sum_distribution_transformer_mva"; "num_1ph_transformers"; "num_3ph_transformers"].
Lemma level_keys o i : In i (level_incs LV MV o) -> In (fst i) ["num_lv_1ph_loads"; "num_lv_3ph_loads"; "num_mv_3ph_loads"; "sum_lv_pha_load_kw"; "sum_lv_phb_load_kw"; "sum_lv_phc_load_kw"].
Proof using LV MV. clear feeder_name power_behind by_transformers.
  unfold level_incs. destruct (mo_volt o) as [v|]; [|intros []]. destruct (mo_phases o) as [pls|]; [|intros []].
  destruct (Qle_bool (v * sqrt3) LV).
  - rewrite in_app_iff. intros [H|H].
    + destruct (length (live pls)) as [|[|[|[|n]]]]; try contradiction; destruct H as [<-|[]]; cbn; tauto.
    + apply phase_incs_keys in H. cbn in H |- *. tauto.
  - destruct (_ && _); [|intros []]. intros H. apply when_In in H. destruct H as [<-|[]]. cbn. tauto.
Qed.
Lemma demand_keys o l i : demand_incs o = Ok l -> In i l -> In (fst i) ["sum_load_kw"; "sum_load_pha_kw"; "sum_load_phb_kw"; "sum_load_phc_kw"; "sum_load_kvar"].
Proof using Type. clear LV MV feeder_name power_behind by_transformers.
  unfold demand_incs. destruct (mo_phases o) as [[|x pls]|]; [discriminate| |intros E; injection E as <-; intros []].
  destruct (pl_p x); [destruct (pl_q x)|]; try discriminate. intros E. injection E as <-. rewrite in_app_iff. intros [H|[<-|[]]]; [|cbn; tauto].
  assert (PK : forall f ys, In i (phase_incs "sum_load_ph" "_kw" f ys) -> In (fst i) ["sum_load_kw"; "sum_load_pha_kw"; "sum_load_phb_kw"; "sum_load_phc_kw"; "sum_load_kvar"]).
  { intros f ys Hi. apply phase_incs_keys in Hi. cbn in Hi |- *. tauto. }
  destruct (_ && _).
  - destruct (mo_kva o); [|contradiction]. apply when_In in H. destruct H as [<-|H]; [cbn; tauto|eauto].
  - destruct H as [<-|H]; [cbn; tauto|eauto].
Qed.
Lemma load_incs_keys o l i : load_incs LV MV by_transformers o = Ok l -> In i l -> In (fst i) load_keys.
Proof using LV MV by_transformers. clear feeder_name power_behind.
  unfold load_incs. destruct (demand_incs o) as [d|] eqn:D; cbn [bind]; [|discriminate]. intros E. injection E as <-. rewrite !in_app_iff. intros [H|[H|[H|H]]].
  - destruct (mo_users o); [|contradiction]. destruct H as [<-|[]]. cbn. tauto.
  - apply when_In in H. destruct (mo_kva o); [|contradiction]. destruct H as [<-|[]]. cbn. tauto.
  - apply level_keys in H. cbn in H |- *. tauto.
  - apply (demand_keys _ _ _ D) in H. cbn in H |- *. tauto.
Qed.
Lemma trans_incs_keys name t a b i : overload_incs power_behind name t = Ok a -> kind_incs by_transformers t = Ok b -> In i (a ++ b) -> In (fst i) trans_keys.
Proof using by_transformers power_behind. clear LV MV feeder_name.
  unfold overload_incs, kind_incs. intros Ea Eb. rewrite in_app_iff. intros [H|H].
  - destruct (power_behind name) as [tot|]; [|injection Ea as <-; contradiction]. destruct (mt_windings t) as [ws|]; [|discriminate].
    destruct (py_max _) as [k|]; cbn [bind] in Ea; [|discriminate]. injection Ea as <-. apply when_In in H. destruct H as [<-|[]]. cbn. tauto.
  - destruct (mt_windings t) as [[|w [|w' r]]|]; try (injection Eb as <-; contradiction).
    + destruct (wd_volt w); [discriminate|injection Eb as <-; contradiction].
    + destruct (wd_volt w) as [v|]; [|injection Eb as <-; contradiction]. destruct (wd_volt w') as [v'|]; injection Eb as <-; [|contradiction].
      apply when_In in H. destruct H as [<-|H]; [cbn; tauto|]. apply in_app_iff in H. destruct H as [H|H].
      * apply when_In in H. destruct (wd_power w); [|contradiction]. destruct H as [<-|[]]. cbn. tauto.
      * destruct (wd_phases w) as [[|[|[|[|n]]]]|]; try contradiction; destruct H as [<-|[]]; cbn; tauto.
Qed.
Lemma incs_keys o l i : object_incs o = Ok l -> In i l -> In (fst i) counters.
Proof.
  unfold MetricsModel.object_incs. destruct (mb_body o) as [ln|x| | |t|].
  - intros E H. destruct (line_cases _ _ E) as (ws & len & _ & -> & C). apply in_app_iff in H. destruct H as [H|H].
    + apply head_form_keys in H. cbn in H |- *. tauto.
    + destruct C as [[-> _]|(v & q & _ & _ & -> & V)]; [contradiction|]. apply len_form_keys in H. destruct V as [[-> _]|[-> _]]; cbn in H |- *; tauto.
  - intros E H. apply (load_incs_keys _ _ _ E) in H. cbn in H |- *. tauto.
  - intros E H. injection E as <-. destruct H as [<-|[]]. cbn. tauto.
  - intros E H. injection E as <-. destruct H as [<-|[]]. cbn. tauto.
  - destruct (overload_incs _ _ t) as [a|] eqn:Ea; cbn [bind]; [|discriminate]. destruct (kind_incs _ t) as [b|] eqn:Eb; cbn [bind]; [|discriminate].
    intros E H. injection E as <-. apply (trans_incs_keys _ _ _ _ _ Ea Eb) in H. cbn in H |- *. tauto.
  - intros E H. injection E as <-. contradiction.
Qed.

(** *** Counting *)

Lemma flag_amount k k' b (P : Prop) : (b = true <-> P) -> String.eqb k' k = true -> P /\ (amount k (when b [(k', 1%Q)]) == 1)%Q \/ ~ P /\ (amount k (when b [(k', 1%Q)]) == 0)%Q.
Proof.
  intros H E. destruct b; [left|right]; (split; [|rewrite amount_when, E; reflexivity]); [apply H; reflexivity|]. intros C. apply H in C. discriminate.
Qed.
Lemma kind_amount k P o l : kind feeder_name k P -> object_incs o = Ok l -> yes (fun o x => P o /\ x = 1%Q) o (amount k l).
Proof.
  intros K. unfold MetricsModel.object_incs, yes.
  assert (Y : forall v : Q, P o /\ (v == 1)%Q \/ ~ P o /\ (v == 0)%Q -> (exists x, (P o /\ x = 1%Q) /\ (v == x)%Q) \/ ((forall x, ~ (P o /\ x = 1%Q)) /\ (v == 0)%Q)).
  { intros v [[H E]|[H E]]; [left; exists 1%Q; auto|right; split; [intros x [C _]; contradiction|exact E]]. }
  destruct (mb_body o) as [ln|x| | |t|] eqn:B; intros E; apply Y; clear Y.
  - destruct (line_cases _ _ E) as (ws & len & _ & -> & C). clear E. rewrite amount_app.
    assert (Z : smem k (len_keys "lv") = false -> smem k (len_keys "mv") = false -> (amount k len == 0)%Q).
    { intros Z1 Z2. destruct C as [[-> _]|(v & q & _ & _ & -> & [[-> _]|[-> _]])]; [reflexivity|eapply amount_none; [apply len_form_keys|assumption]..]. }
    assert (AL : forall Q0, a_line Q0 o <-> Q0 ln).
    { intros Q0. unfold a_line. split; [intros (l' & E' & H); congruence|intros H; exists ln; auto]. }
    assert (HD : smem k head_keys = false -> (amount k (head_form ln) == 0)%Q) by (intros S; eapply amount_none; [apply head_form_keys|exact S]).
    destruct K; try (rewrite Z, HD by reflexivity; right; split; [|ring]; first [intros C'; unfold a_regulator, a_capacitor in C'; congruence|intros (t' & ? & ? & ? & ? & ? & C' & _); congruence]).
    1-5: rewrite Z by reflexivity; unfold a_fuse, a_switch, a_recloser, a_breaker, a_sectionalizer; rewrite AL; unfold head_form; rewrite !amount_app, !amount_when; cbn [String.eqb Ascii.eqb Bool.eqb]; rewrite !andb_false_r, ?andb_true_r;
      destruct (link_form ln) as [[-> _]|[-> _]]; cbn [amount String.eqb Ascii.eqb Bool.eqb]; match goal with |- context [?b = true] => destruct b end; [left; split; [reflexivity|ring]|right; split; [discriminate|ring]|left; split; [reflexivity|ring]|right; split; [discriminate|ring]].
    rewrite Z by reflexivity. unfold a_link. rewrite AL. unfold head_form. rewrite !amount_app, !amount_when. cbn [String.eqb Ascii.eqb Bool.eqb]. rewrite !andb_false_r.
    destruct (link_form ln) as [[-> H]|[-> H]]; cbn [amount String.eqb Ascii.eqb Bool.eqb]; [left|right]; (split; [exact H|ring]).
  - right. split; [destruct K; unfold a_regulator, a_capacitor; try congruence; try (intros (? & C & _); congruence); intros (? & ? & ? & ? & ? & ? & C & _); congruence|].
    eapply amount_none; [intros i; apply (load_incs_keys _ _ _ E)|]. destruct K; reflexivity.
  - injection E as <-. destruct K; try (left; split; [exact B|cbn; ring]); right; (split; [|cbn; ring]); unfold a_capacitor; try congruence; try (intros (? & C & _); congruence); intros (? & ? & ? & ? & ? & ? & C & _); congruence.
  - injection E as <-. destruct K; try (left; split; [exact B|cbn; ring]); right; (split; [|cbn; ring]); unfold a_regulator; try congruence; try (intros (? & C & _); congruence); intros (? & ? & ? & ? & ? & ? & C & _); congruence.
  - destruct (overload_incs _ _ t) as [a|] eqn:Ea; cbn [bind] in E; [|discriminate]. destruct (kind_incs _ t) as [b|] eqn:Eb; cbn [bind] in E; [|discriminate]. injection E as <-.
    destruct (smem k trans_keys) eqn:Sk.
    2: { right. split; [|eapply amount_none; [intros i; apply (trans_incs_keys _ _ _ _ _ Ea Eb)|exact Sk]]. destruct K; cbn in Sk; try discriminate; unfold a_regulator, a_capacitor; try congruence; intros (? & C & _); congruence. }
    assert (A0 : k <> "num_overloaded_transformers" -> (amount k a == 0)%Q).
    { intros N. clear - N Ea. unfold overload_incs in Ea. destruct (power_behind _) as [tot|]; [|injection Ea as <-; reflexivity]. destruct (mt_windings t) as [ws|]; [|discriminate].
      destruct (py_max _) as [m|]; cbn [bind] in Ea; [|discriminate]. injection Ea as <-. rewrite amount_when. destruct (String.eqb_spec "num_overloaded_transformers" k) as [<-|_]; [congruence|]. rewrite andb_false_r. reflexivity. }
    rewrite amount_app.
    assert (ST : forall n, a_step n o <-> exists w w' r v v', mt_windings t = Some (w :: w' :: r) /\ wd_volt w = Some v /\ wd_volt w' = Some v' /\ ~ (v == v')%Q /\ (n = None \/ wd_phases w = n)).
    { intros n. unfold a_step. split; [intros (t' & w & w' & r & v & v' & E1 & H); assert (t' = t) by congruence; subst; eauto 10|intros (w & w' & r & v & v' & H); exists t, w, w', r, v, v'; auto]. }
    unfold kind_incs in Eb. destruct (mt_windings t) as [ws|] eqn:Ew.
    2: { injection Eb as <-. right. split; [|rewrite A0; [cbn; ring|intros ->; inversion K]]. destruct K; cbn in Sk; try discriminate; rewrite ST; intros (w & w' & r & v & v' & C & _); discriminate. }
    destruct ws as [|w ws].
    { injection Eb as <-. right. split; [|rewrite A0; [cbn; ring|intros ->; inversion K]]. destruct K; cbn in Sk; try discriminate; rewrite ST; intros (w & w' & r & v & v' & C & _); discriminate. }
    destruct (wd_volt w) as [v|] eqn:Ev.
    2: { injection Eb as <-. right. split; [|rewrite A0; [cbn; ring|intros ->; inversion K]]. destruct K; cbn in Sk; try discriminate; rewrite ST; intros (w0 & w' & r & v & v' & C & C1 & _); congruence. }
    destruct ws as [|w' ws]; [discriminate|]. destruct (wd_volt w') as [v'|] eqn:Ev'.
    2: { injection Eb as <-. right. split; [|rewrite A0; [cbn; ring|intros ->; inversion K]]. destruct K; cbn in Sk; try discriminate; rewrite ST; intros (w0 & w1 & r & v0 & v' & C & C1 & C2 & _); congruence. }
    injection Eb as <-. assert (ST' : forall n, a_step n o <-> ~ (v == v')%Q /\ (n = None \/ wd_phases w = n)).
    { intros n. rewrite ST. split; [intros (w0 & w1 & r & v0 & v1 & C & C1 & C2 & C3); injection C as <- <- <-; assert (v0 = v) by congruence; assert (v1 = v') by congruence; subst; exact C3|].
      intros H. exists w, w', ws, v, v'. auto. }
    rewrite A0 by (intros ->; inversion K). destruct (Qeq_bool v v') eqn:Eq; cbn [negb when].
    + apply Qeq_bool_iff in Eq. right. split; [|cbn; ring]. destruct K; cbn in Sk; try discriminate; rewrite ST'; tauto.
    + assert (Ne : ~ (v == v')%Q) by (intros C; apply Qeq_bool_iff in C; congruence). cbn [app amount]. rewrite !amount_app.
      assert (A1 : k <> "sum_distribution_transformer_mva" -> (amount k (when by_transformers match wd_power w with Some p => [("sum_distribution_transformer_mva", (p * micro)%Q)] | None => [] end) == 0)%Q).
      { intros N. destruct by_transformers; cbn [when]; [|reflexivity]. destruct (wd_power w); cbn [amount]; [|reflexivity]. destruct (String.eqb_spec "sum_distribution_transformer_mva" k) as [<-|_]; [congruence|ring]. }
      rewrite A1 by (intros ->; inversion K). destruct K; cbn in Sk; try discriminate; rewrite ST'.
      * left. split; [auto|]. destruct (wd_phases w) as [[|[|[|[|n]]]]|]; cbn; ring.
      * destruct (wd_phases w) as [[|[|[|[|n]]]]|]; (left; split; [split; [exact Ne|right; reflexivity]|cbn; ring]) || (right; split; [intros [_ [C|C]]; discriminate|cbn; ring]).
      * destruct (wd_phases w) as [[|[|[|[|n]]]]|]; (left; split; [split; [exact Ne|right; reflexivity]|cbn; ring]) || (right; split; [intros [_ [C|C]]; discriminate|cbn; ring]).
  - injection E as <-. right. split; [|reflexivity]. destruct K; unfold a_regulator, a_capacitor; try congruence; try (intros (? & C & _); congruence); intros (? & ? & ? & ? & ? & ? & C & _); congruence.
Qed.
End Metrics.
