(** What the reports and the single metrics say. *)
From Verif Require Import Base BaseFacts StoreModel NetworkModel NetworkSpec CenterTapModel CenterTapSpec CenterTapProofs MetricsModel MetricsSpec MetricsProofs MetricsLines MetricsLoads MetricsTop.
From Coq Require Import QArith Qabs Lqa Lia.
Local Open Scope string_scope.
Local Open Scope nat_scope.
Local Open Scope list_scope.

(** ** More on sums *)
Lemma total_swap {A B} (f : A -> B -> Q) (l : list A) (l' : list B) : (total (fun a => total (f a) l') l == total (fun b => total (fun a => f a b) l) l')%Q.
Proof. induction l as [|a l IH]; cbn [total]; [rewrite total_zero; reflexivity|]. rewrite IH. rewrite <- total_plus. apply total_ext. intros b _. reflexivity. Qed.
Lemma total_scale {A} (f : A -> Q) c l : (total (fun a => f a * c)%Q l == total f l * c)%Q.
Proof. induction l as [|a l IH]; cbn [total]; [ring|]. rewrite IH. ring. Qed.
Lemma total_single (b : string -> bool) (v : Q) (l : list string) : NoDup l -> (exists f, In f l /\ b f = true) -> (forall f g, b f = true -> b g = true -> f = g) ->
  (total (fun f => if b f then v else 0) l == v)%Q.
Proof.
  intros N (f & Hf & Bf) U. induction l as [|g l IH]; [contradiction|]. apply NoDup_cons_iff in N. destruct N as [Ng N]. cbn [total].
  destruct Hf as [->|Hf].
  - rewrite Bf. assert (Z : (total (fun f0 => if b f0 then v else 0) l == 0)%Q).
    { rewrite <- (total_zero l). apply total_ext. intros x Hx. destruct (b x) eqn:Bx; [|reflexivity]. assert (x = f) by auto. subst. contradiction. }
    rewrite Z. ring.
  - destruct (b g) eqn:Bg; [assert (g = f) by auto; subst; contradiction|]. rewrite (IH N Hf). ring.
Qed.

(** ** Shares *)
Lemma share_sum a b c : (~ a + b + c == 0 -> share a (a + b + c) + share b (a + b + c) + share c (a + b + c) == 100)%Q.
Proof.
  intros N. unfold share. destruct (Qeq_bool (a + b + c) 0) eqn:E; [apply Qeq_bool_iff in E; contradiction|]. field. exact N.
Qed.
Lemma ratio_bounds a t : (0 <= a <= t -> 0 < t -> 0 <= a / t * 100 <= 100)%Q.
Proof.
  intros [H1 H2] T. assert (E : (a / t <= 1)%Q) by (apply Qle_shift_div_r; [exact T|lra]). assert (E' : (0 <= a / t)%Q) by (apply Qle_shift_div_l; [exact T|lra]). lra.
Qed.
Lemma share_bounds a b c : (0 <= a -> 0 <= b -> 0 <= c -> 0 <= share a (a + b + c) <= 100)%Q.
Proof.
  intros A B C. unfold share. destruct (Qeq_bool (a + b + c) 0) eqn:E; [lra|].
  apply ratio_bounds; [lra|]. assert (N : ~ (a + b + c == 0)%Q) by (intros H; apply Qeq_bool_iff in H; congruence). lra.
Qed.

(** The three parts of a sum deviate from its third by at most 4/3 of it. *)
Lemma deviation a b c t : (0 <= a -> 0 <= b -> 0 <= c -> a + b + c == t -> 0 < t ->
  0 <= (Qabs (a - t / 3) + Qabs (b - t / 3) + Qabs (c - t / 3)) / t <= 4 # 3)%Q.
Proof.
  intros A B C S T. assert (X : forall x, (0 <= x -> Qabs (x - t / 3) <= x + t / 3 /\ (Qabs (x - t/3) <= x - t/3 \/ Qabs (x - t/3) <= t / 3 - x))%Q).
  { intros x Hx. assert (t / 3 == t * (1#3))%Q by field. destruct (Qlt_le_dec x (t/3)) as [L|L].
    - rewrite (Qabs_neg (x - t/3)) by lra. split; [lra|right; lra].
    - rewrite (Qabs_pos (x - t/3)) by lra. split; [lra|left; lra]. }
  assert (E3 : (t / 3 == t * (1#3))%Q) by field.
  destruct (X a A) as [_ Xa]. destruct (X b B) as [_ Xb]. destruct (X c C) as [_ Xc]. clear X.
  assert (Pa := Qabs_nonneg (a - t/3)). assert (Pb := Qabs_nonneg (b - t/3)). assert (Pc := Qabs_nonneg (c - t/3)).
  split; [apply Qle_shift_div_l; [exact T|lra]|]. apply Qle_shift_div_r; [exact T|].
  destruct Xa, Xb, Xc; lra.
Qed.

Section Reports.
Variables (LV MV : Q) (by_transformers : bool) (feeder_name : string -> option (option string)) (power_behind : option string -> option Q).
Notation object_incs := (object_incs LV MV by_transformers feeder_name power_behind).
Notation analyze := (analyze LV MV by_transformers feeder_name power_behind).
Notation compute_all_metrics := (compute_all_metrics LV MV by_transformers feeder_name power_behind).
Notation compute_all_metrics_per_feeder := (compute_all_metrics_per_feeder LV MV by_transformers feeder_name power_behind).

Lemma sums_of (P : mobj -> Q -> Prop) k objs ls : (forall o l, object_incs o = Ok l -> yes P o (amount k l)) ->
  Forall2 (fun o l => object_incs o = Ok l) objs ls -> sums P objs (total (amount k) ls).
Proof. intros H F. apply sums_list. induction F; constructor; auto. apply (H x y). assumption. Qed.
Lemma kind_key k P : kind feeder_name k P -> In k counters /\ fac k = 1%Q.
Proof. intros H. destruct H; (split; [apply smem_In; reflexivity|reflexivity]). Qed.
Lemma counted objs r k P : compute_all_metrics objs = Ok r -> kind feeder_name k P -> exists n, number P objs n /\ shows r k n.
Proof.
  intros E K. destruct (computed _ _ _ _ _ _ _ E) as (ls & g & F & G & _). destruct (kind_key _ _ K) as [Hk Fk]. destruct (G k Hk) as [Gk (q & Eq & Vq)].
  exists (total (amount k) ls). split; [apply sums_of; [|exact F]; intros o l; apply (kind_amount _ _ _ _ _ k P o l K)|]. exists q. split; [exact Eq|]. rewrite Vq, Fk, Gk. ring.
Qed.
Lemma measured objs r k P : compute_all_metrics objs = Ok r -> measure LV MV k P -> exists x, sums (long P) objs x /\ shows r k (x * mile).
Proof.
  intros E K. destruct (computed _ _ _ _ _ _ _ E) as (ls & g & F & G & _). destruct (measure_keys _ _ _ _ K) as (_ & _ & _ & _ & _ & Hk). destruct (G k Hk) as [Gk (q & Eq & Vq)].
  assert (Fk : fac k = mile) by (destruct K; reflexivity).
  exists (total (amount k) ls). split; [apply sums_of; [|exact F]; intros o l; eapply measure_amount; exact K|]. exists q. split; [exact Eq|]. rewrite Vq, Fk, Gk. ring.
Qed.

(** *** Feeders *)
Definition gain (k : string) (o : mobj) : Q := match object_incs o with Ok l => amount k l | Err _ => 0%Q end.
Lemma gain_total k objs ls : Forall2 (fun o l => object_incs o = Ok l) objs ls -> (total (amount k) ls == total (gain k) objs)%Q.
Proof. induction 1 as [|o l objs ls E F IH]; cbn [total]; [reflexivity|]. unfold gain at 1. rewrite E, IH. reflexivity. Qed.
Lemma reported objs r k : compute_all_metrics objs = Ok r -> In k counters -> exists q, dget r k = Some (Num q) /\ (q == total (gain k) objs * fac k)%Q.
Proof.
  intros E Hk. destruct (computed _ _ _ _ _ _ _ E) as (ls & g & F & G & _). destruct (G k Hk) as [Gk (q & Eq & Vq)]. exists q. split; [exact Eq|]. rewrite Vq, Gk, (gain_total k _ _ F). reflexivity.
Qed.
Definition in_feeder (m : dict string) (o : mobj) (f : string) : bool :=
  match mb_name o with Some x => match get_feeder m o x with Some g => String.eqb g f | None => false end | None => false end.
Lemma in_feeder_spec m o f : in_feeder m o f = true <-> belongs m o f.
Proof.
  unfold in_feeder. destruct (mb_name o) as [x|] eqn:N; [|split; [discriminate|intros (x & E & _); congruence]].
  rewrite <- (get_feeder_spec m o x f N). destruct (get_feeder m o x) as [g|]; [|split; discriminate]. destruct (String.eqb_spec g f); split; congruence.
Qed.
Lemma selects_total m f (v : mobj -> Q) objs objs' : selects (fun o => belongs m o f) objs objs' -> (total v objs' == total (fun o => if in_feeder m o f then v o else 0) objs)%Q.
Proof.
  induction 1 as [|o l l' B S IH|o l l' B S IH]; cbn [total]; [reflexivity| |].
  - apply in_feeder_spec in B. rewrite B, IH. reflexivity.
  - destruct (in_feeder m o f) eqn:E; [apply in_feeder_spec in E; contradiction|]. rewrite IH. ring.
Qed.
Lemma other_gain k o : mb_body o = Other -> gain k o = 0%Q.
Proof. intros B. unfold gain, MetricsModel.object_incs. rewrite B. reflexivity. Qed.
Lemma add_up m names objs G R k : compute_all_metrics objs = Ok G -> compute_all_metrics_per_feeder m names objs = Ok R -> NoDup names ->
  (forall o, In o objs -> mb_body o = Other \/ exists f, In f names /\ belongs m o f) -> In k counters ->
  exists q, shows G k q /\ sums (fun f x => exists r, dget R f = Some r /\ dget r k = Some (Num x)) names q.
Proof.
  intros EG ER N Cov Hk. destruct (reported _ _ k EG Hk) as (q & Eq & Vq).
  exists (total (fun f => total (fun o => if in_feeder m o f then gain k o else 0) objs * fac k)%Q names). split.
  - exists q. split; [exact Eq|]. rewrite Vq, total_scale, (total_swap (fun f o => if in_feeder m o f then gain k o else 0%Q)).
    apply Qmult_comp; [|reflexivity]. apply total_ext. intros o Ho. destruct (Cov o Ho) as [B|(f & Hf & B)].
    + rewrite (other_gain k o B). rewrite (total_ext _ (fun _ => 0%Q)); [rewrite total_zero; reflexivity|]. intros f _. destruct (in_feeder m o f); reflexivity.
    + symmetry. apply (total_single (in_feeder m o)); [exact N|exists f; split; [exact Hf|apply in_feeder_spec; exact B]|].
      intros f1 f2 B1 B2. apply in_feeder_spec in B1, B2. eapply belongs_fun; eauto.
  - apply sums_total. intros f Hf. left. destruct (per_feeder _ _ _ _ _ _ _ _ _ f ER Hf) as (objs' & r & S & Gr & Er). destruct (reported _ _ k Er Hk) as (x & Ex & Vx).
    exists x. split; [eauto|]. rewrite Vx, (selects_total m f (gain k) _ _ S). reflexivity.
Qed.

(** *** Lengths *)
Lemma forall2_le (f h : incs -> Q) objs ls : (forall o l, In o objs -> object_incs o = Ok l -> (f l <= h l)%Q) -> Forall2 (fun o l => object_incs o = Ok l) objs ls -> (total f ls <= total h ls)%Q.
Proof.
  intros H F. induction F as [|o l objs ls E F IH]; cbn [total]; [lra|].
  assert (H1 := H o l (or_introl eq_refl) E). assert (H2 : (total f ls <= total h ls)%Q) by (apply IH; intros; eapply H; eauto; right; assumption). lra.
Qed.
Lemma forall2_eq (f h : incs -> Q) objs ls : (forall o l, In o objs -> object_incs o = Ok l -> (f l == h l)%Q) -> Forall2 (fun o l => object_incs o = Ok l) objs ls -> (total f ls == total h ls)%Q.
Proof.
  intros H F. induction F as [|o l objs ls E F IH]; cbn [total]; [reflexivity|].
  rewrite (H o l (or_introl eq_refl) E), IH; [reflexivity|]. intros; eapply H; eauto; right; assumption.
Qed.
Lemma mile_pos : (0 < mile)%Q.
Proof. reflexivity. Qed.
Lemma parts objs r : compute_all_metrics objs = Ok r ->
  exists v, (forall k, In k miles_keys -> shows r k (v k)) /\
  (v "lv_1ph_len_mi" + v "lv_2ph_len_mi" + v "lv_3ph_len_mi" <= v "lv_len_mi")%Q /\
  (v "mv_1ph_len_mi" + v "mv_2ph_len_mi" + v "mv_3ph_len_mi" <= v "mv_len_mi")%Q /\
  (0 <= v "lv_oh_1ph_len_mi" <= v "lv_1ph_len_mi")%Q /\ (0 <= v "lv_oh_2ph_len_mi" <= v "lv_2ph_len_mi")%Q /\ (0 <= v "lv_oh_3ph_len_mi" <= v "lv_3ph_len_mi")%Q /\
  (0 <= v "mv_oh_1ph_len_mi" <= v "mv_1ph_len_mi")%Q /\ (0 <= v "mv_oh_2ph_len_mi" <= v "mv_2ph_len_mi")%Q /\ (0 <= v "mv_oh_3ph_len_mi" <= v "mv_3ph_len_mi")%Q /\
  ((forall o ln, In o objs -> mb_body o = Line ln -> low LV (ml_volt ln) -> has_phases 1 ln \/ has_phases 2 ln \/ has_phases 3 ln) ->
    v "lv_1ph_len_mi" + v "lv_2ph_len_mi" + v "lv_3ph_len_mi" == v "lv_len_mi")%Q /\
  ((forall o ln, In o objs -> mb_body o = Line ln -> medium LV MV (ml_volt ln) -> has_phases 1 ln \/ has_phases 2 ln \/ has_phases 3 ln) ->
    v "mv_1ph_len_mi" + v "mv_2ph_len_mi" + v "mv_3ph_len_mi" == v "mv_len_mi")%Q /\
  (let t := (v "lv_len_mi" + v "mv_len_mi")%Q in
   ~ (t == 0)%Q -> exists a b, shows r "perct_lv_oh_len" a /\ shows r "perct_mv_oh_len" b /\ (0 <= a)%Q /\ (0 <= b)%Q /\ (a + b <= 100)%Q /\
     (a == (v "lv_oh_1ph_len_mi" + v "lv_oh_2ph_len_mi" + v "lv_oh_3ph_len_mi") / t * 100)%Q /\
     (b == (v "mv_oh_1ph_len_mi" + v "mv_oh_2ph_len_mi" + v "mv_oh_3ph_len_mi") / t * 100)%Q).
Proof.
  intros E. destruct (computed _ _ _ _ _ _ _ E) as (ls & g & F & G & _ & (O1 & O2) & _). exists (fun k => (g k * mile)%Q).
  assert (Gv : forall k, In k miles_keys -> (g k == total (amount k) ls)%Q /\ shows r k (g k * mile)).
  { intros k Hk. assert (Hc : In k counters) by (cbn in Hk; decompose [or] Hk; try contradiction; subst k; apply smem_In; reflexivity).
    destruct (G k Hc) as [Gk (q & Eq & Vq)]. split; [exact Gk|]. exists q. split; [exact Eq|]. rewrite Vq. unfold fac. assert (S : smem k miles_keys = true) by (apply smem_In; exact Hk). rewrite S. reflexivity. }
  split; [intros k Hk; apply Gv; exact Hk|].
  assert (T : forall k1 k2 k3 k, In k1 miles_keys -> In k2 miles_keys -> In k3 miles_keys -> In k miles_keys ->
     (forall o l, In o objs -> object_incs o = Ok l -> (amount k1 l + amount k2 l + amount k3 l <= amount k l)%Q) -> (g k1 * mile + g k2 * mile + g k3 * mile <= g k * mile)%Q).
  { intros k1 k2 k3 k H1 H2 H3 H0 H. assert (L := forall2_le _ _ _ _ H F). rewrite !total_plus in L. rewrite <- !(fun k H => proj1 (Gv k H)) in L by assumption.
    assert (L' := Qmult_le_compat_r _ _ mile L (Qlt_le_weak _ _ mile_pos)). lra. }
  assert (T' : forall k1 k2 k3 k, In k1 miles_keys -> In k2 miles_keys -> In k3 miles_keys -> In k miles_keys ->
     (forall o l, In o objs -> object_incs o = Ok l -> (amount k1 l + amount k2 l + amount k3 l == amount k l)%Q) -> (g k1 * mile + g k2 * mile + g k3 * mile == g k * mile)%Q).
  { intros k1 k2 k3 k H1 H2 H3 H0 H. assert (L := forall2_eq _ _ _ _ H F). rewrite !total_plus in L. rewrite <- !(fun k H => proj1 (Gv k H)) in L by assumption.
    rewrite <- L. ring. }
  assert (S : forall k1 k, In k1 miles_keys -> In k miles_keys -> (forall o l, In o objs -> object_incs o = Ok l -> (0 <= amount k1 l <= amount k l)%Q) -> (0 <= g k1 * mile <= g k * mile)%Q).
  { intros k1 k H1 H0 H. assert (L : (total (amount k1) ls <= total (amount k) ls)%Q) by (eapply forall2_le; [|exact F]; intros o l Ho Eo; apply (H o l Ho Eo)).
    assert (L0 : (total (fun _ => 0%Q) ls <= total (amount k1) ls)%Q) by (eapply forall2_le; [|exact F]; intros o l Ho Eo; apply (H o l Ho Eo)). rewrite total_zero in L0.
    rewrite <- !(fun k H => proj1 (Gv k H)) in L by assumption. rewrite <- (proj1 (Gv k1 H1)) in L0.
    assert (L' := Qmult_le_compat_r _ _ mile L (Qlt_le_weak _ _ mile_pos)). assert (L0' := Qmult_le_compat_r _ _ mile L0 (Qlt_le_weak _ _ mile_pos)). lra. }
  assert (LP := fun o l (H : object_incs o = Ok l) => length_parts LV MV by_transformers feeder_name power_behind o l H).
  assert (P1 : (g "lv_1ph_len_mi" * mile + g "lv_2ph_len_mi" * mile + g "lv_3ph_len_mi" * mile <= g "lv_len_mi" * mile)%Q) by (apply T; [apply smem_In; reflexivity..|]; intros o l _ Eo; apply (LP o l Eo)).
  assert (P2 : (g "mv_1ph_len_mi" * mile + g "mv_2ph_len_mi" * mile + g "mv_3ph_len_mi" * mile <= g "mv_len_mi" * mile)%Q) by (apply T; [apply smem_In; reflexivity..|]; intros o l _ Eo; apply (LP o l Eo)).
  assert (Q1 : (0 <= g "lv_oh_1ph_len_mi" * mile <= g "lv_1ph_len_mi" * mile)%Q) by (apply S; [apply smem_In; reflexivity..|]; intros o l _ Eo; apply (LP o l Eo)).
  assert (Q2 : (0 <= g "lv_oh_2ph_len_mi" * mile <= g "lv_2ph_len_mi" * mile)%Q) by (apply S; [apply smem_In; reflexivity..|]; intros o l _ Eo; apply (LP o l Eo)).
  assert (Q3 : (0 <= g "lv_oh_3ph_len_mi" * mile <= g "lv_3ph_len_mi" * mile)%Q) by (apply S; [apply smem_In; reflexivity..|]; intros o l _ Eo; apply (LP o l Eo)).
  assert (Q4 : (0 <= g "mv_oh_1ph_len_mi" * mile <= g "mv_1ph_len_mi" * mile)%Q) by (apply S; [apply smem_In; reflexivity..|]; intros o l _ Eo; apply (LP o l Eo)).
  assert (Q5 : (0 <= g "mv_oh_2ph_len_mi" * mile <= g "mv_2ph_len_mi" * mile)%Q) by (apply S; [apply smem_In; reflexivity..|]; intros o l _ Eo; apply (LP o l Eo)).
  assert (Q6 : (0 <= g "mv_oh_3ph_len_mi" * mile <= g "mv_3ph_len_mi" * mile)%Q) by (apply S; [apply smem_In; reflexivity..|]; intros o l _ Eo; apply (LP o l Eo)).
  split; [exact P1|]. split; [exact P2|]. split; [exact Q1|]. split; [exact Q2|]. split; [exact Q3|]. split; [exact Q4|]. split; [exact Q5|]. split; [exact Q6|].
  split; [intros H; apply T'; [apply smem_In; reflexivity..|]; intros o l Ho Eo; apply (LP o l Eo); intros ln; apply (H o ln Ho)|].
  split; [intros H; apply T'; [apply smem_In; reflexivity..|]; intros o l Ho Eo; apply (LP o l Eo); intros ln; apply (H o ln Ho)|].
  cbv zeta. intros NZ. unfold oh_share in O1, O2.
  destruct (Qeq_bool (g "lv_len_mi" * mile + g "mv_len_mi" * mile) 0) eqn:Z; [apply Qeq_bool_iff in Z; contradiction|].
  assert (Pos : (0 < g "lv_len_mi" * mile + g "mv_len_mi" * mile)%Q) by lra.
  eexists. eexists. split; [eexists; split; [exact O2|reflexivity]|]. split; [eexists; split; [exact O1|reflexivity]|].
  set (t := (g "lv_len_mi" * mile + g "mv_len_mi" * mile)%Q) in *.
  set (a := (g "lv_oh_1ph_len_mi" * mile + g "lv_oh_2ph_len_mi" * mile + g "lv_oh_3ph_len_mi" * mile)%Q) in *.
  set (b := (g "mv_oh_1ph_len_mi" * mile + g "mv_oh_2ph_len_mi" * mile + g "mv_oh_3ph_len_mi" * mile)%Q) in *.
  assert (Ha : (0 <= a)%Q) by (unfold a; lra). assert (Hb : (0 <= b)%Q) by (unfold b; lra). assert (Hab : (a + b <= t)%Q) by (unfold a, b, t; lra).
  destruct (ratio_bounds a t) as [A1 _]; [lra|exact Pos|]. destruct (ratio_bounds b t) as [B1 _]; [lra|exact Pos|]. destruct (ratio_bounds (a + b) t) as [_ AB]; [lra|exact Pos|].
  assert (D : ((a + b) / t * 100 == a / t * 100 + b / t * 100)%Q) by (field; lra).
  split; [exact A1|]. split; [exact B1|]. split; [lra|]. split; reflexivity.
Qed.

(** *** Loads *)
Lemma loads objs r : compute_all_metrics objs = Ok r ->
  exists kw kvar, sums demands objs kw /\ shows r "sum_load_kw" (kw * milli) /\ sums (takes_all pl_q any) objs kvar /\ shows r "sum_load_kvar" (kvar * milli) /\
  forall X c, In (X, c) letters -> exists x, sums (demands_in X) objs x /\ shows r ("sum_load_ph" ++ c ++ "_kw") (x * milli).
Proof.
  intros E. destruct (computed _ _ _ _ _ _ _ E) as (ls & g & F & G & _). exists (total (amount "sum_load_kw") ls), (total (amount "sum_load_kvar") ls).
  assert (Sh : forall k, In k kilo_keys -> shows r k (total (amount k) ls * milli)).
  { intros k Hk. assert (Hc : In k counters /\ fac k = milli) by (cbn in Hk; decompose [or] Hk; try contradiction; subst k; (split; [apply smem_In; reflexivity|reflexivity])).
    destruct Hc as [Hc Fk]. destruct (G k Hc) as [Gk (q & Eq & Vq)]. exists q. split; [exact Eq|]. rewrite Vq, Fk, Gk. reflexivity. }
  split; [apply sums_of; [intros o l Eo; apply (load_yes _ _ _ _ _ _ _ Eo)|exact F]|]. split; [apply Sh; apply smem_In; reflexivity|].
  split; [apply sums_of; [intros o l Eo; apply (load_yes _ _ _ _ _ _ _ Eo)|exact F]|]. split; [apply Sh; apply smem_In; reflexivity|].
  intros X c L. exists (total (amount ("sum_load_ph" ++ c ++ "_kw")%string) ls). split; [apply sums_of; [intros o l Eo; apply (load_yes _ _ _ _ _ _ _ Eo); exact L|exact F]|].
  apply Sh. destruct L as [L|[L|[L|[]]]]; injection L as <- <-; apply smem_In; reflexivity.
Qed.
Lemma low_shares objs r : compute_all_metrics objs = Ok r ->
  exists a b c, sums (takes_low LV "A") objs a /\ sums (takes_low LV "B") objs b /\ sums (takes_low LV "C") objs c /\
    shows r "sum_lv_pha_load_kw" (a * milli) /\ shows r "sum_lv_phb_load_kw" (b * milli) /\ shows r "sum_lv_phc_load_kw" (c * milli) /\
    shows r "perct_lv_pha_load_kw" (share a (a + b + c)) /\ shows r "perct_lv_phb_load_kw" (share b (a + b + c)) /\ shows r "perct_lv_phc_load_kw" (share c (a + b + c)).
Proof.
  intros E. destruct (computed _ _ _ _ _ _ _ E) as (ls & g & F & G & (S1 & S2 & S3) & _).
  exists (g "sum_lv_pha_load_kw"), (g "sum_lv_phb_load_kw"), (g "sum_lv_phc_load_kw").
  assert (H : forall X c, In (X, c) letters -> sums (takes_low LV X) objs (g ("sum_lv_ph" ++ c ++ "_load_kw")%string) /\ shows r ("sum_lv_ph" ++ c ++ "_load_kw") (g ("sum_lv_ph" ++ c ++ "_load_kw")%string * milli)).
  { intros X c L. assert (Hc : In ("sum_lv_ph" ++ c ++ "_load_kw")%string counters /\ fac ("sum_lv_ph" ++ c ++ "_load_kw") = milli) by (destruct L as [L|[L|[L|[]]]]; injection L as <- <-; (split; [apply smem_In; reflexivity|reflexivity])).
    destruct Hc as [Hc Fk]. destruct (G _ Hc) as [Gk (q & Eq & Vq)]. split.
    - eapply sums_ext; [apply sums_of; [|exact F]|symmetry; exact Gk]. intros o l Eo. eapply low_amount; eauto.
    - exists q. split; [exact Eq|]. rewrite Vq, Fk. reflexivity. }
  destruct (H "A" "a") as [A1 A2]; [cbn; auto|]. destruct (H "B" "b") as [B1 B2]; [cbn; auto|]. destruct (H "C" "c") as [C1 C2]; [cbn; auto|]. cbn [append] in *.
  split; [exact A1|]. split; [exact B1|]. split; [exact C1|]. split; [exact A2|]. split; [exact B2|]. split; [exact C2|].
  split; [eexists; split; [exact S1|reflexivity]|]. split; [eexists; split; [exact S2|reflexivity]|eexists; split; [exact S3|reflexivity]].
Qed.
End Reports.

(** ** Sums of loads *)
Lemma sums_nonneg {A} (P : A -> Q -> Prop) l q : (forall a x, In a l -> P a x -> (0 <= x)%Q) -> sums P l q -> (0 <= q)%Q.
Proof.
  intros H S. induction S as [q E|a x l q q' Px S IH E|a l q N S IH]; [lra| |apply IH; intros; eapply H; eauto; right; assumption].
  assert (0 <= x)%Q by (eapply H; eauto; left; reflexivity). assert (0 <= q)%Q by (apply IH; intros; eapply H; eauto; right; assumption). lra.
Qed.
Lemma takes_nonneg o f (P : pload -> Prop) q : consumes o -> (forall x p, f x = Some p -> pl_p x = Some p) -> takes_all f P o q -> (0 <= q)%Q.
Proof. intros C F (l & pls & B & Ph & S). destruct (C l B) as [_ C']. eapply sums_nonneg; [|exact S]. intros x p Hx (_ & _ & Fp). eapply C'; eauto. Qed.

Definition single (P : mobj -> Q -> Prop) (o : mobj) : Prop := forall x y, P o x -> P o y -> (x == y)%Q.
Lemma takes_all_fun f P o : single (takes_all f P) o.
Proof.
  intros x y (l & pls & B & Ph & S) (l' & pls' & B' & Ph' & S'). assert (l' = l) by congruence. subst l'. assert (pls' = pls) by congruence. subst pls'.
  eapply sums_fun; [|exact S|exact S']. intros a u v _ (_ & _ & U) (_ & _ & V). assert (u = v) by congruence. subst. reflexivity.
Qed.
Lemma demands_fun o : single demands o.
Proof.
  intros x y (l & pls & B & Ph & C) (l' & pls' & B' & Ph' & C'). assert (l' = l) by congruence. subst l'. assert (pls' = pls) by congruence. subst pls'.
  destruct C as [[I S]|[I S]], C' as [[I' S']|[I' S']]; try contradiction.
  - eapply (takes_all_fun pl_p any o); exists l, pls; eauto.
  - assert (x = y) by congruence. subst. reflexivity.
Qed.
Lemma demands_in_fun X o : single (demands_in X) o.
Proof.
  intros x y (l & pls & B & Ph & C) (l' & pls' & B' & Ph' & C'). assert (l' = l) by congruence. subst l'. assert (pls' = pls) by congruence. subst pls'.
  destruct C as [[I S]|[I (k & n & m & K & N & M & E)]], C' as [[I' S']|[I' (k' & n' & m' & K' & N' & M' & E')]]; try contradiction.
  - eapply (takes_all_fun pl_p (of_phase X) o); exists l, pls; eauto.
  - assert (k' = k) by congruence. subst k'. rewrite E, E', (number_fun _ _ _ _ N N'), (number_fun _ _ _ _ M M'). reflexivity.
Qed.
Lemma powers_fun f o : single (powers f) o.
Proof.
  intros x y (l & pls & B & Ph & S) (l' & pls' & B' & Ph' & S'). assert (l' = l) by congruence. subst l'. assert (pls' = pls) by congruence. subst pls'.
  eapply sums_fun; [|exact S|exact S']. intros a u v _ U V. assert (u = v) by congruence. subst. reflexivity.
Qed.

(** A sum of parts, object by object. *)
Lemma sums_parts {A} (P P1 P2 P3 : A -> Q -> Prop) l q q1 q2 q3 :
  (forall o, In o l -> (forall x, ~ P o x) /\ (forall x, ~ P1 o x) /\ (forall x, ~ P2 o x) /\ (forall x, ~ P3 o x) \/
     exists x x1 x2 x3, P o x /\ P1 o x1 /\ P2 o x2 /\ P3 o x3 /\ (x1 + x2 + x3 == x)%Q) ->
  (forall o x y, In o l -> P o x -> P o y -> (x == y)%Q) -> (forall o x y, In o l -> P1 o x -> P1 o y -> (x == y)%Q) ->
  (forall o x y, In o l -> P2 o x -> P2 o y -> (x == y)%Q) -> (forall o x y, In o l -> P3 o x -> P3 o y -> (x == y)%Q) ->
  sums P l q -> sums P1 l q1 -> sums P2 l q2 -> sums P3 l q3 -> (q1 + q2 + q3 == q)%Q.
Proof.
  revert q q1 q2 q3. induction l as [|o l IH]; intros q q1 q2 q3 H F F1 F2 F3 S S1 S2 S3.
  - inversion S; inversion S1; inversion S2; inversion S3; subst. lra.
  - assert (I : forall q q1 q2 q3, sums P l q -> sums P1 l q1 -> sums P2 l q2 -> sums P3 l q3 -> (q1 + q2 + q3 == q)%Q).
    { intros u u1 u2 u3. apply IH; intros; [apply H; right; assumption|eapply F|eapply F1|eapply F2|eapply F3]; eauto; right; assumption. }
    destruct (H o (or_introl eq_refl)) as [(N & N1 & N2 & N3)|(x & x1 & x2 & x3 & Px & Px1 & Px2 & Px3 & E)].
    + inversion S as [|? ? ? ? ? C|]; subst; [exfalso; eapply N; eauto|]. inversion S1 as [|? ? ? ? ? C1|]; subst; [exfalso; eapply N1; eauto|].
      inversion S2 as [|? ? ? ? ? C2|]; subst; [exfalso; eapply N2; eauto|]. inversion S3 as [|? ? ? ? ? C3|]; subst; [exfalso; eapply N3; eauto|]. auto.
    + inversion S as [|? y ? p ? C T D|? ? ? C]; subst; [|exfalso; eapply C; eauto]. inversion S1 as [|? y1 ? p1 ? C1 T1 D1|? ? ? C1]; subst; [|exfalso; eapply C1; eauto].
      inversion S2 as [|? y2 ? p2 ? C2 T2 D2|? ? ? C2]; subst; [|exfalso; eapply C2; eauto]. inversion S3 as [|? y3 ? p3 ? C3 T3 D3|? ? ? C3]; subst; [|exfalso; eapply C3; eauto].
      assert (J := I _ _ _ _ T T1 T2 T3). rewrite D, D1, D2, D3, <- J.
      rewrite (F o y x), (F1 o y1 x1), (F2 o y2 x2), (F3 o y3 x3), <- E by (auto; left; reflexivity). ring.
Qed.

Lemma split_abc (f : pload -> Q) pls : (forall x, In x pls -> an_abc (pl_phase x)) ->
  (total (fun x => if phase_is "A" x then f x else 0) pls + total (fun x => if phase_is "B" x then f x else 0) pls + total (fun x => if phase_is "C" x then f x else 0) pls == total f pls)%Q.
Proof.
  intros H. rewrite <- !total_plus. apply total_ext. intros x Hx. unfold phase_is. destruct (H x Hx) as [->|[->| ->]]; cbn; ring.
Qed.
Lemma live_In pls x : In x (live pls) <-> In x pls /\ pl_drop x = false.
Proof. unfold live. rewrite filter_In, negb_true_iff. reflexivity. Qed.
Lemma idle_dec pls : idle pls \/ ~ idle pls.
Proof. destruct (all_zero (map pl_p (live pls)) && all_zero (map pl_q (live pls))) eqn:E; [left; apply idle_spec; exact E|right; intros C; apply idle_spec in C; congruence]. Qed.
Lemma number_live (P : pload -> Prop) (b : pload -> bool) pls : (forall x, b x = true <-> P x) -> number (fun x => pl_drop x = false /\ P x) pls (total (fun x => if b x then 1 else 0)%Q (live pls)).
Proof.
  intros H. eapply sums_ext; [apply (number_total _ (fun x => negb (pl_drop x) && b x))|].
  - intros x. rewrite andb_true_iff, negb_true_iff, H. reflexivity.
  - unfold live. rewrite total_filter. apply total_ext. intros x _. destruct (pl_drop x), (b x); reflexivity.
Qed.
Lemma load_parts o : phased_load o -> (forall x, ~ demands o x) /\ (forall x, ~ demands_in "A" o x) /\ (forall x, ~ demands_in "B" o x) /\ (forall x, ~ demands_in "C" o x) \/
  exists x x1 x2 x3, demands o x /\ demands_in "A" o x1 /\ demands_in "B" o x2 /\ demands_in "C" o x3 /\ (x1 + x2 + x3 == x)%Q.
Proof.
  intros H. assert (D : (exists l pls, mb_body o = Load l /\ mo_phases l = Some pls) \/ forall l pls, mb_body o = Load l -> mo_phases l <> Some pls).
  { destruct (mb_body o) as [|l| | | |]; try (right; discriminate). destruct (mo_phases l) as [pls|] eqn:P; [left; eauto|]. right. intros l' pls E. injection E as <-. congruence. }
  destruct D as [(l & pls & B & Ph)|No].
  2: { left. repeat split; intros x (l & pls & B & Ph & _); exact (No l pls B Ph). }
  destruct (H l pls B Ph) as [(w & Hw & Dw) Abc]. assert (Abc' : forall x, In x (live pls) -> an_abc (pl_phase x)) by (intros x Hx; apply live_In in Hx; apply Abc; apply Hx).
  assert (Cut : forall X, demands_in X o (total (fun x => if phase_is X x then val (pl_p x) else 0)%Q (live pls)) \/ idle pls).
  { intros X. destruct (idle_dec pls) as [I|I]; [right; exact I|left]. exists l, pls. split; [exact B|]. split; [exact Ph|]. left. split; [exact I|]. apply takes_total. apply phase_is_spec. }
  destruct (idle_dec pls) as [I|I].
  - destruct (mo_kva l) as [k|] eqn:K.
    + right. set (n := fun X => total (fun x => if phase_is X x then 1 else 0)%Q (live pls)). set (m := total (fun _ => 1%Q) (live pls)).
      assert (D : forall X, demands_in X o (k * n X / m)).
      { intros X. exists l, pls. split; [exact B|]. split; [exact Ph|]. right. split; [exact I|]. exists k, (n X), m. split; [exact K|]. split; [apply number_live; apply phase_is_spec|].
        split; [|reflexivity]. eapply sums_ext; [apply (number_total _ (fun x => negb (pl_drop x))); intros x; apply negb_true_iff|]. unfold m, live. rewrite total_filter. reflexivity. }
      exists k, (k * n "A" / m)%Q, (k * n "B" / m)%Q, (k * n "C" / m)%Q. split; [exists l, pls; split; [exact B|]; split; [exact Ph|]; right; auto|]. split; [apply D|]. split; [apply D|]. split; [apply D|].
      assert (S : (n "A" + n "B" + n "C" == m)%Q) by (unfold n, m; apply (split_abc (fun _ => 1%Q)); exact Abc').
      assert (M : ~ (m == 0)%Q).
      { unfold m. rewrite total_one. intros C. assert (Hl : In w (live pls)) by (apply live_In; auto). destruct (live pls) as [|u r]; [contradiction|]. cbn [length] in C. unfold Qeq in C. cbn in C. lia. }
      rewrite <- S. field. rewrite S. exact M.
    + left. repeat split; intros x (l' & pls' & B' & Ph' & C); assert (l' = l) by congruence; subst l'; assert (pls' = pls) by congruence; subst pls'; destruct C as [[C _]|[_ C]]; try contradiction; [congruence|..];
        destruct C as (k & n & m & C & _); congruence.
  - right. eexists. eexists. eexists. eexists. split; [exists l, pls; split; [exact B|]; split; [exact Ph|]; left; split; [exact I|]; apply (takes_total pl_p any (fun _ => true)); intros x; unfold any; tauto|].
    split; [destruct (Cut "A") as [C|C]; [exact C|contradiction]|]. split; [destruct (Cut "B") as [C|C]; [exact C|contradiction]|]. split; [destruct (Cut "C") as [C|C]; [exact C|contradiction]|].
    apply split_abc. exact Abc'.
Qed.
Lemma phases_add objs kw a b c : Forall phased_load objs -> sums demands objs kw -> sums (demands_in "A") objs a -> sums (demands_in "B") objs b -> sums (demands_in "C") objs c -> (a + b + c == kw)%Q.
Proof.
  intros H. apply sums_parts.
  - intros o Ho. apply load_parts. rewrite Forall_forall in H. auto.
  - intros; eapply demands_fun; eauto.
  - intros; eapply demands_in_fun; eauto.
  - intros; eapply demands_in_fun; eauto.
  - intros; eapply demands_in_fun; eauto.
Qed.
Lemma demands_in_nonneg X o q : consumes o -> demands_in X o q -> (0 <= q)%Q.
Proof.
  intros C (l & pls & B & Ph & D). destruct (C l B) as [Ck Cp]. destruct D as [[_ S]|[_ (k & n & m & K & N & M & E)]].
  - eapply sums_nonneg; [|exact S]. intros x p Hx (_ & _ & Hp). eapply Cp; eauto.
  - rewrite E. assert (0 <= n)%Q by (eapply sums_nonneg; [|exact N]; intros a x _ [_ ->]; lra). assert (Hm : (0 <= m)%Q) by (eapply sums_nonneg; [|exact M]; intros a x _ [_ ->]; lra).
    assert (Hk := Ck _ K). assert (0 <= k * n)%Q by (apply Qmult_le_0_compat; assumption). unfold Qdiv. apply Qmult_le_0_compat; [assumption|]. apply Qinv_le_0_compat. exact Hm.
Qed.

(** ** The metrics one by one *)
Lemma count_spec f (P : mobj -> Prop) objs : (forall o, f o = true <-> P o) -> number P objs (inject_Z (Z.of_nat (count f objs))).
Proof.
  intros H. unfold count. assert (E : forall l acc, fold_left Nat.add (flat_map (fun o => when (f o) [1]) l) acc = acc + length (filter f l)).
  { induction l as [|o l IH]; intros acc; cbn; [lia|]. destruct (f o); cbn; rewrite IH; lia. }
  rewrite E. cbn [plus]. apply number_filter. exact H.
Qed.
Lemma count_app f a b : count f (a ++ b) = count f a + count f b.
Proof.
  unfold count. assert (E : forall l acc, fold_left Nat.add (flat_map (fun o => when (f o) [1]) l) acc = acc + length (filter f l)).
  { induction l as [|o l IH]; intros acc; cbn; [lia|]. destruct (f o); cbn; rewrite IH; lia. }
  rewrite !E. rewrite filter_app, app_length. lia.
Qed.
Lemma line_flag (g : mline -> bool) o : match is_line o with Some l => g l | None => false end = true <-> a_line (fun l => g l = true) o.
Proof. unfold is_line, a_line. destruct (mb_body o) as [l| | | | |]; [|split; [discriminate|intros (l & C & _); discriminate]..]. split; [eauto|]. intros (l' & E & H). injection E as <-. exact H. Qed.

Section Levels.
Variables (LV MV : Q) (level : option Q -> res bool) (P : option Q -> Prop).
Hypothesis level_spec : forall v b, level v = Ok b -> (b = true <-> P v).
Hypothesis level_total : forall x, exists b, level (Some x) = Ok b.

Definition gains (pick : mline -> bool) (o : mobj) : Q :=
  match mb_body o with Line l => match level (ml_volt l) with Ok true => if pick l then match ml_length l with Some x => if Qle_bool 0 x then x else 0 | None => 0 end else 0 | _ => 0 end | _ => 0 end%Q.
Lemma gains_sums pick (R : mline -> Prop) o : (forall l, pick l = true <-> R l) -> (forall l, mb_body o = Line l -> exists b, level (ml_volt l) = Ok b) ->
  yes (long (fun l => P (ml_volt l) /\ R l)) o (gains pick o).
Proof.
  intros H T. unfold gains. destruct (mb_body o) as [l| | | | |] eqn:B; try (right; split; [intros x (l & C & _); congruence|reflexivity]).
  destruct (T l eq_refl) as [b Eb]. rewrite Eb. assert (S := level_spec _ _ Eb).
  assert (No : ~ (P (ml_volt l) /\ R l) -> yes (long (fun l => P (ml_volt l) /\ R l)) o 0%Q) by (intros N; right; split; [intros x (l' & C & C1 & _); assert (l' = l) by congruence; subst; contradiction|reflexivity]).
  destruct b; [|apply No; intros [C _]; apply S in C; discriminate]. destruct (pick l) eqn:K; [|apply No; intros [_ C]; apply H in C; congruence].
  destruct (ml_length l) as [x|] eqn:X; [|right; split; [intros x (l' & C & _ & C1 & _); assert (l' = l) by congruence; subst; congruence|reflexivity]].
  destruct (Qle_bool 0 x) eqn:L.
  - left. exists x. split; [|reflexivity]. exists l. split; [exact B|]. split; [split; [apply S; reflexivity|apply H; exact K]|]. split; [exact X|apply Qle_spec; exact L].
  - right. split; [|reflexivity]. intros y (l' & C & _ & C1 & C2). assert (l' = l) by congruence. subst. assert (y = x) by congruence. subst. apply Qle_spec in C2. congruence.
Qed.
Lemma length_step pick l acc acc' : (do b <- level (ml_volt l); if b : bool then if pick l : bool then add_length l acc else Ok acc else Ok acc) = Ok acc' ->
  (exists b, level (ml_volt l) = Ok b) /\ (acc' == acc + match level (ml_volt l) with Ok true => if pick l then match ml_length l with Some x => if Qle_bool 0 x then x else 0 | None => 0 end else 0 | _ => 0 end)%Q.
Proof.
  destruct (level (ml_volt l)) as [b|]; cbn [bind]; [|discriminate]. intros E. split; [eauto|]. destruct b; [|injection E as <-; ring]. destruct (pick l); [|injection E as <-; ring].
  unfold add_length in E. destruct (ml_length l) as [x|]; cbn [of_opt bind] in E; [|discriminate]. injection E as <-. destruct (Qle_bool 0 x); ring.
Qed.
Lemma length_fold (step : Q -> mobj -> res Q) pick : (forall acc o, step acc o = match is_line o with None => Ok acc | Some l => do b <- level (ml_volt l); if b : bool then if pick l : bool then add_length l acc else Ok acc else Ok acc end) ->
  forall objs acc t, foldM step objs acc = Ok t -> (forall o l, In o objs -> mb_body o = Line l -> exists b, level (ml_volt l) = Ok b) /\ (t == acc + total (gains pick) objs)%Q.
Proof.
  intros Hs. induction objs as [|o objs IH]; intros acc t; cbn [foldM].
  - intros E. injection E as <-. split; [intros o l []|]. cbn. ring.
  - rewrite Hs. unfold is_line. destruct (mb_body o) as [l| | | | |] eqn:B.
    + destruct (do b <- level (ml_volt l); if b : bool then if pick l : bool then add_length l acc else Ok acc else Ok acc) as [acc'|] eqn:E1; cbn [bind]; [|discriminate].
      apply length_step in E1. destruct E1 as [L1 E1]. intros E. destruct (IH _ _ E) as [T V]. split.
      * intros o' l' [<-|Ho] B'; [assert (l' = l) by congruence; subst; exact L1|eapply T; eauto].
      * cbn [total]. unfold gains at 1. rewrite B, V, E1. ring.
    + cbn [bind]. intros E. destruct (IH _ _ E) as [T V]. split; [intros o' l' [<-|Ho] B'; [congruence|eapply T; eauto]|]. cbn [total]. unfold gains at 1. rewrite B, V. ring.
    + cbn [bind]. intros E. destruct (IH _ _ E) as [T V]. split; [intros o' l' [<-|Ho] B'; [congruence|eapply T; eauto]|]. cbn [total]. unfold gains at 1. rewrite B, V. ring.
    + cbn [bind]. intros E. destruct (IH _ _ E) as [T V]. split; [intros o' l' [<-|Ho] B'; [congruence|eapply T; eauto]|]. cbn [total]. unfold gains at 1. rewrite B, V. ring.
    + cbn [bind]. intros E. destruct (IH _ _ E) as [T V]. split; [intros o' l' [<-|Ho] B'; [congruence|eapply T; eauto]|]. cbn [total]. unfold gains at 1. rewrite B, V. ring.
    + cbn [bind]. intros E. destruct (IH _ _ E) as [T V]. split; [intros o' l' [<-|Ho] B'; [congruence|eapply T; eauto]|]. cbn [total]. unfold gains at 1. rewrite B, V. ring.
Qed.
Lemma length_fold_total (step : Q -> mobj -> res Q) pick : (forall acc o, step acc o = match is_line o with None => Ok acc | Some l => do b <- level (ml_volt l); if b : bool then if pick l : bool then add_length l acc else Ok acc else Ok acc end) ->
  forall objs acc, (forall o l, In o objs -> mb_body o = Line l -> (exists v, ml_volt l = Some v) /\ exists x, ml_length l = Some x) -> exists t, foldM step objs acc = Ok t.
Proof.
  intros Hs. induction objs as [|o objs IH]; intros acc H; cbn [foldM]; [eauto|].
  assert (E : exists acc', step acc o = Ok acc').
  { rewrite Hs. unfold is_line. destruct (mb_body o) as [l| | | | |] eqn:B; eauto. destruct (H o l (or_introl eq_refl) B) as [(v & V) (x & X)]. rewrite V. destruct (level_total v) as [b ->]. cbn [bind].
    destruct b; [|eauto]. destruct (pick l); [|eauto]. unfold add_length. rewrite X. cbn. eauto. }
  destruct E as [acc' ->]. cbn [bind]. apply IH. intros. eapply H; eauto. right. assumption.
Qed.
Definition wires_are (X : nat) (l : mline) : bool := match ml_wires l with Some ws => Nat.eqb (length (filter (fun w => abc (w_phase w)) ws)) X | None => false end.
Lemma wires_are_spec X l : wires_are X l = true <-> has_wires X l.
Proof.
  unfold wires_are, has_wires. destruct (ml_wires l) as [ws|]; [|split; [discriminate|intros (ws & C & _); discriminate]]. rewrite Nat.eqb_eq.
  split; [intros <-; exists ws; split; [reflexivity|]; apply number_filter; intros w; apply abc_spec|]. intros (ws' & E & N). injection E as <-. eapply number_nat in N; [exact N|]. intros w. apply abc_spec.
Qed.
Lemma length_miles_spec objs t : length_miles level objs = Ok t -> exists q, sums (long (fun l => P (ml_volt l))) objs q /\ (t == q * mile)%Q.
Proof.
  unfold length_miles. destruct (foldM _ objs 0%Q) as [s|] eqn:E; cbn [bind]; [|discriminate]. intros E1. injection E1 as <-.
  destruct (length_fold _ (fun _ => true) ltac:(reflexivity) _ _ _ E) as [T V]. exists (total (gains (fun _ => true)) objs). split; [|rewrite V; ring].
  apply sums_total. intros o Ho. destruct (gains_sums (fun _ => true) (fun _ => True) o) as [(x & (l & B & [Hp _] & Hl) & Hx)|[N Hx]]; [tauto|intros l B; eapply T; eauto| |].
  - left. exists x. split; [exists l; auto|exact Hx].
  - right. split; [|exact Hx]. intros x (l & B & Hp & Hl). apply (N x). exists l. auto.
Qed.
Lemma length_Xph_spec X objs t : length_Xph_miles level X objs = Ok t -> (1 <= X <= 3) /\ exists q, sums (long (fun l => P (ml_volt l) /\ has_wires X l)) objs q /\ (t == q * mile)%Q.
Proof.
  unfold length_Xph_miles. destruct (Nat.leb 1 X && Nat.leb X 3) eqn:R; [|discriminate]. apply andb_true_iff in R. destruct R as [R1 R2]. apply Nat.leb_le in R1, R2.
  destruct (foldM _ objs 0%Q) as [s|] eqn:E; cbn [bind]; [|discriminate]. intros E1. injection E1 as <-. split; [lia|].
  assert (TV := fun H => length_fold _ (wires_are X) H _ _ _ E). destruct TV as [T V].
  { intros acc o. cbv beta. destruct (is_line o) as [l|]; [|reflexivity]. unfold wires_are. destruct (level (ml_volt l)) as [b|]; [|reflexivity]. cbn [bind]. destruct b; [|reflexivity]. destruct (ml_wires l); reflexivity. }
  exists (total (gains (wires_are X)) objs). split; [|rewrite V; ring].
  apply sums_total. intros o Ho. apply (gains_sums (wires_are X) (has_wires X) o); [apply wires_are_spec|intros l B; eapply T; eauto].
Qed.
Lemma length_total objs : (forall o l, In o objs -> mb_body o = Line l -> (exists v, ml_volt l = Some v) /\ exists x, ml_length l = Some x) ->
  (exists t, length_miles level objs = Ok t) /\ forall X, 1 <= X <= 3 -> exists t, length_Xph_miles level X objs = Ok t.
Proof.
  intros H. split.
  - unfold length_miles. destruct (length_fold_total _ (fun _ => true) ltac:(reflexivity) objs 0%Q H) as [t ->]. cbn [bind]. eauto.
  - intros X R. unfold length_Xph_miles. replace (Nat.leb 1 X && Nat.leb X 3) with true by (symmetry; apply andb_true_iff; split; apply Nat.leb_le; lia).
    edestruct (length_fold_total) with (pick := wires_are X) (objs := objs) (acc := 0%Q) as [t Et]; [|exact H|].
    2: { rewrite Et. cbn [bind]. eauto. }
    intros acc o. cbv beta. destruct (is_line o) as [l|]; [|reflexivity]. unfold wires_are. destruct (level (ml_volt l)) as [b|]; [|reflexivity]. cbn [bind]. destruct b; [|reflexivity]. destruct (ml_wires l); reflexivity.
Qed.
(** The lengths by number of wires are parts of the length. *)
Lemma Xph_parts objs t t1 t2 t3 : length_miles level objs = Ok t -> length_Xph_miles level 1 objs = Ok t1 -> length_Xph_miles level 2 objs = Ok t2 -> length_Xph_miles level 3 objs = Ok t3 ->
  (t1 + t2 + t3 <= t)%Q /\ ((forall o l, In o objs -> mb_body o = Line l -> P (ml_volt l) -> has_wires 1 l \/ has_wires 2 l \/ has_wires 3 l) -> (t1 + t2 + t3 == t)%Q).
Proof.
  intros E E1 E2 E3.
  assert (Tx : forall X t, length_Xph_miles level X objs = Ok t -> (t == total (gains (wires_are X)) objs * mile)%Q).
  { intros X t0. unfold length_Xph_miles. destruct (Nat.leb 1 X && Nat.leb X 3) eqn:R; [|discriminate]. destruct (foldM _ objs 0%Q) as [s|] eqn:F; cbn [bind]; [|discriminate]. intros F1. injection F1 as <-.
    assert (TV := fun H => length_fold _ (wires_are X) H _ _ _ F). destruct TV as [_ V].
    { intros acc o. cbv beta. destruct (is_line o) as [l|]; [|reflexivity]. unfold wires_are. destruct (level (ml_volt l)) as [b|]; [|reflexivity]. cbn [bind]. destruct b; [|reflexivity]. destruct (ml_wires l); reflexivity. }
    rewrite V. ring. }
  assert (T : (t == total (gains (fun _ => true)) objs * mile)%Q /\ forall o l, In o objs -> mb_body o = Line l -> exists b, level (ml_volt l) = Ok b).
  { revert E. unfold length_miles. destruct (foldM _ objs 0%Q) as [s|] eqn:F; cbn [bind]; [|discriminate]. intros F1. injection F1 as <-.
    destruct (length_fold _ (fun _ => true) ltac:(reflexivity) _ _ _ F) as [T V]. split; [rewrite V; ring|exact T]. }
  destruct T as [T Lv]. rewrite T, (Tx _ _ E1), (Tx _ _ E2), (Tx _ _ E3). clear E E1 E2 E3 T Tx.
  assert (One : forall o, let a := (gains (wires_are 1) o + gains (wires_are 2) o + gains (wires_are 3) o)%Q in (a == gains (fun _ => true) o)%Q \/
     ((a == 0)%Q /\ (0 <= gains (fun _ => true) o)%Q /\ exists l, mb_body o = Line l /\ (level (ml_volt l) = Ok true) /\ wires_are 1 l = false /\ wires_are 2 l = false /\ wires_are 3 l = false)).
  { intros o. cbv zeta. unfold gains. destruct (mb_body o) as [l| | | | |] eqn:B; try (left; ring). destruct (level (ml_volt l)) as [[|]|] eqn:Le; try (left; ring).
    set (v := match ml_length l with Some x => if Qle_bool 0 x then x else 0 | None => 0 end%Q). assert (V : (0 <= v)%Q) by (unfold v; destruct (ml_length l) as [x|]; [destruct (Qle_bool 0 x) eqn:L; [apply Qle_spec in L; exact L|lra]|lra]).
    destruct (wires_are 1 l) eqn:W1; [left; assert (W2 : wires_are 2 l = false /\ wires_are 3 l = false) by (unfold wires_are in *; destruct (ml_wires l); [apply Nat.eqb_eq in W1; rewrite W1; split; reflexivity|discriminate]); destruct W2 as [-> ->]; ring|].
    destruct (wires_are 2 l) eqn:W2; [left; assert (W3 : wires_are 3 l = false) by (unfold wires_are in *; destruct (ml_wires l); [apply Nat.eqb_eq in W2; rewrite W2; reflexivity|discriminate]); rewrite W3; ring|].
    destruct (wires_are 3 l) eqn:W3; [left; ring|]. right. split; [ring|]. split; [exact V|]. exists l. auto 6. }
  split.
  - assert (L : (total (fun o => gains (wires_are 1) o + gains (wires_are 2) o + gains (wires_are 3) o)%Q objs <= total (gains (fun _ => true)) objs)%Q) by (apply total_le; intros o _; destruct (One o) as [O|(O & O' & _)]; cbv zeta in *; lra).
    rewrite !total_plus in L. assert (L' := Qmult_le_compat_r _ _ mile L (Qlt_le_weak _ _ mile_pos)). lra.
  - intros H. assert (L : (total (fun o => gains (wires_are 1) o + gains (wires_are 2) o + gains (wires_are 3) o)%Q objs == total (gains (fun _ => true)) objs)%Q).
    { apply total_ext. intros o Ho. destruct (One o) as [O|(O & O' & l & B & Lt & W1 & W2 & W3)]; [exact O|]. exfalso. assert (Pl : P (ml_volt l)) by (apply (level_spec _ _ Lt); reflexivity).
      destruct (H o l Ho B Pl) as [C|[C|C]]; apply wires_are_spec in C; congruence. }
    rewrite !total_plus in L. rewrite <- L. ring.
Qed.
End Levels.

Lemma is_lv_spec LV v b : is_lv LV v = Ok b -> (b = true <-> at_most LV v).
Proof.
  unfold is_lv, at_most. destruct v as [x|]; cbn; [|discriminate]. intros E. injection E as <-. rewrite Qle_spec. split; [eauto|]. intros (y & E & H). injection E as <-. exact H.
Qed.
Lemma is_mv_spec LV MV v b : is_mv LV MV v = Ok b -> (b = true <-> amid LV MV v).
Proof.
  unfold is_mv, amid. destruct v as [x|]; cbn; [|discriminate]. intros E. injection E as <-. rewrite andb_true_iff, Qle_spec, Qlt_spec. split; [intros []; eauto|]. intros (y & E & H). injection E as <-. tauto.
Qed.

(** *** Powers *)
Lemma total_of_spec f objs : exists q, sums (powers f) objs q /\ (total_of f objs == q * milli)%Q.
Proof.
  set (w := fun o => match mb_body o with Load x => match mo_phases x with Some pls => total (fun y => val (f y)) pls | None => 0 end | _ => 0 end%Q). exists (total w objs). split.
  - apply sums_total. intros o _. unfold w. destruct (mb_body o) as [|x| | | |] eqn:B; try (right; split; [intros q (y & pls & C & _); congruence|reflexivity]).
    destruct (mo_phases x) as [pls|] eqn:Ph; [|right; split; [intros q (y & pls & C & C1 & _); assert (y = x) by congruence; subst; congruence|reflexivity]].
    left. eexists. split; [|reflexivity]. exists x, pls. split; [exact B|]. split; [exact Ph|]. apply sums_total. intros y _. destruct (f y) as [q|] eqn:F; [left; exists q; split; reflexivity|right; split; [intros q C; congruence|reflexivity]].
  - unfold total_of. apply Qmult_comp; [|reflexivity].
    assert (G : forall l acc, (fold_left (fun acc o => match is_load o with Some x => match mo_phases x with Some pls => acc + np_sum (some_only (map f pls)) | None => acc end | None => acc end)%Q l acc == acc + total w l)%Q).
    { induction l as [|o l IH]; intros acc; cbn [fold_left total]; [ring|]. rewrite IH. unfold w at 2. unfold is_load. destruct (mb_body o) as [|x| | | |]; try ring. destruct (mo_phases x) as [pls|]; [|ring]. rewrite np_sum_total. ring. }
    rewrite G. ring.
Qed.

(** Loads of which nothing is dropped and that are not idle behind a transformer. *)
Lemma plain_yes (o : mobj) v w : plain o -> yes demands o v -> yes (powers pl_p) o w -> (v == w)%Q.
Proof.
  intros Pl D Pw. destruct Pw as [(x & (l & pls & B & Ph & S) & Hx)|[N Hw]].
  - destruct (Pl l pls B Ph) as [Nd K]. destruct D as [(y & (l' & pls' & B' & Ph' & C) & Hy)|[N Hv]].
    + assert (l' = l) by congruence. subst l'. assert (pls' = pls) by congruence. subst pls'. destruct C as [[I S']|[I K']]; [|rewrite (K I) in K'; discriminate].
      rewrite Hx, Hy. eapply (sums_fun (takes pl_p any)); [intros a u u' _ (_ & _ & U) (_ & _ & V); assert (u = u') by congruence; subst; reflexivity|exact S'|].
      clear - S Nd. induction S as [q E|a u r q q' Pu S IH E|a r q N S IH]; [constructor; exact E|apply (sums_in _ a u r q); [split; [apply Nd; left; reflexivity|split; [exact I|exact Pu]]|apply IH; intros; apply Nd; right; assumption|exact E]|].
      apply sums_out; [intros u (_ & _ & C); exact (N u C)|apply IH; intros; apply Nd; right; assumption].
    + destruct (idle_dec pls) as [I|I].
      * rewrite Hv, Hx. assert (Z : (x == 0)%Q); [|rewrite Z; reflexivity]. eapply (sums_fun (fun y p => pl_p y = Some p)); [intros a u u' _ U V; assert (u = u') by congruence; subst; reflexivity|exact S|].
        assert (I' : forall y, In y pls -> exists p, pl_p y = Some p /\ (p == 0)%Q) by (intros y Hy; destruct (I y Hy (Nd y Hy)) as (p & q & Ep & _ & Zp & _); eauto).
        clear - I'. induction pls as [|y r IH]; [constructor; reflexivity|]. destruct (I' y (or_introl eq_refl)) as (p & Ep & Zp). apply (sums_in _ y p r 0%Q); [exact Ep|apply IH; intros; apply I'; right; assumption|lra].
      * exfalso. eapply N. exists l, pls. split; [exact B|]. split; [exact Ph|]. left. split; [exact I|]. apply (takes_total pl_p any (fun _ => true)). intros; unfold any; tauto.
  - destruct D as [(y & (l' & pls' & B' & Ph' & C) & Hy)|[_ Hv]]; [|lra]. exfalso. eapply N. exists l', pls'. split; [exact B'|]. split; [exact Ph'|].
    apply (sums_total _ (fun y => val (pl_p y))). intros z _. destruct (pl_p z) as [p|] eqn:E; [left; exists p; split; [reflexivity|reflexivity]|right; split; [discriminate|reflexivity]].
Qed.
Lemma sums_rel {A} (P R : A -> Q -> Prop) l q q' : (forall a v w, In a l -> yes P a v -> yes R a w -> (v == w)%Q) ->
  (forall a, In a l -> (exists x, P a x) \/ forall x, ~ P a x) -> sums P l q -> sums R l q' -> (q == q')%Q.
Proof.
  intros H Dc S. revert q'. induction S as [q E|a x l q q1 Px S IH E|a l q N S IH]; intros q' S'.
  - inversion S'; subst. lra.
  - assert (IH' : forall q', sums R l q' -> (q == q')%Q) by (apply IH; intros; [eapply H|eapply Dc]; eauto; right; assumption).
    assert (Y : yes P a x) by (left; exists x; split; [exact Px|reflexivity]).
    inversion S' as [|? y ? p ? Ry T D|? ? ? N T]; subst.
    + rewrite E, D, (IH' _ T), (H a x y (or_introl eq_refl) Y); [reflexivity|left; exists y; split; [exact Ry|reflexivity]].
    + rewrite E, (IH' _ T), (H a x 0%Q (or_introl eq_refl) Y); [ring|right; split; [exact N|reflexivity]].
  - assert (IH' : forall q', sums R l q' -> (q == q')%Q) by (apply IH; intros; [eapply H|eapply Dc]; eauto; right; assumption).
    assert (Y : yes P a 0%Q) by (right; split; [exact N|reflexivity]).
    inversion S' as [|? y ? p ? Ry T D|? ? ? N' T]; subst; [|apply IH'; exact T].
    assert (y == 0)%Q by (symmetry; apply (H a 0%Q y (or_introl eq_refl) Y); left; exists y; split; [exact Ry|reflexivity]). rewrite D, (IH' _ T). lra.
Qed.

(** *** percentage_load_LV_kW_phX *)
Definition drawn (LV : Q) (X : string) (o : mobj) : Q :=
  match mb_body o with Load x => match mo_volt x, mo_phases x with Some v, Some pls => if Qle_bool v LV then total (fun y => if phase_is X y then val (pl_p y) else 0) pls else 0 | _, _ => 0 end | _ => 0 end%Q.
Lemma drawn_yes LV X o : yes (draws LV X) o (drawn LV X o).
Proof.
  unfold drawn. destruct (mb_body o) as [|x| | | |] eqn:B; try (right; split; [intros q (y & pls & C & _); congruence|reflexivity]).
  assert (No : (forall pls, at_most LV (mo_volt x) -> mo_phases x = Some pls -> False) -> yes (draws LV X) o 0%Q).
  { intros N. right. split; [|reflexivity]. intros q (y & pls & C & A & Ph & _). assert (y = x) by congruence. subst. eapply N; eauto. }
  destruct (mo_volt x) as [v|] eqn:V; [|apply No; intros pls (y & C & _); discriminate]. destruct (mo_phases x) as [pls|] eqn:Ph; [|apply No; discriminate].
  destruct (Qle_bool v LV) eqn:L.
  - left. eexists. split; [|reflexivity]. exists x, pls. split; [exact B|]. split; [exists v; split; [exact V|apply Qle_spec; exact L]|]. split; [exact Ph|].
    apply sums_total. intros y _. destruct (phase_is X y) eqn:K; [|right; split; [intros q [C _]; apply phase_is_spec in C; congruence|reflexivity]].
    apply phase_is_spec in K. destruct (pl_p y) as [p|] eqn:Py; [left; exists p; split; [split; [exact K|reflexivity]|reflexivity]|right; split; [intros q [_ C]; discriminate|reflexivity]].
  - apply No. intros pls' (y & E & H) _. injection E as <-. apply Qle_spec in H. congruence.
Qed.
Lemma phase_load_fold X pls : In X ["A"; "B"; "C"] -> forall acc, let r := fold_left (add_phase_load X) pls acc in
  (fst r == fst acc + total (fun y => if phase_is X y then val (pl_p y) else 0) pls)%Q /\
  (snd r == snd acc + (total (fun y => if phase_is "A" y then val (pl_p y) else 0) pls + total (fun y => if phase_is "B" y then val (pl_p y) else 0) pls + total (fun y => if phase_is "C" y then val (pl_p y) else 0) pls))%Q.
Proof.
  intros HX. induction pls as [|y pls IH]; intros acc; cbv zeta; cbn [fold_left total]; [split; ring|]. destruct (IH (add_phase_load X acc y)) as [E1 E2]. cbv zeta in *. rewrite E1, E2. clear E1 E2 IH.
  unfold add_phase_load, phase_is. destruct (abc (pl_phase y)) eqn:Ab.
  - apply abc_spec in Ab. destruct (pl_p y) as [p|]; cbn [val].
    + destruct HX as [<-|[<-|[<-|[]]]]; destruct Ab as [->|[->| ->]]; cbn; split; ring.
    + destruct (okey_eqb (pl_phase y) (Some X)), (okey_eqb (pl_phase y) (Some "A")), (okey_eqb (pl_phase y) (Some "B")), (okey_eqb (pl_phase y) (Some "C")); split; ring.
  - assert (N : forall Y, In Y ["A"; "B"; "C"] -> okey_eqb (pl_phase y) (Some Y) = false).
    { intros Y HY. destruct (okey_eqb (pl_phase y) (Some Y)) eqn:C; [|reflexivity]. apply okey_spec in C. assert (abc (pl_phase y) = true) by (apply abc_spec; unfold an_abc; rewrite C; destruct HY as [<-|[<-|[<-|[]]]]; auto). congruence. }
    rewrite (N X HX), (N "A"), (N "B"), (N "C") by (cbn; auto). split; ring.
Qed.
Lemma percentage_spec LV objs : exists a b c, sums (draws LV "A") objs a /\ sums (draws LV "B") objs b /\ sums (draws LV "C") objs c /\
  ((a + b + c == 0)%Q -> forall X, In X ["A"; "B"; "C"] -> percentage_load_LV_kW_phX LV X objs = Err EZeroDiv) /\
  (~ (a + b + c == 0)%Q -> exists pa pb pc, percentage_load_LV_kW_phX LV "A" objs = Ok pa /\ percentage_load_LV_kW_phX LV "B" objs = Ok pb /\ percentage_load_LV_kW_phX LV "C" objs = Ok pc /\
     (pa == a / (a + b + c) * 100)%Q /\ (pb == b / (a + b + c) * 100)%Q /\ (pc == c / (a + b + c) * 100)%Q).
Proof.
  exists (total (drawn LV "A") objs), (total (drawn LV "B") objs), (total (drawn LV "C") objs).
  split; [apply sums_total; intros o _; apply drawn_yes|]. split; [apply sums_total; intros o _; apply drawn_yes|]. split; [apply sums_total; intros o _; apply drawn_yes|].
  assert (F : forall X, In X ["A"; "B"; "C"] -> let r := fold_left (fun acc o => match is_load o with
         | Some x => match mo_volt x, mo_phases x with Some v, Some pls => if Qle_bool v LV then fold_left (add_phase_load X) pls acc else acc | _, _ => acc end
         | None => acc end) objs (0, 0)%Q in (fst r == total (drawn LV X) objs)%Q /\ (snd r == total (drawn LV "A") objs + total (drawn LV "B") objs + total (drawn LV "C") objs)%Q).
  { intros X HX. assert (G : forall l acc, let r := fold_left (fun acc o => match is_load o with
         | Some x => match mo_volt x, mo_phases x with Some v, Some pls => if Qle_bool v LV then fold_left (add_phase_load X) pls acc else acc | _, _ => acc end
         | None => acc end) l acc in (fst r == fst acc + total (drawn LV X) l)%Q /\ (snd r == snd acc + (total (drawn LV "A") l + total (drawn LV "B") l + total (drawn LV "C") l))%Q).
    { induction l as [|o l IH]; intros acc; cbv zeta; cbn [fold_left total]; [split; ring|]. cbv zeta in IH. destruct (IH (match is_load o with
         | Some x => match mo_volt x, mo_phases x with Some v, Some pls => if Qle_bool v LV then fold_left (add_phase_load X) pls acc else acc | _, _ => acc end
         | None => acc end)) as [E1 E2]. rewrite E1, E2. clear E1 E2 IH. unfold is_load, drawn. destruct (mb_body o) as [|x| | | |]; try (split; ring). destruct (mo_volt x) as [v|]; [|split; ring]. destruct (mo_phases x) as [pls|]; [|split; ring].
      destruct (Qle_bool v LV); [|split; ring]. destruct (phase_load_fold X pls HX acc) as [E1 E2]. cbv zeta in *. rewrite E1, E2. split; ring. }
    destruct (G objs (0, 0)%Q) as [E1 E2]. cbv zeta in *. rewrite E1, E2. cbn [fst snd]. split; ring. }
  assert (U : forall X, In X ["A"; "B"; "C"] -> abc (Some X) = true) by (intros X HX; apply abc_spec; unfold an_abc; destruct HX as [<-|[<-|[<-|[]]]]; auto).
  set (t := (total (drawn LV "A") objs + total (drawn LV "B") objs + total (drawn LV "C") objs)%Q) in *. split.
  - intros Z X HX. unfold percentage_load_LV_kW_phX. rewrite (U X HX). specialize (F X HX). cbv zeta in F. destruct (fold_left _ objs (0, 0)%Q) as [d s]. cbn [fst snd] in F. destruct F as [_ F2].
    assert (C : Qeq_bool s 0 = true) by (apply Qeq_bool_iff; rewrite F2; exact Z). rewrite C. reflexivity.
  - intros NZ. assert (K : forall X, In X ["A"; "B"; "C"] -> exists p, percentage_load_LV_kW_phX LV X objs = Ok p /\ (p == total (drawn LV X) objs / t * 100)%Q).
    { intros X HX. unfold percentage_load_LV_kW_phX. rewrite (U X HX). specialize (F X HX). cbv zeta in F. destruct (fold_left _ objs (0, 0)%Q) as [d s]. cbn [fst snd] in F. destruct F as [F1 F2].
      destruct (Qeq_bool s 0) eqn:C; [apply Qeq_bool_iff in C; rewrite F2 in C; contradiction|]. eexists. split; [reflexivity|]. rewrite F1, F2. reflexivity. }
    destruct (K "A") as (pa & Ea & Va); [cbn; auto|]. destruct (K "B") as (pb & Eb & Vb); [cbn; auto|]. destruct (K "C") as (pc & Ec & Vc); [cbn; auto|]. exists pa, pb, pc. auto 8.
Qed.
