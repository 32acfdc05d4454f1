(** C47-C50: the metrics of a network. *)
From Verif Require Import Base BaseFacts StoreModel NetworkModel NetworkSpec NetworkQueries NetworkTop CenterTapModel CenterTapSpec CenterTapProofs
  MetricsModel MetricsSpec MetricsProofs MetricsLines MetricsLoads MetricsMore MetricsTop MetricsFuns MetricsMap.
From Coq Require Import QArith Qabs Lqa Lia.
Local Open Scope string_scope.
Local Open Scope nat_scope.
Local Open Scope list_scope.

(** ** An example *)
Definition xw (x : string) : wire := mkWire (Some x) false.
Definition xl (name from to : string) (fuse : bool) (ws : list wire) (v len : Q) (ty : string) : mobj :=
  mkMobj (Some (Some name)) None (Some from) (Line (mkMline (Some from) (Some to) fuse false false false false (Some ws) (Some v) (Some len) (Some ty))).
Definition xld (name conn : string) (v : Q) (pls : list pload) (kva : option Q) : mobj :=
  mkMobj (Some (Some name)) (Some conn) None (Load (mkMload (Some pls) (Some v) (Some 2%Q) kva)).
Definition xp (X : string) (p q : Q) : pload := mkPload (Some X) (Some p) (Some q) false.
Definition xobjs : list mobj :=
  [mkMobj (Some (Some "n")) None None Other;
   xl "l1" "n" "a" true [xw "A"; xw "B"; xw "C"] 7200 1000 "overhead";
   mkMobj (Some (Some "r")) None (Some "a") Regulator;
   mkMobj (Some (Some "c")) (Some "a") None Capacitor;
   mkMobj (Some (Some "t")) None (Some "a") (Transformer (mkMtrans (Some [mkWinding (Some 7200%Q) (Some 5000%Q) (Some 3); mkWinding (Some 240%Q) (Some 5000%Q) (Some 3)])));
   xl "l2" "b" "c" false [xw "A"; xw "B"; xw "N"] 240 100 "underground";
   xl "l3" "b" "d" true [xw "A"] 240 50 "overhead";
   xld "x" "c" 240 [xp "A" 1000 100; xp "B" 3000 300] None;
   xld "y" "d" 240 [xp "A" 0 0] (Some 500%Q)].
Definition xmap : dict string := [("n", "f"); ("l1", "f"); ("a", "f"); ("b", "g"); ("c", "g"); ("d", "g"); ("r", "f")].
Definition xfn (x : string) : option (option string) := Some (dget xmap x).
Definition xpb (x : option string) : option Q := if okey_eqb x (Some "t") then Some 6000%Q else None.
Definition xall := compute_all_metrics 1000 69000 true xfn xpb xobjs.

(** ** C47 *)

(** Objects that have what the code reads can be counted, altogether and by feeder. *)
Theorem C47_computes : forall LV MV bt fn pb objs, Forall countable objs ->
  (exists r, compute_all_metrics LV MV bt fn pb objs = Ok r) /\
  (forall m names, exists R, compute_all_metrics_per_feeder LV MV bt fn pb m names objs = Ok R).
Proof. intros LV MV bt fn pb objs H. split; [apply compute_total; exact H|]. intros m names. apply per_feeder_total. exact H. Qed.
Print Assumptions C47_computes.

(** The report gives the number of the objects of each kind. *)
Theorem C47_counts : forall LV MV bt fn pb objs r k P, compute_all_metrics LV MV bt fn pb objs = Ok r -> kind fn k P ->
  exists n, number P objs n /\ shows r k n.
Proof. exact counted. Qed.
Print Assumptions C47_counts.

(** So do the loads by voltage and number of phases, the overloaded transformers, the customers and the rated power. *)
Theorem C47_more_counts : forall LV MV bt fn pb objs r, compute_all_metrics LV MV bt fn pb objs = Ok r ->
  (exists n, number (a_load (low LV) 1) objs n /\ shows r "num_lv_1ph_loads" n) /\
  (exists n, number (a_load (low LV) 3) objs n /\ shows r "num_lv_3ph_loads" n) /\
  (exists n, number (a_load (medium LV MV) 3) objs n /\ shows r "num_mv_3ph_loads" n) /\
  (exists n, number (overloaded pb) objs n /\ shows r "num_overloaded_transformers" n) /\
  (exists q, sums serves objs q /\ shows r "num_customers" q) /\
  (exists q, sums (rated bt) objs q /\ shows r "sum_distribution_transformer_mva" q).
Proof.
  intros LV MV bt fn pb objs r E. destruct (computed _ _ _ _ _ _ _ E) as (ls & g & F & G & _).
  assert (S : forall k, In k counters -> fac k = 1%Q -> forall P, (forall o l, object_incs LV MV bt fn pb o = Ok l -> yes P o (amount k l)) -> exists n, sums P objs n /\ shows r k n).
  { intros k Hk Fk P H. destruct (G k Hk) as [Gk (q & Eq & Vq)]. exists (total (amount k) ls). split; [eapply sums_of; eauto|]. exists q. split; [exact Eq|]. rewrite Vq, Fk, Gk. ring. }
  split; [apply S; [apply smem_In; reflexivity|reflexivity|]; intros o l; apply load_number; auto|].
  split; [apply S; [apply smem_In; reflexivity|reflexivity|]; intros o l; apply load_number; auto|].
  split; [apply S; [apply smem_In; reflexivity|reflexivity|]; intros o l; apply load_number; auto|].
  split; [apply S; [apply smem_In; reflexivity|reflexivity|]; intros o l; apply overload_amount|].
  split; [apply S; [apply smem_In; reflexivity|reflexivity|]; intros o l; apply serves_amount|].
  apply S; [apply smem_In; reflexivity|reflexivity|]; intros o l; apply rated_amount.
Qed.
Print Assumptions C47_more_counts.

(** The report of a feeder is the report of the objects that belong to it. *)
Theorem C47_feeder : forall LV MV bt fn pb m names objs R f,
  compute_all_metrics_per_feeder LV MV bt fn pb m names objs = Ok R -> In f names ->
  exists objs' r, selects (fun o => belongs m o f) objs objs' /\ dget R f = Some r /\ compute_all_metrics LV MV bt fn pb objs' = Ok r.
Proof. exact per_feeder. Qed.
Print Assumptions C47_feeder.

(** If every object belongs to a feeder, the numbers of the feeders add up to the number of the network.  (No object
    belongs to two feeders.) *)
Theorem C47_feeders_add_up : forall LV MV bt fn pb m names objs G R k,
  compute_all_metrics LV MV bt fn pb objs = Ok G -> compute_all_metrics_per_feeder LV MV bt fn pb m names objs = Ok R -> NoDup names ->
  (forall o, In o objs -> mb_body o = Other \/ exists f, In f names /\ belongs m o f) -> In k counters ->
  exists q, shows G k q /\ sums (fun f x => exists r, dget R f = Some r /\ dget r k = Some (Num x)) names q.
Proof. exact add_up. Qed.
Print Assumptions C47_feeders_add_up.
Theorem C47_one_feeder : forall m o f g, belongs m o f -> belongs m o g -> f = g.
Proof. exact belongs_fun. Qed.
Print Assumptions C47_one_feeder.

(** The functions that count one kind. *)
Theorem C47_functions : forall objs,
  number a_regulator objs (inject_Z (Z.of_nat (number_of_regulators objs))) /\
  number a_capacitor objs (inject_Z (Z.of_nat (number_of_capacitors objs))) /\
  number a_fuse objs (inject_Z (Z.of_nat (number_of_fuses objs))) /\
  number a_recloser objs (inject_Z (Z.of_nat (number_of_reclosers objs))) /\
  number a_switch objs (inject_Z (Z.of_nat (number_of_switches objs))).
Proof.
  intros objs. split; [|split; [|split; [|split]]]; apply count_spec; intros o; try (apply line_flag).
  - unfold a_regulator. destruct (mb_body o); split; congruence.
  - unfold a_capacitor. destruct (mb_body o); split; congruence.
Qed.
Print Assumptions C47_functions.

(** They agree with the report. *)
Theorem C47_functions_agree : forall LV MV bt fn pb objs r, compute_all_metrics LV MV bt fn pb objs = Ok r ->
  shows r "num_regulators" (inject_Z (Z.of_nat (number_of_regulators objs))) /\
  shows r "num_capacitors" (inject_Z (Z.of_nat (number_of_capacitors objs))) /\
  shows r "num_fuses" (inject_Z (Z.of_nat (number_of_fuses objs))) /\
  shows r "num_reclosers" (inject_Z (Z.of_nat (number_of_reclosers objs))) /\
  shows r "num_switches" (inject_Z (Z.of_nat (number_of_switches objs))).
Proof.
  intros LV MV bt fn pb objs r E. destruct (C47_functions objs) as (F1 & F2 & F3 & F4 & F5).
  assert (H : forall k P c, kind fn k P -> number P objs c -> shows r k c).
  { intros k P c K N. destruct (counted _ _ _ _ _ _ _ k P E K) as (n & N' & q & Eq & Vq). exists q. split; [exact Eq|]. rewrite Vq. eapply number_fun; eauto. }
  split; [eapply H; [apply k_reg|exact F1]|]. split; [eapply H; [apply k_cap|exact F2]|]. split; [eapply H; [apply k_fuse|exact F3]|]. split; [eapply H; [apply k_rec|exact F4]|eapply H; [apply k_switch|exact F5]].
Qed.
Print Assumptions C47_functions_agree.

(** Of two models together they give the sums. *)
Theorem C47_functions_add_up : forall a b,
  number_of_regulators (a ++ b) = number_of_regulators a + number_of_regulators b /\
  number_of_capacitors (a ++ b) = number_of_capacitors a + number_of_capacitors b /\
  number_of_fuses (a ++ b) = number_of_fuses a + number_of_fuses b /\
  number_of_reclosers (a ++ b) = number_of_reclosers a + number_of_reclosers b /\
  number_of_switches (a ++ b) = number_of_switches a + number_of_switches b.
Proof. intros a b. repeat split; apply count_app. Qed.
Print Assumptions C47_functions_add_up.

(** The quotients of the report; without customers [ratio_lv_len_to_num_cust] is not set at all. *)
Theorem C47_ratios : forall LV MV bt fn pb objs r, compute_all_metrics LV MV bt fn pb objs = Ok r ->
  quotient r "ratio_1ph_to_3ph_transformers" "num_1ph_transformers" "num_3ph_transformers" (Some Inf) /\
  quotient r "num_sectionalizers_per_recloser" "num_sectionalizers" "num_reclosers" (Some NaN) /\
  quotient r "ratio_mv_len_to_num_cust" "mv_len_mi" "num_customers" (Some NaN) /\
  quotient r "ratio_lv_len_to_num_cust" "lv_len_mi" "num_customers" None.
Proof. exact ratios. Qed.
Print Assumptions C47_ratios.

(** [number_of_loads_LV_Xph]: loads of voltage at most [LV] with [X] phase loads, dropped ones included. *)
Theorem C47_loads_by_phases : forall LV objs X,
  (X = 1 \/ X = 3 -> exists n, number_of_loads_LV_Xph LV X objs = Ok n /\
     number (fun o => exists l pls, mb_body o = Load l /\ at_most LV (mo_volt l) /\ mo_phases l = Some pls /\ length pls = X) objs (inject_Z (Z.of_nat n))) /\
  (X <> 1 -> X <> 3 -> number_of_loads_LV_Xph LV X objs = Err EValue).
Proof.
  intros LV objs X. unfold number_of_loads_LV_Xph. split.
  - intros H. replace (Nat.eqb X 1 || Nat.eqb X 3) with true by (symmetry; apply orb_true_iff; rewrite !Nat.eqb_eq; exact H). eexists. split; [reflexivity|].
    apply count_spec. intros o. unfold is_load. destruct (mb_body o) as [|l| | | |] eqn:B; try (split; [discriminate|intros (l0 & pls & C & _); discriminate]).
    destruct (mo_volt l) as [v|] eqn:V, (mo_phases l) as [pls|] eqn:P.
    + rewrite andb_true_iff, Nat.eqb_eq, Qle_spec. split.
      * intros [L E]. exists l, pls. split; [reflexivity|]. split; [exists v; auto|]. auto.
      * intros (l0 & pls0 & E & (x & Vx & L) & P' & N). injection E as <-. rewrite V in Vx. injection Vx as <-. rewrite P in P'. injection P' as <-. auto.
    + split; [discriminate|]. intros (l0 & pls0 & E & _ & P' & _). injection E as <-. congruence.
    + split; [discriminate|]. intros (l0 & pls0 & E & (x & Vx & _) & _). injection E as <-. congruence.
    + split; [discriminate|]. intros (l0 & pls0 & E & (x & Vx & _) & _). injection E as <-. congruence.
  - intros N1 N3. apply Nat.eqb_neq in N1, N3. rewrite N1, N3. reflexivity.
Qed.
Print Assumptions C47_loads_by_phases.

Example C47_hypotheses_met : Forall countable xobjs /\
  (forall o, In o xobjs -> mb_body o = Other \/ exists f, In f ["f"; "g"] /\ belongs xmap o f) /\
  (exists r, xall = Ok r /\ dget r "num_fuses" = Some (Num 2%Q) /\ dget r "num_3ph_transformers" = Some (Num 1%Q) /\ dget r "num_links_adjacent_feeders" = Some (Num 0%Q) /\ dget r "num_overloaded_transformers" = Some (Num 1%Q)) /\
  exists R r r', compute_all_metrics_per_feeder 1000 69000 true xfn xpb xmap ["f"; "g"] xobjs = Ok R /\ dget R "f" = Some r /\ dget R "g" = Some r' /\
    dget r "num_fuses" = Some (Num 1%Q) /\ dget r' "num_fuses" = Some (Num 1%Q).
Proof.
  split; [|split; [|split]].
  - unfold xobjs. repeat (apply Forall_cons; [cbn; first [exact I|right; do 4 eexists; repeat split|split; eexists; reflexivity|do 4 eexists; split; reflexivity]|]). apply Forall_nil.
  - intros o Ho. unfold xobjs in Ho. cbn [In] in Ho.
    assert (H : forall o f x, mb_name o = Some x -> get_feeder xmap o x = Some f -> In f ["f"; "g"] -> mb_body o = Other \/ exists f, In f ["f"; "g"] /\ belongs xmap o f).
    { intros o' f x N G Hf. right. exists f. split; [exact Hf|]. apply (get_feeder_spec xmap o' x f N). exact G. }
    repeat (destruct Ho as [<-|Ho]; [eapply H; [reflexivity|vm_compute; reflexivity|cbn; auto]|]). destruct Ho.
  - eexists. split; [vm_compute; reflexivity|]. repeat split; vm_compute; reflexivity.
  - eexists. eexists. eexists. split; [vm_compute; reflexivity|]. repeat split; vm_compute; reflexivity.
Qed.

(** ** C48 *)

(** The report gives the total length, in miles, of the lines of each class. *)
Theorem C48_lengths : forall LV MV bt fn pb objs r k P, compute_all_metrics LV MV bt fn pb objs = Ok r -> measure LV MV k P ->
  exists x, sums (long P) objs x /\ shows r k (x * mile).
Proof. exact measured. Qed.
Print Assumptions C48_lengths.

(** The lengths by number of phases are parts of the length at the level, all of it if the lines have one to three
    phases; the overhead lengths are parts of these; and the overhead shares are percentages. *)
Theorem C48_partition : forall LV MV bt fn pb objs r, compute_all_metrics LV MV bt fn pb objs = Ok r ->
  exists v, (forall k, In k miles_keys -> shows r k (v k)) /\
  (v "lv_1ph_len_mi" + v "lv_2ph_len_mi" + v "lv_3ph_len_mi" <= v "lv_len_mi")%Q /\
  (v "mv_1ph_len_mi" + v "mv_2ph_len_mi" + v "mv_3ph_len_mi" <= v "mv_len_mi")%Q /\
  (0 <= v "lv_oh_1ph_len_mi" <= v "lv_1ph_len_mi")%Q /\ (0 <= v "lv_oh_2ph_len_mi" <= v "lv_2ph_len_mi")%Q /\ (0 <= v "lv_oh_3ph_len_mi" <= v "lv_3ph_len_mi")%Q /\
  (0 <= v "mv_oh_1ph_len_mi" <= v "mv_1ph_len_mi")%Q /\ (0 <= v "mv_oh_2ph_len_mi" <= v "mv_2ph_len_mi")%Q /\ (0 <= v "mv_oh_3ph_len_mi" <= v "mv_3ph_len_mi")%Q /\
  ((forall o ln, In o objs -> mb_body o = Line ln -> low LV (ml_volt ln) -> has_phases 1 ln \/ has_phases 2 ln \/ has_phases 3 ln) ->
    v "lv_1ph_len_mi" + v "lv_2ph_len_mi" + v "lv_3ph_len_mi" == v "lv_len_mi")%Q /\
  ((forall o ln, In o objs -> mb_body o = Line ln -> medium LV MV (ml_volt ln) -> has_phases 1 ln \/ has_phases 2 ln \/ has_phases 3 ln) ->
    v "mv_1ph_len_mi" + v "mv_2ph_len_mi" + v "mv_3ph_len_mi" == v "mv_len_mi")%Q /\
  (let t := (v "lv_len_mi" + v "mv_len_mi")%Q in
   ~ (t == 0)%Q -> exists a b, shows r "perct_lv_oh_len" a /\ shows r "perct_mv_oh_len" b /\ (0 <= a)%Q /\ (0 <= b)%Q /\ (a + b <= 100)%Q /\
     (a == (v "lv_oh_1ph_len_mi" + v "lv_oh_2ph_len_mi" + v "lv_oh_3ph_len_mi") / t * 100)%Q /\
     (b == (v "mv_oh_1ph_len_mi" + v "mv_oh_2ph_len_mi" + v "mv_oh_3ph_len_mi") / t * 100)%Q).
Proof. exact parts. Qed.
Print Assumptions C48_partition.

(** No line counts at both levels: together they have at most the length of all lines. *)
Lemma two_levels (P P' : mline -> Prop) objs : (forall l, P l -> ~ P' l) -> forall p p' t, sums (long P) objs p -> sums (long P') objs p' -> sums (long (fun _ => True)) objs t -> (p + p' <= t)%Q.
Proof.
  intros D. induction objs as [|o objs IH]; intros p p' t S S' St.
  - inversion S; inversion S'; inversion St; subst. lra.
  - inversion St as [|? z ? t0 ? (lz & Bz & _ & Xz & Pz) T0 Et|? ? ? Nt T0]; subst; inversion S as [|? x ? p0 ? (lx & Bx & Hx & Xx & Px) S0 Ep|? ? ? N S0]; subst;
      inversion S' as [|? y ? p1 ? (ly & By & Hy & Xy & Py) S1 Ep'|? ? ? N' S1]; subst.
    + assert (lx = lz) by congruence. assert (ly = lz) by congruence. subst. exfalso. eapply D; eauto.
    + assert (lx = lz) by congruence. subst. assert (x = z) by congruence. subst. assert (H := IH _ _ _ S0 S1 T0). lra.
    + assert (ly = lz) by congruence. subst. assert (y = z) by congruence. subst. assert (H := IH _ _ _ S0 S1 T0). lra.
    + assert (H := IH _ _ _ S0 S1 T0). lra.
    + exfalso. apply (Nt x). exists lx. auto.
    + exfalso. apply (Nt x). exists lx. auto.
    + exfalso. apply (Nt y). exists ly. auto.
    + exact (IH _ _ _ S0 S1 T0).
Qed.
Theorem C48_levels : forall LV MV bt fn pb objs r t, compute_all_metrics LV MV bt fn pb objs = Ok r -> sums (long (fun _ => True)) objs t ->
  exists a b, shows r "lv_len_mi" a /\ shows r "mv_len_mi" b /\ (a + b <= t * mile)%Q.
Proof.
  intros LV MV bt fn pb objs r t E St. destruct (measured _ _ _ _ _ _ _ _ _ E (m_lv LV MV)) as (a & Sa & Ha). destruct (measured _ _ _ _ _ _ _ _ _ E (m_mv LV MV)) as (b & Sb & Hb).
  exists (a * mile)%Q, (b * mile)%Q. split; [exact Ha|]. split; [exact Hb|].
  assert (L : (a + b <= t)%Q) by (eapply two_levels; [|exact Sa|exact Sb|exact St]; intros l; apply low_not_medium).
  assert (L' := Qmult_le_compat_r _ _ mile L (Qlt_le_weak _ _ mile_pos)). lra.
Qed.
Print Assumptions C48_levels.

(** The functions for one length: of the lines with a voltage at most [LV], or between [LV] and [MV]. *)
Theorem C48_functions : forall LV MV objs,
  (forall t, lv_length_miles LV objs = Ok t -> exists q, sums (long (fun l => at_most LV (ml_volt l))) objs q /\ (t == q * mile)%Q) /\
  (forall t, mv_length_miles LV MV objs = Ok t -> exists q, sums (long (fun l => amid LV MV (ml_volt l))) objs q /\ (t == q * mile)%Q) /\
  (forall X t, length_lvXph_miles LV X objs = Ok t -> 1 <= X <= 3 /\ exists q, sums (long (fun l => at_most LV (ml_volt l) /\ has_wires X l)) objs q /\ (t == q * mile)%Q) /\
  (forall X t, length_mvXph_miles LV MV X objs = Ok t -> 1 <= X <= 3 /\ exists q, sums (long (fun l => amid LV MV (ml_volt l) /\ has_wires X l)) objs q /\ (t == q * mile)%Q).
Proof.
  intros LV MV objs. split; [intros t; apply (length_miles_spec (is_lv LV) (at_most LV) (is_lv_spec LV))|]. split; [intros t; apply (length_miles_spec (is_mv LV MV) (amid LV MV) (is_mv_spec LV MV))|].
  split; intros X t; [apply (length_Xph_spec (is_lv LV) (at_most LV) (is_lv_spec LV))|apply (length_Xph_spec (is_mv LV MV) (amid LV MV) (is_mv_spec LV MV))].
Qed.
Print Assumptions C48_functions.
Theorem C48_functions_partition : forall LV MV objs t t1 t2 t3,
  (lv_length_miles LV objs = Ok t -> length_lvXph_miles LV 1 objs = Ok t1 -> length_lvXph_miles LV 2 objs = Ok t2 -> length_lvXph_miles LV 3 objs = Ok t3 ->
   (t1 + t2 + t3 <= t)%Q /\ ((forall o l, In o objs -> mb_body o = Line l -> at_most LV (ml_volt l) -> has_wires 1 l \/ has_wires 2 l \/ has_wires 3 l) -> (t1 + t2 + t3 == t)%Q)) /\
  (mv_length_miles LV MV objs = Ok t -> length_mvXph_miles LV MV 1 objs = Ok t1 -> length_mvXph_miles LV MV 2 objs = Ok t2 -> length_mvXph_miles LV MV 3 objs = Ok t3 ->
   (t1 + t2 + t3 <= t)%Q /\ ((forall o l, In o objs -> mb_body o = Line l -> amid LV MV (ml_volt l) -> has_wires 1 l \/ has_wires 2 l \/ has_wires 3 l) -> (t1 + t2 + t3 == t)%Q)).
Proof.
  intros LV MV objs t t1 t2 t3. split; [apply (Xph_parts (is_lv LV) (at_most LV) (is_lv_spec LV))|apply (Xph_parts (is_mv LV MV) (amid LV MV) (is_mv_spec LV MV))].
Qed.
Print Assumptions C48_functions_partition.
(** With voltages and lengths they succeed, and no line counts at both levels. *)
Theorem C48_functions_succeed : forall LV MV objs,
  (forall o l, In o objs -> mb_body o = Line l -> (exists v, ml_volt l = Some v) /\ exists x, ml_length l = Some x) ->
  exists a b t, lv_length_miles LV objs = Ok a /\ mv_length_miles LV MV objs = Ok b /\ sums (long (fun _ => True)) objs t /\ (a + b <= t * mile)%Q /\
  forall X, 1 <= X <= 3 -> (exists q, length_lvXph_miles LV X objs = Ok q) /\ exists q, length_mvXph_miles LV MV X objs = Ok q.
Proof.
  intros LV MV objs H. assert (T1 : forall x, exists b, is_lv LV (Some x) = Ok b) by (intros x; cbn; eauto). assert (T2 : forall x, exists b, is_mv LV MV (Some x) = Ok b) by (intros x; cbn; eauto).
  destruct (length_total (is_lv LV) T1 objs H) as [(a & Ea) X1]. destruct (length_total (is_mv LV MV) T2 objs H) as [(b & Eb) X2].
  destruct (C48_functions LV MV objs) as (F1 & F2 & _). destruct (F1 _ Ea) as (p & Sp & Vp). destruct (F2 _ Eb) as (q & Sq & Vq).
  set (w := fun o => match mb_body o with Line l => match ml_length l with Some x => if Qle_bool 0 x then x else 0 | None => 0 end | _ => 0 end%Q).
  assert (St : sums (long (fun _ => True)) objs (total w objs)).
  { apply sums_total. intros o Ho. unfold w. destruct (mb_body o) as [l| | | | |] eqn:B; try (right; split; [intros x (l & C & _); congruence|reflexivity]).
    destruct (ml_length l) as [x|] eqn:X; [|right; split; [intros x (l' & C & _ & C1 & _); assert (l' = l) by congruence; subst; congruence|reflexivity]]. destruct (Qle_bool 0 x) eqn:L.
    - left. exists x. split; [exists l; split; [exact B|]; split; [exact I|]; split; [exact X|apply Qle_spec; exact L]|reflexivity].
    - right. split; [|reflexivity]. intros y (l' & C & _ & C1 & C2). assert (l' = l) by congruence. subst. assert (y = x) by congruence. subst. apply Qle_spec in C2. congruence. }
  exists a, b, (total w objs). split; [exact Ea|]. split; [exact Eb|]. split; [exact St|]. split; [|intros X R; split; [exact (X1 X R)|exact (X2 X R)]].
  assert (L : (p + q <= total w objs)%Q).
  { eapply two_levels; [|exact Sp|exact Sq|exact St]. intros l (x & V & Hx) (y & V' & Hy & _). assert (y = x) by congruence. subst. lra. }
  assert (L' := Qmult_le_compat_r _ _ mile L (Qlt_le_weak _ _ mile_pos)). rewrite Vp, Vq. lra.
Qed.
Print Assumptions C48_functions_succeed.

Example C48_hypotheses_met : exists r, xall = Ok r /\ shows r "lv_len_mi" (150 * mile) /\ shows r "lv_1ph_len_mi" (50 * mile) /\ shows r "lv_2ph_len_mi" (100 * mile) /\ shows r "mv_oh_3ph_len_mi" (1000 * mile) /\
  (exists t, lv_length_miles 1000 xobjs = Ok t /\ (t == 150 * mile)%Q) /\
  forall o ln, In o xobjs -> mb_body o = Line ln -> has_phases 1 ln \/ has_phases 2 ln \/ has_phases 3 ln.
Proof.
  eexists. split; [vm_compute; reflexivity|]. split; [eexists; split; [vm_compute; reflexivity|reflexivity]|]. split; [eexists; split; [vm_compute; reflexivity|reflexivity]|].
  split; [eexists; split; [vm_compute; reflexivity|reflexivity]|]. split; [eexists; split; [vm_compute; reflexivity|reflexivity]|]. split; [eexists; split; [vm_compute; reflexivity|reflexivity]|].
  intros o ln Ho B. unfold xobjs in Ho. cbn [In] in Ho.
  assert (H : forall l ws, ml_wires l = Some ws -> 1 <= length (phases ws) <= 3 -> has_phases 1 l \/ has_phases 2 l \/ has_phases 3 l).
  { intros l ws W R. rewrite !(has_phases_spec l ws _ W). lia. }
  repeat (destruct Ho as [<-|Ho]; [first [discriminate B|injection B as <-; eapply H; [reflexivity|vm_compute; lia]]|]). destruct Ho.
Qed.

(** The report and the functions take different voltages for the same thresholds: a line of 800 V is at medium voltage
    in the report and at low voltage for [lv_length_miles]. *)
Theorem C48_voltage_base_refuted : exists objs r t, compute_all_metrics 1000 69000 true xfn xpb objs = Ok r /\ lv_length_miles 1000 objs = Ok t /\
  shows r "lv_len_mi" 0 /\ ~ (t == 0)%Q.
Proof.
  exists [xl "l" "a" "b" false [xw "A"] 800 100 "overhead"]. eexists. eexists. split; [vm_compute; reflexivity|]. split; [vm_compute; reflexivity|].
  split; [eexists; split; [vm_compute; reflexivity|reflexivity]|]. vm_compute. discriminate.
Qed.
Print Assumptions C48_voltage_base_refuted.
(** A line with four wires of phases A to C is in no class by number of phases. *)
Theorem C48_four_wires_refuted : exists objs r, compute_all_metrics 1000 69000 true xfn xpb objs = Ok r /\
  shows r "lv_len_mi" (100 * mile) /\ shows r "lv_1ph_len_mi" 0 /\ shows r "lv_2ph_len_mi" 0 /\ shows r "lv_3ph_len_mi" 0.
Proof.
  exists [xl "l" "a" "b" false [xw "A"; xw "A"; xw "B"; xw "C"] 240 100 "overhead"]. eexists. split; [vm_compute; reflexivity|].
  repeat split; (eexists; split; [vm_compute; reflexivity|reflexivity]).
Qed.
Print Assumptions C48_four_wires_refuted.

(** ** C49 *)

(** The report gives the demand and its parts by phase. *)
Theorem C49_demand : forall LV MV bt fn pb objs r, compute_all_metrics LV MV bt fn pb objs = Ok r ->
  exists kw kvar a b c, sums demands objs kw /\ shows r "sum_load_kw" (kw * milli) /\
    sums (takes_all pl_q any) objs kvar /\ shows r "sum_load_kvar" (kvar * milli) /\
    sums (demands_in "A") objs a /\ shows r "sum_load_pha_kw" (a * milli) /\
    sums (demands_in "B") objs b /\ shows r "sum_load_phb_kw" (b * milli) /\
    sums (demands_in "C") objs c /\ shows r "sum_load_phc_kw" (c * milli) /\
    (Forall phased_load objs -> (a + b + c == kw)%Q).
Proof.
  intros LV MV bt fn pb objs r E. destruct (loads _ _ _ _ _ _ _ E) as (kw & kvar & S1 & H1 & S2 & H2 & L).
  destruct (L "A" "a") as (a & Sa & Ha); [cbn; auto|]. destruct (L "B" "b") as (b & Sb & Hb); [cbn; auto|]. destruct (L "C" "c") as (c & Sc & Hc); [cbn; auto|].
  exists kw, kvar, a, b, c. split; [exact S1|]. split; [exact H1|]. split; [exact S2|]. split; [exact H2|]. split; [exact Sa|]. split; [exact Ha|]. split; [exact Sb|]. split; [exact Hb|]. split; [exact Sc|]. split; [exact Hc|].
  intros P. eapply phases_add; eauto.
Qed.
Print Assumptions C49_demand.

(** The shares of the phases at low voltage. *)
Theorem C49_shares : forall LV MV bt fn pb objs r, compute_all_metrics LV MV bt fn pb objs = Ok r ->
  exists a b c pa pb_ pc, sums (takes_low LV "A") objs a /\ sums (takes_low LV "B") objs b /\ sums (takes_low LV "C") objs c /\
    shows r "sum_lv_pha_load_kw" (a * milli) /\ shows r "sum_lv_phb_load_kw" (b * milli) /\ shows r "sum_lv_phc_load_kw" (c * milli) /\
    shows r "perct_lv_pha_load_kw" pa /\ shows r "perct_lv_phb_load_kw" pb_ /\ shows r "perct_lv_phc_load_kw" pc /\
    (~ (a + b + c == 0)%Q -> (pa == a / (a + b + c) * 100)%Q /\ (pb_ == b / (a + b + c) * 100)%Q /\ (pc == c / (a + b + c) * 100)%Q /\ (pa + pb_ + pc == 100)%Q) /\
    ((a + b + c == 0)%Q -> (pa == 0)%Q /\ (pb_ == 0)%Q /\ (pc == 0)%Q) /\
    (Forall consumes objs -> (0 <= pa <= 100)%Q /\ (0 <= pb_ <= 100)%Q /\ (0 <= pc <= 100)%Q).
Proof.
  intros LV MV bt fn pb objs r E. destruct (low_shares _ _ _ _ _ _ _ E) as (a & b & c & Sa & Sb & Sc & Ha & Hb & Hc & Pa & Pb & Pc).
  exists a, b, c, (share a (a + b + c)), (share b (a + b + c)), (share c (a + b + c)). do 9 (split; [assumption|]). split; [|split].
  - intros N. assert (S := share_sum a b c N). unfold share in *. destruct (Qeq_bool (a + b + c) 0) eqn:Z; [apply Qeq_bool_iff in Z; contradiction|]. split; [reflexivity|]. split; [reflexivity|]. split; [reflexivity|exact S].
  - intros Z. apply Qeq_bool_iff in Z. unfold share. rewrite Z. repeat split; reflexivity.
  - intros H. rewrite Forall_forall in H.
    assert (NN : forall X q, sums (takes_low LV X) objs q -> (0 <= q)%Q).
    { intros X q S. eapply sums_nonneg; [|exact S]. intros o x Ho [_ T]. eapply takes_nonneg; [apply H; exact Ho| |exact T]. auto. }
    assert (A := NN _ _ Sa). assert (B := NN _ _ Sb). assert (C := NN _ _ Sc).
    split; [apply share_bounds; assumption|]. split.
    + assert (R := share_bounds b a c B A C). unfold share in *. assert (Q0 : (b + a + c == a + b + c)%Q) by ring.
      destruct (Qeq_bool (b + a + c) 0) eqn:Z1, (Qeq_bool (a + b + c) 0) eqn:Z2; try (rewrite Q0 in R; exact R); try lra;
        [apply Qeq_bool_iff in Z1; rewrite Q0 in Z1; apply Qeq_bool_iff in Z1; congruence].
    + assert (R := share_bounds c a b C A B). unfold share in *. assert (Q0 : (c + a + b == a + b + c)%Q) by ring.
      destruct (Qeq_bool (c + a + b) 0) eqn:Z1, (Qeq_bool (a + b + c) 0) eqn:Z2; try (rewrite Q0 in R; exact R); try lra;
        [apply Qeq_bool_iff in Z1; rewrite Q0 in Z1; apply Qeq_bool_iff in Z1; congruence].
Qed.
Print Assumptions C49_shares.

(** The imbalance is between 0, for equal phases, and 4/3, for everything in one phase. *)
Theorem C49_imbalance : forall LV MV bt fn pb objs r kw, compute_all_metrics LV MV bt fn pb objs = Ok r ->
  Forall phased_load objs -> Forall consumes objs -> sums demands objs kw -> (0 < kw)%Q ->
  exists v, shows r "avg_load_imbalance_by_phase" v /\ (0 <= v <= 4 # 3)%Q.
Proof.
  intros LV MV bt fn pb objs r kw E P H S Pos. destruct (C49_demand _ _ _ _ _ _ _ E) as (kw' & kvar & a & b & c & S1 & (q & Eq & Vq) & _ & _ & Sa & (qa & Ea & Va) & Sb & (qb & Eb & Vb) & Sc & (qc & Ec & Vc) & Add).
  specialize (Add P). assert (Kw : (kw' == kw)%Q) by (eapply sums_fun; [|exact S1|exact S]; intros; eapply demands_fun; eauto). rewrite Kw in *. clear Kw kw' S1.
  rewrite Forall_forall in H. assert (NN : forall X x, sums (demands_in X) objs x -> (0 <= x)%Q) by (intros X x Sx; eapply sums_nonneg; [|exact Sx]; intros o y Ho D; eapply demands_in_nonneg; eauto).
  assert (A := NN _ _ Sa). assert (B := NN _ _ Sb). assert (C := NN _ _ Sc).
  destruct (computed _ _ _ _ _ _ _ E) as (ls & g & _ & G & _ & _ & Im & _).
  assert (Gk : forall k u, In k counters -> fac k = milli -> dget r k = Some (Num u) -> (u == g k * milli)%Q).
  { intros k u Hk Fk Eu. destruct (G k Hk) as [_ (q0 & E0 & V0)]. assert (q0 = u) by congruence. subst. rewrite V0, Fk. reflexivity. }
  assert (G1 := Gk "sum_load_kw" _ ltac:(apply smem_In; reflexivity) eq_refl Eq). assert (G2 := Gk "sum_load_pha_kw" _ ltac:(apply smem_In; reflexivity) eq_refl Ea).
  assert (G3 := Gk "sum_load_phb_kw" _ ltac:(apply smem_In; reflexivity) eq_refl Eb). assert (G4 := Gk "sum_load_phc_kw" _ ltac:(apply smem_In; reflexivity) eq_refl Ec).
  rewrite Vq in G1. rewrite Va in G2. rewrite Vb in G3. rewrite Vc in G4. unfold spread in Im.
  assert (M : (0 < milli)%Q) by reflexivity.
  destruct (Qeq_bool (g "sum_load_kw" * milli) 0) eqn:Z.
  - apply Qeq_bool_iff in Z. rewrite <- G1 in Z. unfold milli in Z. lra.
  - eexists. split; [eexists; split; [exact Im|reflexivity]|]. apply deviation; unfold milli in *; lra.
Qed.
Print Assumptions C49_imbalance.

(** [total_demand] and [total_reactive_power] are the sums over all phase loads. *)
Theorem C49_total : forall objs,
  (exists q, sums (powers pl_p) objs q /\ (total_demand objs == q * milli)%Q) /\
  (exists q, sums (powers pl_q) objs q /\ (total_reactive_power objs == q * milli)%Q).
Proof. intros objs. split; apply total_of_spec. Qed.
Print Assumptions C49_total.

(** They agree with the report if nothing is dropped and no idle load has transformer power. *)
Theorem C49_total_agrees : forall LV MV bt fn pb objs r, compute_all_metrics LV MV bt fn pb objs = Ok r -> Forall plain objs ->
  shows r "sum_load_kw" (total_demand objs) /\ shows r "sum_load_kvar" (total_reactive_power objs).
Proof.
  intros LV MV bt fn pb objs r E P. rewrite Forall_forall in P. destruct (loads _ _ _ _ _ _ _ E) as (kw & kvar & S1 & (q & Eq & Vq) & S2 & (q' & Eq' & Vq') & _).
  destruct (C49_total objs) as [(t & St & Vt) (u & Su & Vu)].
  split.
  - exists q. split; [exact Eq|]. rewrite Vq, Vt. apply Qmult_comp; [|reflexivity]. eapply (sums_rel demands (powers pl_p)); [| |exact S1|exact St].
    + intros o v w Ho. apply plain_yes. auto.
    + intros o Ho. destruct (computed _ _ _ _ _ _ _ E) as (ls & g & F & _).
      assert (Ex : exists l, object_incs LV MV bt fn pb o = Ok l) by (clear - F Ho; induction F as [|x y l l' Hxy F IH]; [destruct Ho|destruct Ho as [<-|Ho]; eauto]).
      destruct Ex as [l El]. destruct (load_yes _ _ _ _ _ _ _ El) as [[(x & D & _)|[N _]] _]; eauto.
  - exists q'. split; [exact Eq'|]. rewrite Vq', Vu. apply Qmult_comp; [|reflexivity]. eapply (sums_rel (takes_all pl_q any) (powers pl_q)); [| |exact S2|exact Su].
    + intros o v w Ho D Pw. assert (T : forall x, takes_all pl_q any o x <-> powers pl_q o x).
      { intros x. split; intros (l & pls & B & Ph & S); exists l, pls; (split; [exact B|]); (split; [exact Ph|]); destruct (P o Ho l pls B Ph) as [Nd _].
        - clear - S Nd. induction S as [z Z|a y r z z' (_ & _ & Py) S IH Z|a r z N S IH]; [constructor; exact Z|apply (sums_in _ a y r z); auto; apply IH; intros; apply Nd; right; assumption|].
          apply sums_out; [intros y C; apply (N y); split; [apply Nd; left; reflexivity|split; [exact I|exact C]]|apply IH; intros; apply Nd; right; assumption].
        - clear - S Nd. induction S as [z Z|a y r z z' Py S IH Z|a r z N S IH]; [constructor; exact Z|apply (sums_in _ a y r z); [split; [apply Nd; left; reflexivity|split; [exact I|exact Py]]|apply IH; intros; apply Nd; right; assumption|exact Z]|].
          apply sums_out; [intros y (_ & _ & C); exact (N y C)|apply IH; intros; apply Nd; right; assumption]. }
      destruct D as [(x & Dx & Vx)|[N Vx]], Pw as [(y & Py & Vy)|[N' Vy]].
      * rewrite Vx, Vy. apply T in Dx. eapply powers_fun; eauto.
      * exfalso. apply (N' x), T. exact Dx.
      * exfalso. apply (N y), T. exact Py.
      * lra.
    + intros o Ho. destruct (mb_body o) as [|l| | | |] eqn:B; try (right; intros x (l0 & pls & C & _); congruence). destruct (mo_phases l) as [pls|] eqn:Ph.
      * left. eexists. exists l, pls. split; [exact B|]. split; [exact Ph|]. apply (takes_total pl_q any (fun _ => true)). intros; unfold any; tauto.
      * right. intros x (l' & pls & C & C1 & _). assert (l' = l) by congruence. subst. congruence.
Qed.
Print Assumptions C49_total_agrees.

(** [percentage_load_LV_kW_phX]: the shares of the phases, which add up to 100. *)
Theorem C49_percentage : forall LV objs, exists a b c, sums (draws LV "A") objs a /\ sums (draws LV "B") objs b /\ sums (draws LV "C") objs c /\
  ((a + b + c == 0)%Q -> forall X, In X ["A"; "B"; "C"] -> percentage_load_LV_kW_phX LV X objs = Err EZeroDiv) /\
  (~ (a + b + c == 0)%Q -> exists pa pb pc, percentage_load_LV_kW_phX LV "A" objs = Ok pa /\ percentage_load_LV_kW_phX LV "B" objs = Ok pb /\ percentage_load_LV_kW_phX LV "C" objs = Ok pc /\
     (pa == a / (a + b + c) * 100)%Q /\ (pb == b / (a + b + c) * 100)%Q /\ (pc == c / (a + b + c) * 100)%Q /\ (pa + pb + pc == 100)%Q /\
     (Forall consumes objs -> (0 <= pa <= 100)%Q /\ (0 <= pb <= 100)%Q /\ (0 <= pc <= 100)%Q)).
Proof.
  intros LV objs. destruct (percentage_spec LV objs) as (a & b & c & Sa & Sb & Sc & Z & N). exists a, b, c. do 4 (split; [assumption|]). intros NZ.
  destruct (N NZ) as (pa & pb & pc & Ea & Eb & Ec & Va & Vb & Vc). exists pa, pb, pc. do 6 (split; [assumption|]). split; [rewrite Va, Vb, Vc; field; exact NZ|].
  intros H. rewrite Forall_forall in H. assert (NN : forall X q, sums (draws LV X) objs q -> (0 <= q)%Q).
  { intros X q S. eapply sums_nonneg; [|exact S]. intros o x Ho (l & pls & B & _ & Ph & Sx). destruct (H o Ho l B) as [_ C]. eapply sums_nonneg; [|exact Sx]. intros y p Hy [_ Py]. eapply C; eauto. }
  assert (A := NN _ _ Sa). assert (B := NN _ _ Sb). assert (C := NN _ _ Sc). rewrite Va, Vb, Vc. repeat split; apply ratio_bounds; lra.
Qed.
Print Assumptions C49_percentage.

Example C49_hypotheses_met : Forall phased_load xobjs /\ Forall consumes xobjs /\
  (exists r, xall = Ok r /\ shows r "perct_lv_pha_load_kw" 25 /\ shows r "perct_lv_phb_load_kw" 75 /\ shows r "sum_load_kw" (4500 * milli) /\ shows r "sum_load_pha_kw" (1500 * milli)) /\
  (total_demand xobjs == 4000 * milli)%Q /\ (exists p, percentage_load_LV_kW_phX 1000 "B" xobjs = Ok p /\ (p == 75)%Q) /\ Forall plain (firstn 8 xobjs).
Proof.
  split; [|split; [|split; [|split; [|split]]]].
  - unfold xobjs. repeat (apply Forall_cons; [intros l pls B Ph; first [discriminate B|injection B as <-; injection Ph as <-; split; [eexists; split; [left; reflexivity|reflexivity]|];
      intros x Hx _; cbn in Hx; unfold an_abc; repeat (destruct Hx as [<-|Hx]; [cbn; auto|]); destruct Hx]|]). apply Forall_nil.
  - unfold xobjs. repeat (apply Forall_cons; [intros l B; first [discriminate B|injection B as <-; split; [intros k K; cbn in K; first [discriminate|injection K as <-; lra]|];
      intros pls x p Ph Hx Hp; injection Ph as <-; cbn in Hx; repeat (destruct Hx as [<-|Hx]; [injection Hp as <-; lra|]); destruct Hx]|]). apply Forall_nil.
  - eexists. split; [vm_compute; reflexivity|]. repeat split; (eexists; split; [vm_compute; reflexivity|reflexivity]).
  - reflexivity.
  - eexists. split; [vm_compute; reflexivity|reflexivity].
  - unfold xobjs, firstn. repeat (apply Forall_cons; [intros l pls B Ph; first [discriminate B|injection B as <-; injection Ph as <-; split; [|reflexivity]; intros x Hx; cbn in Hx; repeat (destruct Hx as [<-|Hx]; [reflexivity|]); destruct Hx]|]). apply Forall_nil.
Qed.

(** A dropped phase load counts in [total_demand] but not in the report. *)
Theorem C49_dropped_refuted : exists objs r, compute_all_metrics 1000 69000 true xfn xpb objs = Ok r /\ ~ shows r "sum_load_kw" (total_demand objs).
Proof.
  exists [xld "x" "c" 240 [xp "A" 1000 100; mkPload (Some "B") (Some 500%Q) (Some 0%Q) true] None]. eexists. split; [vm_compute; reflexivity|].
  intros (q & E & V). vm_compute in E. injection E as <-. vm_compute in V. discriminate.
Qed.
Print Assumptions C49_dropped_refuted.

(** ** C50 *)

(** Each load is listed, in the order of the model, under the first transformer above it, and under no other; loads
    without one are not listed.  [fuel] bounds the walk upstream, which takes no more steps than there are nodes. *)
Theorem C50_mapping : forall es s n fuel, build es s = Ok n -> all_named es -> (forall e, In e es -> e_cls e = "Load" -> e_name e <> None) ->
  length (d_nodes (net_di n)) < fuel ->
  exists R, get_transformer_load_mapping es n fuel = Ok R /\ NoDup (map fst R) /\ (forall k ls, In (k, ls) R -> ls <> [] /\ exists t, k = Some t) /\
    forall t ls, ls <> [] -> (In (Some t, ls) R <-> picks (behind es (net_di n) t) es ls).
Proof. intros es s n fuel E AN Hn Hf. apply (mapping_spec es s n (build_built _ _ _ E) AN fuel Hf Hn). Qed.
Print Assumptions C50_mapping.
Theorem C50_one_transformer : forall es s n t t' e, build es s = Ok n -> behind es (net_di n) t e -> behind es (net_di n) t' e -> t = t'.
Proof. intros es s n t t' e E. apply (behind_fun es s n (build_built _ _ _ E)). Qed.
Print Assumptions C50_one_transformer.

Definition yes_ : list elem := xes ++ [xload "le" "d"; xload "lf" "a"; xload "lg" "b"].
Definition ynet : network := net_or_empty (build yes_ "s").
Example C50_hypotheses_met : build yes_ "s" = Ok ynet /\ all_named yes_ /\ (forall e, In e yes_ -> e_cls e = "Load" -> e_name e <> None) /\
  get_transformer_load_mapping yes_ ynet 10 = Ok [(Some "t1", [Some "ld"; Some "le"; Some "lg"])].
Proof.
  split; [vm_compute; reflexivity|]. split; [|split; [|vm_compute; reflexivity]].
  - intros i Hi _. unfold yes_, xes in Hi. cbn [In app] in Hi. repeat (destruct Hi as [<-|Hi]; [eexists; reflexivity|]). destruct Hi.
  - intros e Hi _. unfold yes_, xes in Hi. cbn [In app] in Hi. repeat (destruct Hi as [<-|Hi]; [discriminate|]). destruct Hi.
Qed.
