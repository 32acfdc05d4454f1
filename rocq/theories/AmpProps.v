(** C115: the ampacities of switching devices. *)
From Coq Require Import List String Bool Arith QArith Lia.
From Verif Require Import Base BaseFacts AmpModel AmpSpec.
Import ListNotations.
Local Open Scope nat_scope.
Local Open Scope list_scope.

Lemma sset_length st i o : length (sset st i o) = length st.
Proof. revert i. induction st; intros [|i]; cbn; auto. Qed.
Lemma sset_same st i o : i < length st -> nth_error (sset st i o) i = Some o.
Proof. revert i. induction st; intros [|i] H; cbn in *; try lia; auto. apply IHst. lia. Qed.
Lemma sset_other st i j o : j <> i -> nth_error (sset st i o) j = nth_error st j.
Proof. revert i j. induction st; intros [|i] [|j] H; cbn; auto; try congruence. Qed.

Lemma numbers_In x l : In x (numbers l) <-> In (Amp x) l.
Proof. induction l as [|[| |y] l IH]; cbn; try tauto; [| |]; intuition (try discriminate; try congruence). Qed.
Lemma max_of_spec l : forall x, (In (max_of x l) (x :: l)) /\ forall y, In y (x :: l) -> (y <= max_of x l)%Q.
Proof.
  unfold max_of. induction l as [|y l IH]; intros x; cbn [fold_left]; [split; [now left|intros y [->|[]]; apply Qle_refl]|].
  destruct (Qle_bool x y) eqn:E.
  - destruct (IH y) as [I L]. split; [right; exact I|]. intros z [->|Z]; [|now apply L]. apply Qle_trans with y; [now apply Qle_bool_iff|apply L; now left].
  - destruct (IH x) as [I L]. split; [destruct I as [I|I]; [now left|right; now right]|]. intros z [->|[->|Z]]; [apply L; now left| |apply L; now right].
    apply Qle_trans with x; [|apply L; now left]. apply Qlt_le_weak. apply Qnot_le_lt. intros H. apply Qle_bool_iff in H. congruence.
Qed.
Lemma set_all_spec o v l : s_wires o = Some (Some l) -> all_rated o (set_all o v) v.
Proof.
  intros E. unfold all_rated, set_all. cbn. rewrite E. split; [reflexivity|]. split; [reflexivity|]. split; [reflexivity|]. exists l, (map (fun _ => Amp v) l). split; [reflexivity|]. split; [reflexivity|]. split; [apply map_length|].
  intros a H. apply in_map_iff in H. destruct H as (b & <- & _). reflexivity.
Qed.

Section Proofs.
Variable neighbors : string -> option (list string).
Variable edges : list ((string * string) * option string).
Variable lookup : option string -> option nat.
Variable draws : nat -> nat.

Lemma edge_name_In u w n : edge_name edges u w = Some n -> In (u, w, n) edges.
Proof.
  induction edges as [|[[a b] m] l IH]; cbn; [discriminate|]. destruct (String.eqb a u && String.eqb b w) eqn:E; intros H; [|right; now apply IH].
  apply andb_true_iff in E. destruct E as [E1 E2]. apply String.eqb_eq in E1, E2. left. congruence.
Qed.
Lemma rating_In st u w v : rating lookup st (edge_name edges u w) = Some v -> exists n p q l, In (u, w, n) edges /\ lookup n = Some p /\ nth_error st p = Some q /\ s_wires q = Some (Some (Amp v :: l)).
Proof.
  unfold rating. destruct (edge_name edges u w) as [n|] eqn:E; [|discriminate]. apply edge_name_In in E. destruct (lookup n) as [p|] eqn:EP; [|discriminate]. destruct (nth_error st p) as [q|] eqn:EQ; [|discriminate].
  destruct (s_wires q) as [[[|[| |x] l]|]|] eqn:EW; try discriminate. intros H. injection H as <-. exists n, p, q, l. auto.
Qed.
Lemma filter_near f t x y l n i : near neighbors f t x -> neighbors x = Some l -> nth_error (filter (fun n => negb (String.eqb n y)) l) i = Some n -> near neighbors f t n.
Proof. intros N E H. apply nth_error_In in H. apply filter_In in H. eapply near_next; [exact N|exact E|apply H]. Qed.
Lemma search_spec f0 t0 st start fuel : forall from to idx k v idx' k', near neighbors f0 t0 from -> near neighbors f0 t0 to ->
  search neighbors edges lookup draws fuel st start from to idx k = Ok (v, idx', k') -> found_near neighbors edges lookup st f0 t0 v.
Proof.
  induction fuel as [|fuel IH]; intros from to idx k v idx' k' NF NT H; [discriminate|]. cbn [search] in H. destruct (neighbors from) as [nf|] eqn:EF; [|discriminate]. destruct (neighbors to) as [nt|] eqn:ET; [|discriminate].
  destruct (match filter (fun n => negb (String.eqb n to)) nf with [] => Ok (idx, k) | _ => _ end) as [[idx1 k1]|] eqn:EI; cbn [bind] in H; [|discriminate].
  destruct (match filter (fun n => negb (String.eqb n to)) nf with [] => Ok None | _ => _ end) as [found|] eqn:EFO in H; cbn [bind] in H; [|discriminate].
  destruct found as [x|].
  - injection H as <- <- <-. assert (exists i n, nth_error (filter (fun n => negb (String.eqb n to)) nf) i = Some n /\ rating lookup st (edge_name edges n from) = Some x) as (i & n & EN & ER).
    { destruct (filter (fun n => negb (String.eqb n to)) nf) as [|y r]; [discriminate|]. destruct idx1 as [i|]; cbn [of_opt bind] in EFO; [|discriminate]. destruct (nth_error (y :: r) i) as [n|] eqn:EN; cbn [of_opt bind] in EFO; [|discriminate].
      destruct (edge_name edges n start); [|discriminate]. injection EFO as EFO. exists i, n. split; assumption. }
    destruct (rating_In _ _ _ _ ER) as (nm & p & q & l & A & B & C & D). exists n, from, nm, p, q, l. split; [exact A|]. split; [|split; [exact NF|auto]]. eapply filter_near; [exact NF|exact EF|exact EN].
  - clear EFO. destruct (match filter (fun n => negb (String.eqb n from)) nt with [] => Ok None | _ => _ end) as [found|] eqn:EFO in H; cbn [bind] in H; [|discriminate]. destruct found as [x|].
    + injection H as <- <- <-. assert (exists i n, nth_error (filter (fun n => negb (String.eqb n from)) nt) i = Some n /\ rating lookup st (edge_name edges to n) = Some x) as (i & n & EN & ER).
      { destruct (filter (fun n => negb (String.eqb n from)) nt) as [|y r]; [discriminate|]. destruct idx1 as [i|]; cbn [of_opt bind] in EFO; [|discriminate]. destruct (nth_error (y :: r) i) as [n|] eqn:EN; cbn [of_opt bind] in EFO; [|discriminate].
        injection EFO as EFO. exists i, n. split; assumption. }
      destruct (rating_In _ _ _ _ ER) as (nm & p & q & l & A & B & C & D). exists to, n, nm, p, q, l. split; [exact A|]. split; [exact NT|]. split; [|auto]. eapply filter_near; [exact NT|exact ET|exact EN].
    + destruct idx1 as [i|]; cbn [of_opt bind] in H; [|discriminate]. destruct (nth_error (filter (fun n => negb (String.eqb n from)) nt) i) as [n|] eqn:EN; cbn [of_opt bind] in H; [|discriminate].
      eapply IH; [| |exact H]; eapply filter_near; try exact NT; try exact ET; exact EN.
Qed.

Lemma no_missing l : existsb is_missing l = false -> forall a, In a l -> a = NaN \/ rated a.
Proof. intros H a I. destruct a as [| |x]; [|now left|right; now exists x]. assert (existsb is_missing l = true) by (apply existsb_exists; exists Missing; auto). congruence. Qed.
Lemma one_device_spec fuel st idx k i o r : nth_error st i = Some o -> one_device neighbors edges lookup draws fuel (st, idx, k) i = Ok r ->
  exists o', becomes neighbors edges lookup st o o' /\ nth_error (fst (fst r)) i = Some o' /\ length (fst (fst r)) = length st /\ (forall j, j <> i -> nth_error (fst (fst r)) j = nth_error st j).
Proof.
  intros E H. assert (LT : i < length st) by (apply nth_error_Some; congruence). unfold one_device in H. rewrite E in H. destruct (s_device o) eqn:ED; [|injection H as <-; exists o; split; [now apply b_other|auto]].
  destruct (s_wires o) as [[l|]|] eqn:EW; try discriminate. destruct (existsb is_missing l) eqn:EM; [discriminate|]. pose proof (no_missing l EM) as NM. destruct (existsb is_nan l) eqn:EN.
  - apply existsb_exists in EN. destruct EN as (a & IA & A). destruct a; try discriminate. destruct (numbers l) as [|x r0] eqn:EX.
    + assert (AN : forall a, In a l -> a = NaN). { intros a I. destruct (NM a I) as [->|(y & ->)]; [reflexivity|]. apply numbers_In in I. rewrite EX in I. destruct I. }
      destruct (s_from o) as [f|] eqn:F; [destruct (s_to o) as [t|] eqn:T|].
      * destruct (search neighbors edges lookup draws fuel st f f t idx k) as [[[v idx'] k']|] eqn:S; cbn [bind] in H; [|discriminate]. injection H as <-. cbn [fst]. exists (set_all o v). split.
        { eapply b_none; try eassumption; [intros ->; destruct IA|eapply search_spec; [apply near_from|apply near_to|exact S]|eapply set_all_spec; exact EW]. }
        split; [now apply sset_same|]. split; [apply sset_length|]. intros j J. now apply sset_other.
      * injection H as <-. exists o. split; [eapply b_loose; [exact EW|exact AN|now right]|auto].
      * injection H as <-. exists o. split; [eapply b_loose; [exact EW|exact AN|now left]|auto].
    + injection H as <-. cbn [fst]. exists (set_all o (max_of x r0)). split.
      { eapply b_some; try eassumption; [|eapply set_all_spec; exact EW]. destruct (max_of_spec r0 x) as [I L]. split; [apply numbers_In; rewrite EX; exact I|]. intros y Y. apply L. rewrite <- EX. now apply numbers_In. }
      split; [now apply sset_same|]. split; [apply sset_length|]. intros j J. now apply sset_other.
  - injection H as <-. exists o. split; [|auto]. eapply b_rated; [exact EW|]. intros a I. destruct (NM a I) as [->|R]; [|exact R]. assert (existsb is_nan l = true) by (apply existsb_exists; exists NaN; auto). congruence.
Qed.
Lemma run_spec fuel n : forall i st idx k r, i + n = length st -> foldM (one_device neighbors edges lookup draws fuel) (seq i n) (st, idx, k) = Ok r -> run neighbors edges lookup i st (fst (fst r)).
Proof.
  induction n as [|n IH]; intros i st idx k r L H; cbn [seq foldM] in H; [injection H as <-; apply run_done; cbn; lia|].
  destruct (one_device neighbors edges lookup draws fuel (st, idx, k) i) as [[[st1 idx1] k1]|] eqn:E; [|discriminate]. destruct (nth_error st i) as [o|] eqn:EO; [|apply nth_error_None in EO; lia].
  destruct (one_device_spec _ _ _ _ _ _ _ EO E) as (o' & B & N & LE & O). cbn [fst] in N, LE, O. eapply run_step; try eassumption. eapply IH; [lia|exact H].
Qed.
End Proofs.

(** A rated device stays, one with some rating gets the largest, one without any gets that of an object that is near. *)
Theorem C115_ampacities : forall neighbors edges lookup draws fuel st st', set_switching_devices_ampacity neighbors edges lookup draws fuel st = Ok st' -> run neighbors edges lookup 0 st st'.
Proof.
  intros neighbors edges lookup draws fuel st st' H. unfold set_switching_devices_ampacity in H. destruct (foldM _ _ _) as [[[st1 idx] k]|] eqn:E; cbn [bind] in H; [|discriminate]. injection H as <-. exact (run_spec neighbors edges lookup draws fuel (length st) 0 st None 0 _ (eq_refl _) E).
Qed.
Print Assumptions C115_ampacities.

Lemma run_before nb ed lk i st st' : run nb ed lk i st st' -> length st' = length st /\ forall j, j < i -> nth_error st' j = nth_error st j.
Proof.
  induction 1 as [i st L|i st st1 st2 o o' E B E' L O R [IL IH]]; [now split|]. split; [congruence|]. intros j J. rewrite IH by lia. apply O. lia.
Qed.
Lemma becomes_rated nb ed lk st o o' l f t : becomes nb ed lk st o o' -> s_device o' = true -> s_wires o' = Some (Some l) -> s_from o' = Some f -> s_to o' = Some t -> forall a, In a l -> rated a.
Proof.
  intros B D W F T a I. destruct B as [N|l0 W0 R|l0 v o' _ _ _ _ A|l0 W0 AN N|l0 f0 t0 v o' _ _ _ _ _ _ _ A].
  - congruence.
  - assert (l0 = l) by congruence. subst. now apply R.
  - destruct A as (_ & _ & _ & l1 & l2 & _ & W2 & _ & A). assert (l2 = l) by congruence. subst. exists v. now apply A.
  - destruct N; congruence.
  - destruct A as (_ & _ & _ & l1 & l2 & _ & W2 & _ & A). assert (l2 = l) by congruence. subst. exists v. now apply A.
Qed.
(** Afterwards every device between two nodes is rated. *)
Theorem C115_all_rated : forall neighbors edges lookup draws fuel st st', set_switching_devices_ampacity neighbors edges lookup draws fuel st = Ok st' -> length st' = length st /\
  forall o l f t, In o st' -> s_device o = true -> s_wires o = Some (Some l) -> s_from o = Some f -> s_to o = Some t -> forall a, In a l -> rated a.
Proof.
  intros nb ed lk draws fuel st st' H. apply C115_ampacities in H. destruct (run_before _ _ _ _ _ _ H) as [L _]. split; [exact L|].
  assert (G : forall i s s', run nb ed lk i s s' -> forall j, i <= j -> forall o l f t, nth_error s' j = Some o -> s_device o = true -> s_wires o = Some (Some l) -> s_from o = Some f -> s_to o = Some t -> forall a, In a l -> rated a).
  { induction 1 as [i s LE|i s s1 s2 o o' E B E' LE O R IH]; intros j J p l f t N D W F T a I.
    - assert (nth_error s j = None) by (apply nth_error_None; lia). congruence.
    - destruct (Nat.eq_dec j i) as [->|NE].
      + destruct (run_before _ _ _ _ _ _ R) as [_ K]. rewrite K in N by lia. assert (p = o') by congruence. subst p. eapply becomes_rated; eassumption.
      + eapply (IH j); try eassumption. lia. }
  intros o l f t I D W F T a IA. apply In_nth_error in I. destruct I as (j & N). eapply (G 0 _ _ H j); try eassumption. lia.
Qed.
Print Assumptions C115_all_rated.

(** No rating is made up. *)
Theorem C115_ratings_exist : forall neighbors edges lookup draws fuel st st' o' l' x, set_switching_devices_ampacity neighbors edges lookup draws fuel st = Ok st' -> In o' st' -> s_wires o' = Some (Some l') -> In (Amp x) l' ->
  exists o l, In o st /\ s_wires o = Some (Some l) /\ In (Amp x) l.
Proof.
  intros nb ed lk draws fuel st st' o' l' x H I W A. apply C115_ampacities in H.
  assert (G : forall i s s', run nb ed lk i s s' -> forall p m y, In p s' -> s_wires p = Some (Some m) -> In (Amp y) m -> exists o l, In o s /\ s_wires o = Some (Some l) /\ In (Amp y) l).
  { induction 1 as [i s LE|i s s1 s2 o o1 E B E' LE O R IH]; intros p m y IP IW IA; [now exists p, m|]. destruct (IH p m y IP IW IA) as (q & n & Q & QW & QA). apply In_nth_error in Q. destruct Q as (j & Q). destruct (Nat.eq_dec j i) as [->|NE].
    - assert (q = o1) by congruence. subst q. pose proof (nth_error_In _ _ E) as IO. destruct B as [N|l0 W0 RR|l0 v o1 _ W0 _ [LI _] AR|l0 W0 AN N|l0 f0 t0 v o1 _ _ _ _ _ _ (u & w & nm & pp & qq & ll & _ & _ & _ & _ & QQ & WW) AR].
      + now exists o, n.
      + now exists o, n.
      + destruct AR as (_ & _ & _ & l1 & l2 & _ & W2 & _ & AR). assert (l2 = n) by congruence. subst. apply AR in QA. injection QA as ->. now exists o, l0.
      + now exists o, n.
      + destruct AR as (_ & _ & _ & l1 & l2 & _ & W2 & _ & AR). assert (l2 = n) by congruence. subst. apply AR in QA. injection QA as ->. exists qq, (Amp v :: ll). split; [eapply nth_error_In; exact QQ|]. split; [exact WW|now left].
    - exists q, n. split; [|auto]. rewrite O in Q by exact NE. eapply nth_error_In; exact Q. }
  eapply G; eassumption.
Qed.
Print Assumptions C115_ratings_exist.

(** ** What goes wrong *)
Lemma stuck nb ed lk draws fuel st i o : nth_error st i = Some o ->
  (forall s idx k, nth_error s i = Some o -> length s = length st -> (forall j, i <= j -> nth_error s j = nth_error st j) -> exists e, one_device nb ed lk draws fuel (s, idx, k) i = Err e) ->
  exists e, set_switching_devices_ampacity nb ed lk draws fuel st = Err e.
Proof.
  intros E H. unfold set_switching_devices_ampacity.
  assert (G : forall n a s idx k, a <= i < a + n -> length s = length st -> a + n = length s -> (forall j, a <= j -> nth_error s j = nth_error st j) -> exists e, foldM (one_device nb ed lk draws fuel) (seq a n) (s, idx, k) = Err e).
  { induction n as [|n IH]; intros a s idx k A L AN K; [lia|]. cbn [seq foldM]. destruct (Nat.eq_dec a i) as [->|NE].
    - destruct (H s idx k) as (e & ->); [rewrite K by lia; exact E|exact L|exact K|eauto].
    - destruct (one_device nb ed lk draws fuel (s, idx, k) a) as [[[s1 idx1] k1]|] eqn:O; [|eauto]. destruct (nth_error s a) as [p|] eqn:P; [|apply nth_error_None in P; lia].
      destruct (one_device_spec _ _ _ _ _ _ _ _ _ _ _ P O) as (o' & _ & _ & L1 & O1). cbn [fst] in L1, O1. apply IH; [lia|congruence|lia|]. intros j J. rewrite O1 by lia. apply K. lia. }
  assert (i < length st) by (apply nth_error_Some; congruence). destruct (G (length st) 0 st None 0) as (e & ->); [lia|reflexivity|reflexivity|reflexivity|]. cbn. eauto.
Qed.

(** One device with a wire without any ampacity stops it. *)
Theorem C115_missing_refuted : forall neighbors edges lookup draws fuel st o l, In o st -> s_device o = true -> s_wires o = Some (Some l) -> In Missing l ->
  exists e, set_switching_devices_ampacity neighbors edges lookup draws fuel st = Err e.
Proof.
  intros nb ed lk draws fuel st o l I D W M. apply In_nth_error in I. destruct I as (i & I). eapply stuck; [exact I|]. intros s idx k E _ _. unfold one_device. rewrite E, D, W. assert (existsb is_missing l = true) as -> by (apply existsb_exists; exists Missing; auto). eauto.
Qed.
Print Assumptions C115_missing_refuted.

Lemma filter_none x l : (forall y, In y l -> y = x) -> filter (fun n => negb (String.eqb n x)) l = [].
Proof. induction l as [|a l IH]; intros H; [reflexivity|]. cbn. rewrite (H a) by now left. rewrite String.eqb_refl. cbn. apply IH. intros y Y. apply H. now right. Qed.
Lemma filter_some x y l : In y l -> y <> x -> filter (fun n => negb (String.eqb n x)) l <> [].
Proof. intros I N H. assert (In y []) as []. rewrite <- H. apply filter_In. split; [exact I|]. apply negb_true_iff. now apply String.eqb_neq. Qed.
Lemma all_nan l : l <> [] -> (forall a, In a l -> a = NaN) -> existsb is_missing l = false /\ existsb is_nan l = true /\ numbers l = [].
Proof.
  intros N A. split; [|split].
  - destruct (existsb is_missing l) eqn:E; [|reflexivity]. apply existsb_exists in E. destruct E as (a & I & M). rewrite (A a I) in M. discriminate.
  - destruct l as [|a l]; [congruence|]. rewrite (A a) by now left. reflexivity.
  - destruct (numbers l) as [|x r] eqn:E; [reflexivity|]. assert (In (Amp x) l) by (apply numbers_In; rewrite E; now left). now apply A in H.
Qed.
(** One unrated device at the end of a feeder stops it, though there is a line on its other side. *)
Theorem C115_end_refuted : forall neighbors edges lookup draws fuel st o l f t nf nt n, In o st -> s_device o = true -> s_wires o = Some (Some l) -> l <> [] -> (forall a, In a l -> a = NaN) -> s_from o = Some f -> s_to o = Some t ->
  neighbors f = Some nf -> neighbors t = Some nt -> In n nf -> n <> t -> (forall y, In y nt -> y = f) -> exists e, set_switching_devices_ampacity neighbors edges lookup draws fuel st = Err e.
Proof.
  intros nb ed lk draws fuel st o l f t nf nt n I D W N A F T EF ET IN NE L. apply In_nth_error in I. destruct I as (i & I). eapply stuck; [exact I|]. intros s idx k E _ _. unfold one_device. rewrite E, D, W. destruct (all_nan l N A) as (-> & -> & ->). rewrite F, T. destruct fuel as [|fuel]; [cbn; eauto|]. cbn [search]. rewrite EF, ET, (filter_none f nt L).
  pose proof (filter_some t n nf IN NE) as K. destruct (filter (fun n0 => negb (String.eqb n0 t)) nf) as [|y r]; [congruence|]. cbn. eauto.
Qed.
Print Assumptions C115_end_refuted.

Lemma no_rating lk s ed u w : (forall o l x, In o s -> s_wires o = Some (Some l) -> ~ In (Amp x) l) -> rating lk s (edge_name ed u w) = None.
Proof.
  intros H. destruct (rating lk s (edge_name ed u w)) as [v|] eqn:E; [|reflexivity]. destruct (rating_In ed lk s u w v E) as (n & p & q & l & _ & _ & Q & WQ). exfalso. eapply (H q); [eapply nth_error_In; exact Q|exact WQ|now left].
Qed.
Lemma search_stuck nb ed lk draws s start fuel : (forall o l x, In o s -> s_wires o = Some (Some l) -> ~ In (Amp x) l) -> forall from to idx k, exists e, search nb ed lk draws fuel s start from to idx k = Err e.
Proof.
  intros H. induction fuel as [|fuel IH]; intros from to idx k; [cbn; eauto|]. cbn [search]. destruct (nb from) as [nf|]; [|eauto]. destruct (nb to) as [nt|]; [|eauto].
  destruct (match filter (fun n => negb (String.eqb n to)) nf with [] => Ok (idx, k) | _ => _ end) as [[idx1 k1]|e]; cbn [bind]; [|eauto].
  match goal with |- exists e, bind ?r _ = _ => assert (R1 : r = Ok None \/ exists e, r = Err e) end.
  { destruct (filter (fun n => negb (String.eqb n to)) nf) as [|y r]; [now left|]. destruct idx1 as [i|]; [|right; cbn; eauto]. cbn [of_opt bind]. destruct (nth_error (y :: r) i); [|right; cbn; eauto]. cbn [of_opt bind]. destruct (edge_name ed s0 start); [|now left]. rewrite no_rating by exact H. now left. }
  destruct R1 as [-> | (e & ->)]; cbn [bind]; [|eauto].
  match goal with |- exists e, bind ?r _ = _ => assert (R2 : r = Ok None \/ exists e, r = Err e) end.
  { destruct (filter (fun n => negb (String.eqb n from)) nt) as [|y r]; [now left|]. destruct idx1 as [i|]; [|right; cbn; eauto]. cbn [of_opt bind]. destruct (nth_error (y :: r) i); [|right; cbn; eauto]. cbn [of_opt bind]. rewrite no_rating by exact H. now left. }
  destruct R2 as [-> | (e & ->)]; cbn [bind]; [|eauto]. destruct idx1 as [i|]; [|cbn; eauto]. cbn [of_opt bind]. destruct (nth_error _ i); cbn [of_opt bind]; [apply IH|eauto].
Qed.
(** Without any rating it does not end, whatever is drawn: it stops with an error or goes on for ever. *)
Theorem C115_unrated_refuted : forall neighbors edges lookup draws fuel st o l f t, (forall p m x, In p st -> s_wires p = Some (Some m) -> ~ In (Amp x) m) ->
  In o st -> s_device o = true -> s_wires o = Some (Some l) -> l <> [] -> s_from o = Some f -> s_to o = Some t -> exists e, set_switching_devices_ampacity neighbors edges lookup draws fuel st = Err e.
Proof.
  intros nb ed lk draws fuel st o l f t NO I D W N F T. destruct (set_switching_devices_ampacity nb ed lk draws fuel st) as [st'|] eqn:E; [|eauto]. exfalso.
  assert (IE : forall p m x, In p st' -> s_wires p = Some (Some m) -> ~ In (Amp x) m). { intros p m x IP WP IX. destruct (C115_ratings_exist _ _ _ _ _ _ _ _ _ _ E IP WP IX) as (q & n & Q & WQ & QX). now apply (NO q n x). }
  assert (R : run nb ed lk 0 st st') by now apply C115_ampacities in E.
  assert (K : forall i s s', run nb ed lk i s s' -> forall j p, nth_error s j = Some p -> exists p', nth_error s' j = Some p' /\ s_device p' = s_device p /\ s_from p' = s_from p /\ s_to p' = s_to p /\ (forall m, s_wires p = Some (Some m) -> exists m', s_wires p' = Some (Some m') /\ length m' = length m)).
  { induction 1 as [i s LE|i s s1 s2 q q' EQ B E' LE O R' IH]; intros j p P; [exists p; repeat split; auto; intros m M; now exists m|]. destruct (Nat.eq_dec j i) as [->|NE].
    - assert (q = p) by congruence. subst q. destruct (IH i q' E') as (p' & P' & D' & F' & T' & W'). exists p'. assert (s_device q' = s_device p /\ s_from q' = s_from p /\ s_to q' = s_to p /\ (forall m, s_wires p = Some (Some m) -> exists m', s_wires q' = Some (Some m') /\ length m' = length m)) as (Q1 & Q2 & Q3 & Q4).
      { destruct B as [X|l0 W0 RR|l0 v q' _ W0 _ _ AR|l0 W0 AN X|l0 f0 t0 v q' _ _ _ _ _ _ _ AR]; first [destruct AR as (A1 & A2 & A3 & l1 & l2 & A4 & A5 & A6 & _); split; [exact A1|]; split; [exact A2|]; split; [exact A3|]; intros m M; exists l2; split; [exact A5|congruence]|split; [reflexivity|]; split; [reflexivity|]; split; [reflexivity|]; intros m M; now exists m]. }
      split; [exact P'|]. split; [congruence|]. split; [congruence|]. split; [congruence|]. intros m M. destruct (Q4 m M) as (m' & M' & LM). destruct (W' m' M') as (m2 & M2 & LM2). exists m2. split; [exact M2|congruence].
    - apply (IH j p). now rewrite O. }
  apply In_nth_error in I. destruct I as (i & I). destruct (K _ _ _ R i o I) as (o' & I' & D' & F' & T' & W'). destruct (W' l W) as (l' & WL & LL). destruct l' as [|a l']; [destruct l; [congruence|discriminate]|].
  destruct (proj2 (C115_all_rated _ _ _ _ _ _ _ E) o' (a :: l') f t (nth_error_In _ _ I') (eq_trans D' D) WL (eq_trans F' F) (eq_trans T' T) a (or_introl eq_refl)) as (x & ->).
  apply (IE o' (Amp x :: l') x (nth_error_In _ _ I') WL). now left.
Qed.
Print Assumptions C115_unrated_refuted.

(** ** The hypotheses can be met: a switch between two lines takes the rating of the one before, whatever is drawn. *)
Local Open Scope string_scope.
Definition nbs (s : string) : option (list string) := dget [("x", ["a"]); ("a", ["x"; "b"]); ("b", ["a"; "c"]); ("c", ["b"])] s.
Definition eds : list ((string * string) * option string) := [("x", "a", Some "l1"); ("a", "b", Some "sw"); ("b", "c", Some "l2")].
Definition lk0 (n : option string) : option nat := match n with Some s => dget [("l1", 0); ("sw", 1); ("l2", 2)] s | None => None end.
Definition objs : list sobj := [mkS false (Some "x") (Some "a") (Some (Some [Amp 50])); mkS true (Some "a") (Some "b") (Some (Some [NaN; NaN])); mkS true (Some "b") (Some "c") (Some (Some [Amp 10; NaN; Amp 30]))].
Example C115_hypotheses_met : forall draws, exists st', set_switching_devices_ampacity nbs eds lk0 draws 1 objs = Ok st' /\ map s_wires st' = [Some (Some [Amp 50]); Some (Some [Amp 50; Amp 50]); Some (Some [Amp 30; Amp 30; Amp 30])].
Proof. intros draws. eexists. split; reflexivity. Qed.
