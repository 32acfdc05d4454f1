From Coq Require Import List String Bool Arith QArith Lia Permutation.
From Verif Require Import Base BaseFacts CsvModel CsvProofs SectionModel SectionSpec.
Import ListNotations.
Local Open Scope string_scope.
Local Open Scope nat_scope.
Local Open Scope list_scope.

Lemma el_put_length l p e : length (el_put l p e) = length l.
Proof. revert p; induction l as [|x l IH]; intros [|p]; cbn; auto. Qed.
Lemma el_put_same l p e : p < length l -> el_at (el_put l p e) p = e.
Proof. unfold el_at. revert p; induction l as [|x l IH]; intros [|p] H; cbn in *; try lia; auto. apply IH. lia. Qed.
Lemma el_put_other l p q e : p <> q -> el_at (el_put l p e) q = el_at l q.
Proof. unfold el_at. revert p q; induction l as [|x l IH]; intros [|p] [|q] H; cbn in *; auto; try lia. Qed.

Definition mid (orig : string) (c : nat -> string) (k p : nat) : string :=
  (if String.eqb (c p) "Regulator" then orig ++ "_reg" else orig ++ "_sec_" ++ str_of k)%string.
Fixpoint mids (orig : string) (c : nat -> string) (k : nat) (cs : list nat) : list string :=
  match cs with
  | [] => []
  | p :: r => match r with [] => [] | _ => mid orig c k p :: mids orig c (S k) r end
  end.

Lemma app_inj_l (a b c : string) : (a ++ b = a ++ c)%string -> b = c.
Proof. induction a; cbn; [auto|]. intros H; injection H; auto. Qed.
Lemma app_nonempty (a : string) x s : (a ++ String x s)%string <> a.
Proof. induction a; cbn; [discriminate|]. intros H; injection H; auto. Qed.
Lemma mid_new orig c k p : mid orig c k p <> orig.
Proof. unfold mid. destruct (c p =? "Regulator")%string; apply app_nonempty. Qed.

Lemma chain_fold orig to ps c count : forall cs s from k,
  NoDup cs -> (forall p, In p cs -> p < length (sc_els s)) ->
  (forall p, In p cs -> el_from (el_at (sc_els s) p) = Some orig /\ el_to (el_at (sc_els s) p) = Some to) ->
  (forall p, In p cs -> cls (sc_els s) p = c p) ->
  count = k + length cs ->
  exists s' from' k', fold_left (chain_step orig ps count) cs (s, from, k) = (s', from', k') /\
    sc_nodes s' = sc_nodes s ++ map (fun m => (m, ps)) (mids orig c k cs) /\
    length (sc_els s') = length (sc_els s) /\
    (forall q, ~ In q cs -> el_at (sc_els s') q = el_at (sc_els s) q) /\
    forall i p, nth_error cs i = Some p ->
      el_at (sc_els s') p = mkElement (c p) (nth_error (from :: mids orig c k cs) i) (nth_error (mids orig c k cs ++ [to]) i)
                              (el_conn (el_at (sc_els s) p)).
Proof.
  induction cs as [|p cs IH]; intros s from k ND L EN CL CN.
  - exists s, from, k. cbn. rewrite app_nil_r. repeat split; auto. intros [|i] q H; discriminate.
  - apply NoDup_cons_iff in ND. destruct ND as [NI ND].
    destruct (EN p (or_introl eq_refl)) as [EF ET].
    pose proof (CL p (or_introl eq_refl)) as CP. unfold cls in CP.
    cbn [fold_left]. unfold chain_step at 2. cbv beta iota.
    set (e := el_at (sc_els s) p) in *.
    assert (E1 : (if (from =? orig)%string then e else mkElement (el_cls e) (Some from) (el_to e) (el_conn e)) =
                 mkElement (c p) (Some from) (Some to) (el_conn e)).
    { destruct (String.eqb_spec from orig) as [->|N].
      - rewrite <- CP, <- EF, <- ET. destruct e; reflexivity.
      - rewrite CP, ET. reflexivity. }
    cbv zeta. rewrite E1. cbn [el_from].
    set (from' := (if String.eqb (el_cls e) "Regulator" then (orig ++ "_reg")%string else (orig ++ "_sec_" ++ str_of k)%string)).
    assert (FM : from' = mid orig c k p) by (unfold from', mid; rewrite CP; reflexivity).
    destruct cs as [|p2 cs].
    + cbn [length] in CN. replace (Nat.eqb (S k) count) with true by (symmetry; apply Nat.eqb_eq; lia).
      cbn [fold_left]. eexists _, _, _. split; [reflexivity|]. cbn [sc_nodes sc_els mids map app].
      rewrite app_nil_r, el_put_length. repeat split; auto.
      * intros q N. apply el_put_other. intros ->. apply N. left; reflexivity.
      * intros [|[|i]] q H; try discriminate. cbn in H. injection H as <-. cbn. rewrite el_put_same by (apply L; left; reflexivity). reflexivity.
    + replace (Nat.eqb (S k) count) with false by (symmetry; apply Nat.eqb_neq; cbn [length] in CN; lia).
      set (s1 := mkSections _ _).
      assert (OT : forall q, q <> p -> el_at (sc_els s1) q = el_at (sc_els s) q).
      { intros q N. unfold s1. cbn [sc_els]. apply el_put_other. congruence. }
      destruct (IH s1 from' (S k)) as (s' & fr & k' & E & NO & LE & OU & IN).
      * exact ND.
      * intros q Hq. unfold s1. cbn [sc_els]. rewrite el_put_length. apply L. right; exact Hq.
      * intros q Hq. rewrite OT by (intros ->; contradiction). apply EN. right; exact Hq.
      * intros q Hq. unfold cls. rewrite OT by (intros ->; contradiction). apply CL. right; exact Hq.
      * cbn [length] in *. lia.
      * exists s', fr, k'. split; [exact E|].
        change (mids orig c k (p :: p2 :: cs)) with (mid orig c k p :: mids orig c (S k) (p2 :: cs)).
        rewrite <- FM. repeat split.
        -- rewrite NO. unfold s1. cbn [sc_nodes map]. rewrite <- app_assoc. reflexivity.
        -- rewrite LE. unfold s1. cbn [sc_els]. apply el_put_length.
        -- intros q N. rewrite OU by (intros H; apply N; right; exact H). apply OT. intros ->. apply N. left; reflexivity.
        -- intros [|i] q H.
           ++ cbn in H. injection H as <-. rewrite OU by exact NI. unfold s1. cbn [sc_els].
              rewrite el_put_same by (apply L; left; reflexivity). cbn. rewrite CP. reflexivity.
           ++ cbn [nth_error] in H. rewrite (IN i q H). rewrite OT; [reflexivity|].
              intros ->. apply NI. exact (nth_error_In _ _ H).
Qed.

Lemma hang_fold to : forall cs s, NoDup cs -> (forall p, In p cs -> p < length (sc_els s)) ->
  let s' := fold_left (hang_step to) cs s in
  sc_nodes s' = sc_nodes s /\ length (sc_els s') = length (sc_els s) /\
  (forall q, ~ In q cs -> el_at (sc_els s') q = el_at (sc_els s) q) /\
  (forall q, In q cs -> el_at (sc_els s') q =
     let e := el_at (sc_els s) q in mkElement (el_cls e) (el_from e) (el_to e) (Some to)).
Proof.
  induction cs as [|p cs IH]; intros s ND L; cbn [fold_left].
  - repeat split; auto. intros q [].
  - apply NoDup_cons_iff in ND. destruct ND as [NI ND].
    destruct (IH (hang_step to s p) ND) as (A & B & C & D).
    { intros q Hq. unfold hang_step. cbn [sc_els]. rewrite el_put_length. apply L. right; exact Hq. }
    cbv zeta. rewrite A, B. unfold hang_step at 1 2. cbn [sc_els sc_nodes]. rewrite el_put_length.
    repeat split; auto.
    + intros q N. rewrite C by (intros H; apply N; right; exact H). unfold hang_step. cbn [sc_els].
      apply el_put_other. intros ->. apply N. left; reflexivity.
    + intros q [<-|H].
      * rewrite C by exact NI. unfold hang_step. cbn [sc_els]. apply el_put_same. apply L. left; reflexivity.
      * rewrite D by exact H. unfold hang_step. cbn [sc_els]. rewrite el_put_other; [reflexivity|]. intros ->. contradiction.
Qed.

(** ** One section *)

Lemma is_connector_spec l p : is_connector l p = true <-> connects (cls l p).
Proof.
  unfold is_connector, of_class, connects, rank, cls.
  destruct (el_cls (el_at l p) =? "Regulator")%string; cbn; [intuition congruence|].
  destruct (el_cls (el_at l p) =? "PowerTransformer")%string; cbn; [intuition congruence|].
  destruct (el_cls (el_at l p) =? "Line")%string; cbn; intuition congruence.
Qed.

Lemma ends_none l sec : (forall p, In p sec -> ~ connects (cls l p)) -> ends l sec = (None, None).
Proof.
  intros H. unfold ends. generalize (@None string, @None string). revert H.
  induction sec as [|p sec IH]; intros H acc; cbn; [reflexivity|].
  replace (is_connector l p) with false; [apply IH; intros q Hq; apply H; right; exact Hq|].
  symmetry. apply not_true_is_false. rewrite is_connector_spec. apply H. left; reflexivity.
Qed.
Lemma ends_some l sec f t : shared_ends l sec f t -> ends l sec = (Some f, Some t).
Proof.
  intros [[p [Hp Cp]] H]. unfold ends.
  assert (G : forall sec acc, (forall p, In p sec -> connects (cls l p) -> el_from (el_at l p) = Some f /\ el_to (el_at l p) = Some t) ->
    (exists p, In p sec /\ connects (cls l p)) \/ acc = (Some f, Some t) ->
    fold_left (fun acc p => if is_connector l p then (el_from (el_at l p), el_to (el_at l p)) else acc) sec acc = (Some f, Some t)).
  { clear. induction sec as [|p sec IH]; intros acc H O; cbn.
    - destruct O as [[q [[] _]]|O]; exact O.
    - destruct (is_connector l p) eqn:E.
      + apply IH; [intros q Hq; apply H; right; exact Hq|]. right.
        destruct (H p (or_introl eq_refl) (proj1 (is_connector_spec l p) E)) as [-> ->]. reflexivity.
      + apply IH; [intros q Hq; apply H; right; exact Hq|].
        destruct O as [[q [[<-|Hq] C]]|O]; [|left; eauto|right; exact O].
        apply is_connector_spec in C. congruence. }
  apply G; [exact H|]. left. eauto.
Qed.

Definition conn_list l sec :=
  filter (of_class l "Regulator") sec ++ filter (of_class l "PowerTransformer") sec ++ filter (of_class l "Line") sec.
Definition hung_list l sec :=
  filter (of_class l "Load") sec ++ filter (of_class l "Storage") sec ++ filter (of_class l "Capacitor") sec.

Lemma of_class_spec l c p : of_class l c p = true <-> cls l p = c.
Proof. unfold of_class, cls. apply String.eqb_eq. Qed.
Lemma pick_In l c sec p : In p (filter (of_class l c) sec) <-> In p sec /\ cls l p = c.
Proof. rewrite filter_In, of_class_spec. reflexivity. Qed.

Lemma NoDup_app_i {A} (a b : list A) : NoDup a -> NoDup b -> (forall x, In x a -> ~ In x b) -> NoDup (a ++ b).
Proof.
  intros Ha Hb D. induction a as [|x a IH]; cbn; [exact Hb|]. apply NoDup_cons_iff in Ha. destruct Ha as [N Ha].
  constructor.
  - rewrite in_app_iff. intros [H|H]; [contradiction|]. exact (D x (or_introl eq_refl) H).
  - apply IH; [exact Ha|]. intros y Hy. apply D. right; exact Hy.
Qed.

Lemma pick3_NoDup l sec a b c : a <> b -> a <> c -> b <> c -> NoDup sec ->
  NoDup (filter (of_class l a) sec ++ filter (of_class l b) sec ++ filter (of_class l c) sec).
Proof.
  intros. apply NoDup_app_i; [apply NoDup_filter; assumption|apply NoDup_app_i; try (apply NoDup_filter; assumption)|].
  - intros x Hx Hy. apply pick_In in Hx, Hy. destruct Hx, Hy; congruence.
  - intros x Hx Hy. rewrite in_app_iff in Hy. rewrite !pick_In in Hy. apply pick_In in Hx. destruct Hx, Hy as [[]|[]]; congruence.
Qed.

Lemma connects_spec c : connects c <-> c = "Regulator" \/ c = "PowerTransformer" \/ c = "Line".
Proof.
  unfold connects, rank. destruct (String.eqb_spec c "Regulator") as [->|N1]; [split; [auto|discriminate]|].
  destruct (String.eqb_spec c "PowerTransformer") as [->|N2]; [split; [auto|discriminate]|].
  destruct (String.eqb_spec c "Line") as [->|N3]; [split; [auto|discriminate]|]. intuition congruence.
Qed.

Lemma conn_In l sec p : In p (conn_list l sec) <-> In p sec /\ connects (cls l p).
Proof. unfold conn_list. rewrite !in_app_iff, !pick_In, connects_spec. intuition congruence. Qed.
Lemma hung_In l sec p : In p (hung_list l sec) <-> In p sec /\ hung (cls l p).
Proof. unfold hung_list, hung. rewrite !in_app_iff, !pick_In. intuition congruence. Qed.

Lemma nth_app_sorted {A} (R : A -> A -> Prop) (a b : list A) :
  (forall i j x y, i < j -> nth_error a i = Some x -> nth_error a j = Some y -> R x y) ->
  (forall i j x y, i < j -> nth_error b i = Some x -> nth_error b j = Some y -> R x y) ->
  (forall x y, In x a -> In y b -> R x y) ->
  forall i j x y, i < j -> nth_error (a ++ b) i = Some x -> nth_error (a ++ b) j = Some y -> R x y.
Proof.
  intros HA HB HC i j x y L Hx Hy.
  destruct (Nat.lt_ge_cases j (length a)) as [Lj|Lj].
  - rewrite nth_error_app1 in Hx, Hy by lia. exact (HA i j x y L Hx Hy).
  - rewrite nth_error_app2 in Hy by lia. destruct (Nat.lt_ge_cases i (length a)) as [Li|Li].
    + rewrite nth_error_app1 in Hx by lia. apply HC; eapply nth_error_In; eauto.
    + rewrite nth_error_app2 in Hx by lia. apply (HB (i - length a) (j - length a)); auto; lia.
Qed.

Lemma conn_in_order l sec : NoDup sec -> in_order l sec (conn_list l sec).
Proof.
  intros ND. split; [|split].
  - apply pick3_NoDup; try discriminate. exact ND.
  - intros p. apply conn_In.
  - intros i j p q a b L Hp Hq Ra Rb.
    pose (R := fun p q => forall a b, rank (cls l p) = Some a -> rank (cls l q) = Some b -> a <= b).
    assert (S1 : forall c i j x y, i < j -> nth_error (filter (of_class l c) sec) i = Some x ->
                   nth_error (filter (of_class l c) sec) j = Some y -> R x y).
    { clear. intros c i j x y L Hx Hy a b Ra Rb. apply nth_error_In, pick_In in Hx, Hy.
      destruct Hx as [_ Hx], Hy as [_ Hy]. rewrite Hx in Ra. rewrite Hy in Rb. replace b with a by congruence. lia. }
    refine (nth_app_sorted R _ _ (S1 _) (nth_app_sorted R _ _ (S1 _) (S1 _) _) _ i j p q L Hp Hq a b Ra Rb).
    + intros x y Hx Hy c d Rc Rd. apply pick_In in Hx, Hy. destruct Hx as [_ Hx], Hy as [_ Hy].
      rewrite Hx in Rc. rewrite Hy in Rd. cbn in Rc, Rd. injection Rc as <-. injection Rd as <-. lia.
    + intros x y Hx Hy c d Rc Rd. apply pick_In in Hx. destruct Hx as [_ Hx]. rewrite Hx in Rc. cbn in Rc. injection Rc as <-. lia.
Qed.

Lemma mids_length orig c k cs : cs <> [] -> length cs = S (length (mids orig c k cs)).
Proof.
  revert k; induction cs as [|p cs IH]; intros k H; [congruence|]. destruct cs as [|q cs]; [reflexivity|].
  change (mids orig c k (p :: q :: cs)) with (mid orig c k p :: mids orig c (S k) (q :: cs)). cbn [length].
  f_equal. apply IH. discriminate.
Qed.

Section Fix.
Variable positions : string -> res (option (list point)).

(** The new nodes of a section. *)
Definition new_names l sec f := mids f (cls l) 0 (conn_list l sec).

Lemma fix_one s sec f t ps :
  NoDup sec -> (forall p, In p sec -> p < length (sc_els s)) -> shared_ends (sc_els s) sec f t -> positions f = Ok ps ->
  exists s', fix_section positions s sec = (s', None) /\
    sc_nodes s' = sc_nodes s ++ map (fun m => (m, ps)) (new_names (sc_els s) sec f) /\
    length (sc_els s') = length (sc_els s) /\
    (forall q, ~ In q sec -> el_at (sc_els s') q = el_at (sc_els s) q) /\
    in_series (sc_els s) (sc_els s') sec f t (new_names (sc_els s) sec f).
Proof.
  intros ND L SH PO. unfold fix_section. cbv zeta. rewrite (ends_some _ _ _ _ SH), PO.
  fold (conn_list (sc_els s) sec). fold (hung_list (sc_els s) sec).
  pose proof (conn_in_order (sc_els s) sec ND) as (ND1 & IN1 & SO1).
  destruct (chain_fold f t ps (cls (sc_els s)) (length (conn_list (sc_els s) sec)) (conn_list (sc_els s) sec) s f 0)
    as (s1 & fr & k1 & E & NO & LE & OU & IN); auto.
  { intros p Hp. apply L. apply IN1 in Hp. tauto. }
  { intros p Hp. apply IN1 in Hp. apply (proj2 SH); tauto. }
  rewrite E. eexists. split; [reflexivity|].
  assert (ND2 : NoDup (hung_list (sc_els s) sec)) by (apply pick3_NoDup; try discriminate; exact ND).
  destruct (hang_fold t (hung_list (sc_els s) sec) s1 ND2) as (A & B & C & D).
  { intros p Hp. rewrite LE. apply L. apply hung_In in Hp. tauto. }
  cbv zeta in A, B, C, D. rewrite A, B, NO, LE. split; [reflexivity|]. split; [reflexivity|].
  assert (DIS : forall p, connects (cls (sc_els s) p) -> hung (cls (sc_els s) p) -> False).
  { intros p H1 [H2|[H2|H2]]; rewrite H2 in H1; apply H1; reflexivity. }
  split; [|split; [|split]].
  - intros q N. rewrite C by (rewrite hung_In; tauto). apply OU. rewrite IN1. tauto.
  - exists (conn_list (sc_els s) sec). split; [exact (conj ND1 (conj IN1 SO1))|]. split.
    + apply mids_length. destruct SH as [[p Hp] _]. intros Z. apply IN1 in Hp. rewrite Z in Hp. exact Hp.
    + intros k p H. rewrite C; [apply IN; exact H|]. rewrite hung_In. apply nth_error_In in H. apply IN1 in H.
      intros [_ G]. exact (DIS p (proj2 H) G).
  - intros p Hp Hh. rewrite D by (apply hung_In; tauto). cbv zeta. rewrite OU; [reflexivity|].
    rewrite IN1. intros [_ G]. exact (DIS p G Hh).
  - intros p Hp Hc Hh. rewrite C by (rewrite hung_In; tauto). apply OU. rewrite IN1. tauto.
Qed.

Lemma fix_none s sec : (forall p, In p sec -> ~ connects (cls (sc_els s) p)) -> fix_section positions s sec = (s, None).
Proof. intros H. unfold fix_section. cbv zeta. rewrite (ends_none _ _ H). reflexivity. Qed.

Lemma connects_dec c : {connects c} + {~ connects c}.
Proof. unfold connects. destruct (rank c); [left; discriminate|right; auto]. Qed.
Lemma some_connects l sec : {exists p, In p sec /\ connects (cls l p)} + {forall p, In p sec -> ~ connects (cls l p)}.
Proof.
  induction sec as [|p sec IH]; [right; intros p []|].
  destruct (connects_dec (cls l p)) as [H|H]; [left; exists p; cbn; auto|].
  destruct IH as [G|G]; [left; destruct G as [q [A B]]; exists q; cbn; auto|]. right. intros q [<-|Hq]; auto.
Qed.

(** Agreement on a section is enough. *)
Lemma cls_ext l l' p : el_at l p = el_at l' p -> cls l p = cls l' p.
Proof. unfold cls. intros ->. reflexivity. Qed.
Lemma shared_ext l l' sec f t : (forall p, In p sec -> el_at l p = el_at l' p) -> shared_ends l sec f t -> shared_ends l' sec f t.
Proof.
  intros H [[p [A B]] C]. split.
  - exists p. split; [exact A|]. rewrite <- (cls_ext _ _ _ (H p A)). exact B.
  - intros q Hq Cq. rewrite <- (H q Hq). apply C; [exact Hq|]. rewrite (cls_ext _ _ _ (H q Hq)). exact Cq.
Qed.
Lemma in_order_ext l l' sec cs : (forall p, In p sec -> el_at l p = el_at l' p) -> in_order l sec cs -> in_order l' sec cs.
Proof.
  intros H (A & B & C). split; [exact A|]. split.
  - intros p. rewrite B. split; intros [P Q]; split; auto; [rewrite <- (cls_ext _ _ _ (H p P))|rewrite (cls_ext _ _ _ (H p P))]; exact Q.
  - intros i j p q a b L Hp Hq Ra Rb.
    assert (Ip : In p sec) by (apply (B p); eapply nth_error_In; eauto).
    assert (Iq : In q sec) by (apply (B q); eapply nth_error_In; eauto).
    rewrite <- (cls_ext _ _ _ (H p Ip)) in Ra. rewrite <- (cls_ext _ _ _ (H q Iq)) in Rb. eapply C; eauto.
Qed.
Lemma in_series_ext l l' m m' sec f t ms :
  (forall p, In p sec -> el_at l p = el_at l' p) -> (forall p, In p sec -> el_at m p = el_at m' p) ->
  in_series l m sec f t ms -> in_series l' m' sec f t ms.
Proof.
  intros H G ((cs & O & LN & A) & B & C). split; [|split].
  - exists cs. split; [exact (in_order_ext _ _ _ _ H O)|]. split; [exact LN|].
    intros k p Hk. assert (Ip : In p sec) by (apply (proj1 (proj2 O) p); eapply nth_error_In; eauto).
    rewrite <- (G p Ip), <- (cls_ext _ _ _ (H p Ip)), <- (H p Ip). apply A. exact Hk.
  - intros p Hp Hh. rewrite <- (G p Hp), <- (cls_ext _ _ _ (H p Hp)), <- (H p Hp). apply B; [exact Hp|].
    rewrite (cls_ext _ _ _ (H p Hp)). exact Hh.
  - intros p Hp. rewrite <- (cls_ext _ _ _ (H p Hp)), <- (G p Hp), <- (H p Hp). apply C. exact Hp.
Qed.
Lemma section_fixed_ext l l' m m' sec ns :
  (forall p, In p sec -> el_at l p = el_at l' p) -> (forall p, In p sec -> el_at m p = el_at m' p) ->
  section_fixed positions l m sec ns -> section_fixed positions l' m' sec ns.
Proof.
  intros H G [(L & f & t & ps & ms & A & B & C & D)|(A & B & C)].
  - left. split; [exact L|]. exists f, t, ps, ms. split; [exact (shared_ext _ _ _ _ _ H A)|]. split; [exact B|].
    split; [exact (in_series_ext _ _ _ _ _ _ _ _ H G C)|exact D].
  - right. split; [|split; [exact B|]].
    + destruct A as [A|A]; [left; exact A|right]. intros p Hp. rewrite <- (cls_ext _ _ _ (H p Hp)). apply A. exact Hp.
    + intros p Hp. rewrite <- (H p Hp), <- (G p Hp). apply C. exact Hp.
Qed.

(** What is asked of the sections with a connector. *)
Definition ready (l : list element) (sec : list nat) : Prop :=
  1 < length sec -> (exists p, In p sec /\ connects (cls l p)) ->
  exists f t ps, shared_ends l sec f t /\ positions f = Ok ps.

Lemma ready_ext l l' sec : (forall p, In p sec -> el_at l p = el_at l' p) -> ready l sec -> ready l' sec.
Proof.
  intros H R LN [p [A B]]. destruct (R LN) as (f & t & ps & C & D).
  - exists p. split; [exact A|]. rewrite (cls_ext _ _ _ (H p A)). exact B.
  - exists f, t, ps. split; [exact (shared_ext _ _ _ _ _ H C)|exact D].
Qed.

Lemma NoDup_app_e {A} (a b : list A) : NoDup (a ++ b) -> NoDup a /\ NoDup b /\ forall x, In x a -> ~ In x b.
Proof.
  induction a as [|x a IH]; cbn; intros H; [split; [constructor|split; [exact H|intros x []]]|].
  apply NoDup_cons_iff in H. destruct H as [N H]. destruct (IH H) as (P & Q & R). rewrite in_app_iff in N.
  split; [constructor; tauto|]. split; [exact Q|]. intros y [<-|Hy]; [tauto|auto].
Qed.

Lemma fix_all_spec : forall secs s, NoDup (concat secs) -> (forall p, In p (concat secs) -> p < length (sc_els s)) ->
  (forall sec, In sec secs -> ready (sc_els s) sec) ->
  exists s' nss, fix_section_overlaps positions s secs = (s', None) /\
    length (sc_els s') = length (sc_els s) /\
    (forall p, ~ In p (concat secs) -> el_at (sc_els s') p = el_at (sc_els s) p) /\
    sc_nodes s' = sc_nodes s ++ concat nss /\
    Forall2 (section_fixed positions (sc_els s) (sc_els s')) secs nss.
Proof.
  unfold fix_section_overlaps. induction secs as [|sec secs IH]; intros s ND L RD.
  - exists s, []. cbn. rewrite app_nil_r. repeat split; auto.
  - cbn [concat] in ND. apply NoDup_app_e in ND. destruct ND as (ND1 & ND2 & DJ).
    assert (L1 : forall p, In p sec -> p < length (sc_els s)) by (intros p Hp; apply L; cbn; rewrite in_app_iff; auto).
    cbn [filter].
    assert (STEP : exists s1 ns, (if 1 <? length sec then fix_section positions s sec else (s, None)) = (s1, None) /\
        length (sc_els s1) = length (sc_els s) /\ (forall q, ~ In q sec -> el_at (sc_els s1) q = el_at (sc_els s) q) /\
        sc_nodes s1 = sc_nodes s ++ ns /\ section_fixed positions (sc_els s) (sc_els s1) sec ns).
    { destruct (Nat.ltb_spec 1 (length sec)) as [LT|GE].
      - destruct (some_connects (sc_els s) sec) as [EX|NO].
        + destruct (RD sec (or_introl eq_refl) LT EX) as (f & t & ps & SH & PO).
          destruct (fix_one s sec f t ps ND1 L1 SH PO) as (s1 & E & A & B & C & D).
          exists s1, (map (fun m => (m, ps)) (new_names (sc_els s) sec f)). repeat split; auto.
          left. split; [exact LT|]. exists f, t, ps, (new_names (sc_els s) sec f). auto.
        + exists s, []. rewrite app_nil_r. split; [apply fix_none; exact NO|]. repeat split; auto. right. repeat split; auto.
      - exists s, []. rewrite app_nil_r. repeat split; auto. right. repeat split; auto. }
    destruct STEP as (s1 & ns & E1 & LE1 & OU1 & NO1 & SF1).
    destruct (IH s1 ND2) as (s' & nss & E & LE & OU & NO & SF).
    { intros p Hp. rewrite LE1. apply L. cbn. rewrite in_app_iff. auto. }
    { intros sec' Hs. apply (ready_ext (sc_els s)); [|apply RD; right; exact Hs].
      intros p Hp. symmetry. apply OU1. intros Hq. apply (DJ p Hq). apply in_concat. eauto. }
    exists s', (ns :: nss). split; [|split; [congruence|split; [|split]]].
    + destruct (1 <? length sec).
      * cbn [fix_all]. rewrite E1. exact E.
      * injection E1 as ->. exact E.
    + intros p N. cbn [concat] in N. rewrite in_app_iff in N. rewrite OU by tauto. apply OU1. tauto.
    + cbn [concat]. rewrite NO, NO1, app_assoc. reflexivity.
    + constructor.
      * apply (section_fixed_ext (sc_els s) (sc_els s) (sc_els s1) (sc_els s')); auto.
        intros p Hp. symmetry. apply OU. exact (DJ p Hp).
      * clear -SF OU1 DJ. revert DJ. induction SF as [|x y xs ys R SF IH]; intros DJ; constructor.
        -- apply (section_fixed_ext (sc_els s1) (sc_els s) (sc_els s') (sc_els s')); auto.
           intros p Hp. apply OU1. intros Hq. apply (DJ p Hq). cbn. rewrite in_app_iff. auto.
        -- apply IH. intros p Hp Hq. apply (DJ p Hp). cbn. rewrite in_app_iff. auto.
Qed.

(** ** Distinct intermediate nodes *)

Lemma sec_reg orig k : (orig ++ "_sec_" ++ str_of k <> orig ++ "_reg")%string.
Proof. intros H. apply app_inj_l in H. discriminate. Qed.
Lemma sec_inj orig i j : (orig ++ "_sec_" ++ str_of i = orig ++ "_sec_" ++ str_of j)%string -> i = j.
Proof. intros H. apply app_inj_l, app_inj_l in H. exact (str_inj _ _ H). Qed.

Lemma mids_In orig c : forall cs k m, In m (mids orig c k cs) -> exists j p, k <= j /\ In p cs /\ m = mid orig c j p /\
  nth_error cs (j - k) = Some p.
Proof.
  induction cs as [|p cs IH]; intros k m H; [destruct H|]. destruct cs as [|q cs]; [destruct H|].
  change (mids orig c k (p :: q :: cs)) with (mid orig c k p :: mids orig c (S k) (q :: cs)) in H. destruct H as [<-|H].
  - exists k, p. rewrite Nat.sub_diag. cbn. auto.
  - destruct (IH (S k) m H) as (j & r & L & I & E & N). exists j, r. split; [lia|]. split; [right; exact I|]. split; [exact E|].
    replace (j - k) with (S (j - S k)) by lia. exact N.
Qed.

Lemma mids_NoDup orig c : forall cs k,
  length (filter (fun p => String.eqb (c p) "Regulator") cs) <= 1 -> NoDup (mids orig c k cs).
Proof.
  induction cs as [|p cs IH]; intros k H; [constructor|]. destruct cs as [|q cs]; [constructor|].
  change (mids orig c k (p :: q :: cs)) with (mid orig c k p :: mids orig c (S k) (q :: cs)).
  set (P := fun p => String.eqb (c p) "Regulator") in *.
  change (filter P (p :: q :: cs)) with (if P p then p :: filter P (q :: cs) else filter P (q :: cs)) in H.
  constructor.
  - intros I. apply mids_In in I. destruct I as (j & r & L & I & E & _). unfold mid in E. fold (P p) in E. fold (P r) in E.
    destruct (P p).
    + destruct (P r) eqn:Er.
      * assert (Ir : In r (filter P (q :: cs))) by (apply filter_In; split; assumption).
        destruct (filter P (q :: cs)); [contradiction|]. cbn [length] in H. lia.
      * symmetry in E. exact (sec_reg _ _ E).
    + destruct (P r); [exact (sec_reg _ _ E)|]. apply sec_inj in E. lia.
  - apply IH. destruct (P p); cbn [length] in *; lia.
Qed.

Lemma regulators_conn l sec : length (filter (fun p => String.eqb (cls l p) "Regulator") (conn_list l sec)) = regulators l sec.
Proof.
  unfold conn_list, regulators. rewrite !filter_app, !app_length.
  assert (F : forall c, c <> "Regulator" -> filter (fun p => (cls l p =? "Regulator")%string) (filter (of_class l c) sec) = []).
  { intros c N. induction sec as [|p s IH]; [reflexivity|]. cbn. destruct (of_class l c p) eqn:E; [|exact IH]. cbn.
    apply of_class_spec in E. rewrite E. destruct (String.eqb_spec c "Regulator"); [contradiction|exact IH]. }
  rewrite (F "PowerTransformer"), (F "Line") by discriminate. cbn. rewrite Nat.add_0_r. clear F.
  induction sec as [|p s IH]; [reflexivity|]. cbn. unfold of_class at 1. fold (cls l p).
  destruct (cls l p =? "Regulator")%string eqn:E; cbn; [rewrite E; cbn; f_equal|]; exact IH.
Qed.

Lemma separate_nodes s sec f t :
  NoDup sec -> (forall p, In p sec -> p < length (sc_els s)) -> 1 < length sec -> shared_ends (sc_els s) sec f t ->
  regulators (sc_els s) sec <= 1 -> forall ps, positions f = Ok ps ->
  exists s' ms, fix_section_overlaps positions s [sec] = (s', None) /\ in_series (sc_els s) (sc_els s') sec f t ms /\
    NoDup (f :: ms).
Proof.
  intros ND L LT SH RG ps PO. destruct (fix_one s sec f t ps ND L SH PO) as (s' & E & A & B & C & D).
  exists s', (new_names (sc_els s) sec f). split; [|split; [exact D|]].
  - unfold fix_section_overlaps. cbn [filter]. replace (1 <? length sec) with true by (symmetry; apply Nat.ltb_lt; exact LT).
    cbn [fix_all]. rewrite E. reflexivity.
  - constructor.
    + intros I. apply mids_In in I. destruct I as (j & p & _ & _ & Z & _). symmetry in Z. exact (mid_new _ _ _ _ Z).
    + apply mids_NoDup. rewrite regulators_conn. exact RG.
Qed.

End Fix.
