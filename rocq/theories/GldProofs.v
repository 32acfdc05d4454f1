(** Lemmas about the conversion of GridLAB-D objects. *)
From Verif Require Import Base BaseFacts CsvModel TextModel GlmModel GldModel GldSpec.
From Coq Require Import QArith Qcanon.
Local Open Scope list_scope.
Local Open Scope string_scope.
Local Open Scope Qc_scope.

Lemma qz_true x : qz x = true <-> x = Q2Qc 0.
Proof. unfold qz. destruct (Qc_eq_dec x (Q2Qc 0)); split; congruence. Qed.
Lemma qz_false x : qz x = false <-> x <> Q2Qc 0.
Proof. unfold qz. destruct (Qc_eq_dec x (Q2Qc 0)); split; congruence. Qed.

(** squares of rational numbers *)
Lemma Qc_sqr_pos (x : Qc) : 0 <= x * x.
Proof.
  destruct (Qclt_le_dec x 0) as [H|H].
  - replace (x * x) with ((- x) * (- x)) by ring. apply Qclt_le_weak in H. apply Qcopp_le_compat in H. replace (- 0) with (0 : Qc) in H by ring.
    replace 0 with (0 * - x) by ring. now apply Qcmult_le_compat_r.
  - replace 0 with (0 * x) by ring. now apply Qcmult_le_compat_r.
Qed.
Lemma norm_pos (z : C) : fst z <> 0 -> fst z * fst z + snd z * snd z <> 0.
Proof.
  intros H E. pose proof (Qc_sqr_pos (fst z)) as A. pose proof (Qc_sqr_pos (snd z)) as B.
  assert (fst z * fst z <= 0). { rewrite <- E. replace (fst z * fst z) with (fst z * fst z + 0) at 1 by ring. apply Qcplus_le_compat; [apply Qcle_refl|assumption]. }
  assert (Q : fst z * fst z = 0) by (apply Qcle_antisym; assumption). apply Qcmult_integral in Q. tauto.
Qed.

Lemma rdivc_power v z s : fst z <> 0 -> impedance_power v z s -> rdivc (fst v * fst v + snd v * snd v) (cconj z) = s.
Proof.
  intros H (i & -> & ->). pose proof (norm_pos z H) as N. destruct z as [a b], i as [c d]. cbn [fst snd] in *.
  unfold rdivc, cconj, power, times, conj. cbn [fst snd].
  assert (N2 : a * a + - b * - b <> 0) by (intros E; apply N; rewrite <- E; ring).
  f_equal; field; (split || idtac); try exact N2; try exact N.
Qed.
Lemma impedance_exists v z : fst z <> 0 -> exists s, impedance_power v z s.
Proof.
  intros H. pose proof (norm_pos z H) as N. destruct z as [a b], v as [c d]. cbn [fst snd] in *. eexists. exists ((c * a + d * b) / (a * a + b * b), (d * a - c * b) / (a * a + b * b)).
  split; [|reflexivity]. unfold times. cbn [fst snd]. f_equal; field; exact N.
Qed.

(** text *)
Lemma letters_chars s : letters s = chars s.
Proof. induction s as [|c s IH]; [reflexivity|]. cbn. now rewrite IH. Qed.
Lemma chars_app a b : chars (a ++ b) = (chars a ++ chars b)%list.
Proof. induction a as [|c a IH]; [reflexivity|]. unfold chars in *. cbn. now rewrite IH. Qed.
Lemma drop_last_snoc s c : drop_last (s ++ String c "") = s.
Proof. induction s as [|d s IH]; [reflexivity|]. cbn. destruct s as [|e s]; [reflexivity|]. cbn in *. now rewrite IH. Qed.
Lemma lstrip_plain s t : plain s -> s <> "" -> lstrip_c """" (s ++ t) = s ++ t.
Proof. intros P N. destruct s as [|c s]; [now elim N|]. cbn [lstrip_c append]. destruct (Ascii.eqb_spec """" c) as [E|E]; [|reflexivity]. elim (P c); [now left|congruence]. Qed.
Lemma rstrip_plain s : plain s -> rstrip_c """" s = s /\ rstrip_c """" (s ++ """") = s.
Proof.
  induction s as [|c s IH]; intros P; [split; reflexivity|]. destruct IH as [I1 I2]; [intros d D; apply P; now right|].
  assert (E : Ascii.eqb """" c = false). { apply Ascii.eqb_neq. intros Q. elim (P c); [now left|congruence]. }
  cbn [rstrip_c append]. rewrite I1, I2. destruct s; rewrite ?E; split; reflexivity.
Qed.
Lemma strip_quoted q s : plain s -> quoted q s -> strip_c """" q = s.
Proof.
  intros P [->| ->]; unfold strip_c.
  - destruct (string_dec s "") as [->|N]; [reflexivity|]. replace s with (s ++ "") at 1 by (clear; induction s; cbn; congruence). rewrite lstrip_plain by assumption.
    replace (s ++ "") with s by (clear; induction s; cbn; congruence). now apply rstrip_plain.
  - change ("""" ++ s ++ """") with (String """" (s ++ """")). cbn [lstrip_c]. rewrite Ascii.eqb_refl. destruct (string_dec s "") as [->|N]; [reflexivity|].
    rewrite lstrip_plain by assumption. now apply rstrip_plain.
Qed.
Lemma split_on_app a b : (forall x y, a <> x ++ "*" ++ y) -> split_on "*" (a ++ "*" ++ b) = a :: split_on "*" b.
Proof.
  change ("*" ++ b) with (String "*" b). induction a as [|c a IH]; intros H; [reflexivity|]. cbn. destruct (Ascii.eqb_spec c "*") as [->|N]; [elim (H "" a); reflexivity|].
  rewrite IH; [reflexivity|]. intros x y E. apply (H (String c x) y). cbn. now rewrite E.
Qed.
Lemma split_on_single a : (forall x y, a <> x ++ "*" ++ y) -> split_on "*" a = [a].
Proof.
  induction a as [|c a IH]; intros H; [reflexivity|]. cbn. destruct (Ascii.eqb_spec c "*") as [->|N]; [elim (H "" a); reflexivity|].
  rewrite IH; [reflexivity|]. intros x y E. apply (H (String c x) y). cbn. now rewrite E.
Qed.
Lemma split_on_pair a b : (forall x y, a <> x ++ "*" ++ y) -> (forall x y, b <> x ++ "*" ++ y) -> split_on "*" (a ++ "*" ++ b) = [a; b].
Proof. intros A B. rewrite split_on_app, split_on_single by assumption. reflexivity. Qed.

Lemma mapM_Forall2 {A B} (f : A -> res B) (P : A -> B -> Prop) l : (forall x, In x l -> exists y, f x = Ok y /\ P x y) -> exists ys, mapM f l = Ok ys /\ Forall2 P l ys.
Proof.
  induction l as [|x l IH]; intros H; [exists []; split; [reflexivity|constructor]|]. destruct (H x) as (y & E & Y); [now left|].
  destruct IH as (ys & E2 & F); [intros z Z; apply H; now right|]. exists (y :: ys). cbn. rewrite E, E2. split; [reflexivity|now constructor].
Qed.

Section Facts.
Variable num : string -> res Qc.
Variable cnum : string -> res C.
Variable scheds : dict string.

Lemma getitem_lacks o k : lacks o k -> getitem o k = Err EAttr.
Proof. unfold lacks, getitem. now intros ->. Qed.
Lemma getitem_says o k v : says o k v -> getitem o k = Ok v.
Proof. unfold says, getitem. now intros ->. Qed.
Lemma attr_says o k v : says o k v -> attr o k = Some v.
Proof. intros H. exact H. Qed.
Lemma attr_text o k v : text o k v -> attr o k = v.
Proof. destruct v; intros H; exact H. Qed.
Lemma fl_reads o k x : reads num o k x -> fl num o k = Ok x.
Proof. intros (s & S & N). unfold fl. rewrite (getitem_says _ _ _ S). exact N. Qed.
Lemma fl_lacks o k : lacks o k -> fl num o k = Err EAttr.
Proof. intros H. unfold fl. now rewrite getitem_lacks. Qed.
Lemma numattr_number o k v : number num o k v -> numattr num o k = Ok v.
Proof. unfold numattr. destruct v as [x|]; cbn; intros H; [now rewrite (fl_reads _ _ _ H)|now rewrite fl_lacks]. Qed.
Lemma cx_creads o k z : creads cnum o k z -> cx cnum o k = Ok z.
Proof. intros (s & S & N). unfold cx. rewrite (getitem_says _ _ _ S). exact N. Qed.
Lemma cx_lacks o k : lacks o k -> cx cnum o k = Err EAttr.
Proof. intros H. unfold cx. now rewrite getitem_lacks. Qed.

Lemma const_power_unused o ph : unused cnum o ("constant_power_" ++ ph) -> const_power cnum o ph = Ok None.
Proof. intros [L|R]; unfold const_power; [now rewrite (cx_lacks _ _ L)|now rewrite (cx_creads _ _ _ R)]. Qed.
(** with a voltage that can be read, or none *)
Definition voltage_ok o ph := lacks o ("voltage_" ++ ph) \/ exists v, creads cnum o ("voltage_" ++ ph) v.
Lemma const_impedance_unused o ph : voltage_ok o ph -> unused cnum o ("constant_impedance_" ++ ph) -> const_impedance cnum o ph = Ok None.
Proof.
  intros V [L|R]; unfold const_impedance; [now rewrite (cx_lacks _ _ L)|rewrite (cx_creads _ _ _ R)]. cbn [bind].
  destruct V as [V|[v V]]; [now rewrite (cx_lacks _ _ V)|rewrite (cx_creads _ _ _ V)]. reflexivity.
Qed.
Lemma const_current_unused o ph : voltage_ok o ph -> unused cnum o ("constant_current_" ++ ph) -> const_current cnum o ph = Ok None.
Proof.
  intros V [L|R]; unfold const_current; [now rewrite (cx_lacks _ _ L)|rewrite (cx_creads _ _ _ R)]. cbn [bind].
  destruct V as [V|[v V]]; [now rewrite (cx_lacks _ _ V)|rewrite (cx_creads _ _ _ V)]. reflexivity.
Qed.
Lemma base_number o ph x : reads num o ("base_power_" ++ ph) x -> base_power num scheds o ph = Ok x.
Proof. intros (s & S & N). unfold base_power. rewrite (attr_says _ _ _ S), N. reflexivity. Qed.
Lemma base_lacks o ph : lacks o ("base_power_" ++ ph) -> base_power num scheds o ph = Ok (Q2Qc 0).
Proof. intros H. unfold base_power, attr. rewrite H. reflexivity. Qed.
Lemma base_scheduled o ph b n f v x y : says o ("base_power_" ++ ph) b -> num b = Err EValue -> (b = n ++ "*" ++ f \/ b = f ++ "*" ++ n) ->
    (forall a c, n <> a ++ "*" ++ c) -> (forall a c, f <> a ++ "*" ++ c) ->
    dget scheds n = Some v -> dget scheds f = None -> num v = Ok x -> num f = Ok y -> base_power num scheds o ph = Ok (x * y).
Proof.
  intros S E B N F DN DF X Y. unfold base_power. rewrite (attr_says _ _ _ S), E. destruct B as [-> | ->]; rewrite split_on_pair by assumption; cbn [nth_error of_opt bind].
  - rewrite DN, X. cbn [bind]. rewrite Y. cbn [bind]. rewrite DF. reflexivity.
  - rewrite DF. cbn [bind]. rewrite DN, X. cbn [bind]. rewrite Y. reflexivity.
Qed.
Lemma bindsA {A} (r : res A) : forall (B : Type) (k : A -> res B) e, r = Err e -> bind r k = Err e.
Proof. intros B k e ->. reflexivity. Qed.
Lemma zip_ok o ph p : zip_readable num o ph -> exists pl, zip num o ph p = Ok pl /\ pl_phase pl = ph /\ pl_p pl = p /\ pl_q pl = Q2Qc 0 /\ pl_model pl = None.
Proof.
  intros Z. unfold zip.
  assert (G : forall k, In k ["current_fraction_"; "current_pf_"; "power_fraction_"; "power_pf_"; "impedance_fraction_"; "impedance_pf_"] -> fl num o (k ++ ph) = Err EAttr \/ exists x, fl num o (k ++ ph) = Ok x).
  { intros k K. destruct (Z k K) as [[x|] H]; [right; exists x; now apply fl_reads|left; now apply fl_lacks]. }
  repeat match goal with |- context [fl num o (?k ++ ph)] => destruct (G k) as [E|[? E]]; [cbn; tauto|rewrite E; cbn [bind attempt]; eexists; split; [reflexivity|cbn; tauto]|rewrite E; cbn [bind]; clear E] end.
  cbn. eexists. split; [reflexivity|cbn; tauto].
Qed.
Lemma draws_phase o ph s m : voltage_ok o ph -> zip_readable num o ph -> draws num cnum scheds o ph s m ->
  exists pl, phase_load num cnum scheds o ph = Ok pl /\ pl_phase pl = ph /\ (pl_p pl, pl_q pl) = s /\ pl_model pl = m.
Proof.
  intros VO ZR D. unfold phase_load. destruct D as [s R N|v z s U R V N P|v i U1 U2 R V N|x U1 U2 U3 R|b n f v x y U1 U2 U3 S E B NN NF DN DF X Y|U1 U2 U3 L].
  - assert (Q : const_power cnum o ph = Ok (Some (simple ph s 1))). { unfold const_power. rewrite (cx_creads _ _ _ R). cbn [attempt bind]. apply qz_false in N. now rewrite N. }
    rewrite Q. cbn [bind]. eexists. split; [reflexivity|]. cbn. destruct s; tauto.
  - rewrite (const_power_unused _ _ U). cbn [bind].
    assert (Q : const_impedance cnum o ph = Ok (Some (simple ph s 2))).
    { unfold const_impedance. rewrite (cx_creads _ _ _ R). cbn [bind]. rewrite (cx_creads _ _ _ V). cbn [bind attempt]. apply qz_false in N. rewrite N. apply qz_false in N. now rewrite (rdivc_power v z s). }
    rewrite Q. cbn [bind]. eexists. split; [reflexivity|]. cbn. destruct s; tauto.
  - rewrite (const_power_unused _ _ U1), (const_impedance_unused _ _ VO U2). cbn [bind].
    assert (Q : const_current cnum o ph = Ok (Some (simple ph (power v i) 5))).
    { unfold const_current. rewrite (cx_creads _ _ _ R). cbn [bind]. rewrite (cx_creads _ _ _ V). cbn [bind attempt]. apply qz_false in N. rewrite N. reflexivity. }
    rewrite Q. cbn [bind]. eexists. split; [reflexivity|]. cbn. tauto.
  - rewrite (const_power_unused _ _ U1), (const_impedance_unused _ _ VO U2), (const_current_unused _ _ VO U3). cbn [bind]. rewrite (base_number _ _ _ R). cbn [bind].
    destruct (zip_ok o ph x ZR) as (pl & E & E1 & E2 & E3 & E4). exists pl. rewrite E2, E3. tauto.
  - rewrite (const_power_unused _ _ U1), (const_impedance_unused _ _ VO U2), (const_current_unused _ _ VO U3). cbn [bind]. rewrite (base_scheduled o ph b n f v x y) by assumption. cbn [bind].
    destruct (zip_ok o ph (x * y) ZR) as (pl & E0 & E1 & E2 & E3 & E4). exists pl. rewrite E2, E3. tauto.
  - rewrite (const_power_unused _ _ U1), (const_impedance_unused _ _ VO U2), (const_current_unused _ _ VO U3). cbn [bind]. rewrite (base_lacks _ _ L). cbn [bind].
    destruct (zip_ok o ph (Q2Qc 0) ZR) as (pl & E0 & E1 & E2 & E3 & E4). exists pl. rewrite E2, E3. tauto.
Qed.
End Facts.
