(** Lemmas about the length-unit conversions. *)
From Coq Require Import QArith Qabs Qfield Lqa.
From Verif Require Import Base BaseFacts UnitsModel UnitsSpec.
Local Open Scope string_scope.
Local Open Scope Q_scope.

(** ** Case-insensitive names *)

Lemma nat_of_ascii_inj (a b : ascii) : nat_of_ascii a = nat_of_ascii b -> a = b.
Proof.
  intros H. rewrite <- (ascii_nat_embedding a), <- (ascii_nat_embedding b), H. reflexivity.
Qed.

Lemma lower_ascii_code (a : ascii) :
  nat_of_ascii (lower_ascii a) =
  (if (65 <=? nat_of_ascii a)%nat && (nat_of_ascii a <=? 90)%nat
   then nat_of_ascii a + 32 else nat_of_ascii a)%nat.
Proof.
  unfold lower_ascii.
  destruct ((65 <=? nat_of_ascii a)%nat && (nat_of_ascii a <=? 90)%nat) eqn:E; [|reflexivity].
  apply andb_prop in E as [E1 E2]. apply Nat.leb_le in E1, E2.
  apply nat_ascii_embedding. lia.
Qed.

Definition not_upper (b : ascii) : Prop := ~ (65 <= nat_of_ascii b <= 90)%nat.

Lemma lower_ascii_ci (a b : ascii) :
  not_upper b -> (lower_ascii a = b <-> ci_char a b).
Proof.
  intros Hb. unfold not_upper in Hb.
  assert (Hc := lower_ascii_code a). unfold ci_char. split.
  - intros <-. rewrite Hc.
    destruct ((65 <=? nat_of_ascii a)%nat && (nat_of_ascii a <=? 90)%nat) eqn:E.
    + apply andb_prop in E as [E1 E2]. apply Nat.leb_le in E1, E2. right. left. lia.
    + left. apply nat_of_ascii_inj. rewrite Hc. reflexivity.
  - intros H. apply nat_of_ascii_inj. rewrite Hc.
    destruct ((65 <=? nat_of_ascii a)%nat && (nat_of_ascii a <=? 90)%nat) eqn:E.
    + apply andb_prop in E as [E1 E2]. apply Nat.leb_le in E1, E2.
      destruct H as [-> | [H | H]]; lia.
    + apply andb_false_iff in E. rewrite !Nat.leb_gt in E.
      destruct H as [-> | [H | H]]; [reflexivity| lia | lia].
Qed.

Fixpoint no_upper (t : string) : Prop :=
  match t with EmptyString => True | String c t' => not_upper c /\ no_upper t' end.

Lemma lower_ci (s t : string) : no_upper t -> (lower s = t <-> ci_string s t).
Proof.
  revert t; induction s as [|a s IH]; intros [|b t]; simpl; intros Ht.
  - tauto.
  - split; [discriminate | tauto].
  - split; [discriminate | tauto].
  - destruct Ht as [Hb Ht]. rewrite <- (lower_ascii_ci a b Hb), <- (IH t Ht). split.
    + intros H; injection H; auto.
    + intros [-> ->]; reflexivity.
Qed.

Lemma metre_table_no_upper u f : In (u, f) metre_table -> no_upper u.
Proof.
  unfold metre_table; simpl.
  intros H; repeat destruct H as [H|H]; try contradiction;
  injection H as <- _; unfold no_upper, not_upper; cbn; lia.
Qed.

Lemma unit_worth_lower s f : unit_worth s f <-> In (lower s, f) metre_table.
Proof.
  unfold unit_worth. split.
  - intros (u & Hin & Hci). apply (lower_ci s u (metre_table_no_upper _ _ Hin)) in Hci.
    subst u. exact Hin.
  - intros Hin. exists (lower s). split; [exact Hin|].
    apply (lower_ci s (lower s) (metre_table_no_upper _ _ Hin)). reflexivity.
Qed.

Ltac unit_cases s :=
  let E := fresh "E" in
  destruct (String.eqb (lower s) "mi") eqn:E; [apply String.eqb_eq in E |
  apply String.eqb_neq in E; let E2 := fresh "E" in
  destruct (String.eqb (lower s) "km") eqn:E2; [apply String.eqb_eq in E2 |
  apply String.eqb_neq in E2; let E3 := fresh "E" in
  destruct (String.eqb (lower s) "kft") eqn:E3; [apply String.eqb_eq in E3 |
  apply String.eqb_neq in E3; let E4 := fresh "E" in
  destruct (String.eqb (lower s) "m") eqn:E4; [apply String.eqb_eq in E4 |
  apply String.eqb_neq in E4; let E5 := fresh "E" in
  destruct (String.eqb (lower s) "ft") eqn:E5; [apply String.eqb_eq in E5 |
  apply String.eqb_neq in E5; let E6 := fresh "E" in
  destruct (String.eqb (lower s) "in") eqn:E6; [apply String.eqb_eq in E6 |
  apply String.eqb_neq in E6; let E7 := fresh "E" in
  destruct (String.eqb (lower s) "cm") eqn:E7; [apply String.eqb_eq in E7 |
  apply String.eqb_neq in E7]]]]]]].

Ltac unit_in H :=
  repeat destruct H as [H|H]; try contradiction; try (injection H as <- <-);
  try congruence.

(** Every spelling is worth one of the seven units. *)
Lemma unit_worth_inv s f :
  unit_worth s f ->
  (lower s = "mi" /\ f = 1609 + 34/100) \/ (lower s = "km" /\ f = 1000) \/
  (lower s = "kft" /\ f = 304 + 8/10) \/ (lower s = "m" /\ f = 1) \/
  (lower s = "ft" /\ f = 3048/10000) \/ (lower s = "in" /\ f = 254/10000) \/
  (lower s = "cm" /\ f = 1/100).
Proof.
  intros H. apply unit_worth_lower in H. unfold metre_table in H. simpl in H.
  repeat destruct H as [H|H]; try contradiction; inversion H; subst; tauto.
Qed.

Ltac each_unit H :=
  apply unit_worth_inv in H;
  destruct H as [[H ?]|[[H ?]|[[H ?]|[[H ?]|[[H ?]|[[H ?]|[H ?]]]]]]]; subst.

Lemma to_meters_value s f q k :
  unit_worth s f ->
  returns (convert_to_meters (Some q) (PStr s) k)
          (if inverse_flag k then q / f else q * f).
Proof.
  intros H; unfold returns, convert_to_meters.
  each_unit H; rewrite H; cbn; destruct (inverse_flag k); eexists; (split; [reflexivity|]); field.
Qed.

Lemma to_meters_none_iff q u k :
  convert_to_meters q u k = None <->
  q = None \/ u = PNone \/ u = POther \/ (exists s, u = PStr s /\ forall f, ~ unit_worth s f).
Proof.
  split.
  - destruct u as [|s|]; [tauto| |tauto].
    destruct q as [q|]; [|tauto]. intros H. right; right; right. exists s. split; [reflexivity|].
    intros f Hf. destruct (to_meters_value s f q k Hf) as (x & Hx & _). congruence.
  - intros [->|[->|[->|(s & -> & Hs)]]].
    + unfold convert_to_meters. destruct u; reflexivity.
    + reflexivity.
    + reflexivity.
    + unfold convert_to_meters. destruct q as [q|]; [|reflexivity].
      assert (Hs' : forall u f, In (u, f) metre_table -> lower s <> u).
      { intros u f Hin He. subst u. apply (Hs f). apply unit_worth_lower. exact Hin. }
      unfold metre_table in Hs'; simpl in Hs'.
      unit_cases s; try reflexivity; exfalso;
        match goal with H : lower s = _ |- _ => eapply Hs'; [|exact H]; eauto 10 end.
Qed.

Lemma from_meters_same q u k : w_convert_from_meters q u k = convert_from_meters q u k.
Proof. reflexivity. Qed.

Lemma from_meters_none_iff q u k :
  convert_from_meters q u k = None <-> convert_to_meters q u k = None.
Proof.
  unfold convert_from_meters, convert_to_meters.
  destruct u as [|s|]; [tauto| |tauto]. destruct q as [q|]; [|tauto].
  unit_cases s; destruct (inverse_flag k); split; congruence.
Qed.

(** The factor applied by a conversion to metres and back. *)
Lemma from_to_value s f q k :
  unit_worth s f ->
  exists c, returns (convert_from_meters (convert_to_meters (Some q) (PStr s) k) (PStr s) k) (c * q)
            /\ - (1#100000) <= c - 1 <= 1#100000
            /\ (In (lower s) ["km"; "m"; "cm"] -> c == 1)
            /\ (~ In (lower s) ["km"; "m"; "cm"] -> ~ c == 1).
Proof.
  intros H. unfold returns, convert_to_meters, convert_from_meters.
  each_unit H; rewrite H; cbn; destruct (inverse_flag k).
  - exists (1 / ((160934#100) * (621371 # 1000000000))).
    split; [eexists; split; [reflexivity|field]|].
    split; [split; vm_compute; discriminate|].
    split; [intros Hc; exfalso; repeat destruct Hc as [Hc|Hc]; try discriminate; contradiction|].
    intros _; vm_compute; discriminate.
  - exists ((160934#100) * (621371 # 1000000000)).
    split; [eexists; split; [reflexivity|ring]|].
    split; [split; vm_compute; discriminate|].
    split; [intros Hc; exfalso; repeat destruct Hc as [Hc|Hc]; try discriminate; contradiction|].
    intros _; vm_compute; discriminate.
  - exists 1. split; [eexists; split; [reflexivity|field]|].
    split; [split; vm_compute; discriminate|].
    split; [reflexivity|intros Hn; exfalso; apply Hn; simpl; tauto].
  - exists 1. split; [eexists; split; [reflexivity|ring]|].
    split; [split; vm_compute; discriminate|].
    split; [reflexivity|intros Hn; exfalso; apply Hn; simpl; tauto].
  - exists (1 / ((3048#10) * (328084 # 100000000))).
    split; [eexists; split; [reflexivity|field]|].
    split; [split; vm_compute; discriminate|].
    split; [intros Hc; exfalso; repeat destruct Hc as [Hc|Hc]; try discriminate; contradiction|].
    intros _; vm_compute; discriminate.
  - exists ((3048#10) * (328084 # 100000000)).
    split; [eexists; split; [reflexivity|ring]|].
    split; [split; vm_compute; discriminate|].
    split; [intros Hc; exfalso; repeat destruct Hc as [Hc|Hc]; try discriminate; contradiction|].
    intros _; vm_compute; discriminate.
  - exists 1. split; [eexists; split; [reflexivity|ring]|].
    split; [split; vm_compute; discriminate|].
    split; [reflexivity|intros Hn; exfalso; apply Hn; simpl; tauto].
  - exists 1. split; [eexists; split; [reflexivity|ring]|].
    split; [split; vm_compute; discriminate|].
    split; [reflexivity|intros Hn; exfalso; apply Hn; simpl; tauto].
  - exists (1 / ((3048#10000) * (328084 # 100000))).
    split; [eexists; split; [reflexivity|field]|].
    split; [split; vm_compute; discriminate|].
    split; [intros Hc; exfalso; repeat destruct Hc as [Hc|Hc]; try discriminate; contradiction|].
    intros _; vm_compute; discriminate.
  - exists ((3048#10000) * (328084 # 100000)).
    split; [eexists; split; [reflexivity|ring]|].
    split; [split; vm_compute; discriminate|].
    split; [intros Hc; exfalso; repeat destruct Hc as [Hc|Hc]; try discriminate; contradiction|].
    intros _; vm_compute; discriminate.
  - exists (1 / ((254#10000) * (393701 # 10000))).
    split; [eexists; split; [reflexivity|field]|].
    split; [split; vm_compute; discriminate|].
    split; [intros Hc; exfalso; repeat destruct Hc as [Hc|Hc]; try discriminate; contradiction|].
    intros _; vm_compute; discriminate.
  - exists ((254#10000) * (393701 # 10000)).
    split; [eexists; split; [reflexivity|ring]|].
    split; [split; vm_compute; discriminate|].
    split; [intros Hc; exfalso; repeat destruct Hc as [Hc|Hc]; try discriminate; contradiction|].
    intros _; vm_compute; discriminate.
  - exists 1. split; [eexists; split; [reflexivity|field]|].
    split; [split; vm_compute; discriminate|].
    split; [reflexivity|intros Hn; exfalso; apply Hn; simpl; tauto].
  - exists 1. split; [eexists; split; [reflexivity|ring]|].
    split; [split; vm_compute; discriminate|].
    split; [reflexivity|intros Hn; exfalso; apply Hn; simpl; tauto].
Qed.

Lemma rel_close_factor c e q r :
  - e <= c - 1 <= e -> r == c * q -> rel_close e q r.
Proof.
  intros Hc Hr. unfold rel_close. rewrite Hr.
  setoid_replace (c * q - q) with ((c - 1) * q) by ring.
  rewrite Qabs_Qmult. apply Qmult_le_compat_r; [|apply Qabs_nonneg].
  apply Qabs_Qle_condition. lra.
Qed.

Lemma round_trip_close s f q k :
  unit_worth s f ->
  exists r, convert_from_meters (convert_to_meters (Some q) (PStr s) k) (PStr s) k = Some r
            /\ rel_close (1 # 100000) q r.
Proof.
  intros H. destruct (from_to_value s f q k H) as (c & (x & Hx & Hxc) & Hb & _ & _).
  exists x. split; [exact Hx|]. eapply rel_close_factor; eauto.
Qed.

Lemma round_trip_exact_iff s f q k :
  unit_worth s f -> ~ q == 0 ->
  (returns (convert_from_meters (convert_to_meters (Some q) (PStr s) k) (PStr s) k) q
   <-> In (lower s) ["km"; "m"; "cm"]).
Proof.
  intros H Hq. destruct (from_to_value s f q k H) as (c & (x & Hx & Hxc) & _ & H1 & H2).
  split.
  - intros (y & Hy & Hyq). assert (x = y) by congruence. subst y.
    destruct (in_dec string_dec (lower s) ["km"; "m"; "cm"]) as [Hin|Hn]; [exact Hin|].
    exfalso. apply (H2 Hn). rewrite Hyq in Hxc.
    apply (Qmult_inj_r c 1 q Hq). rewrite Qmult_1_l. symmetry. exact Hxc.
  - intros Hin. exists x. split; [exact Hx|]. rewrite Hxc, (H1 Hin). ring.
Qed.

(** ** unit_conversion *)

Lemma supported_iff u :
  unit_supported u = true <-> exists s f, u = PStr s /\ In (s, f) metre_table.
Proof.
  unfold unit_supported, smem, supported_units. split.
  - destruct u as [|s|]; try discriminate. intros H.
    apply existsb_exists in H as (x & Hin & Hx). apply String.eqb_eq in Hx. subst x.
    simpl in Hin. unfold metre_table; simpl.
    repeat destruct Hin as [<-|Hin]; try contradiction; eexists; eexists; (split; [reflexivity|]); eauto 10.
  - intros (s & f & -> & Hin). unfold metre_table in Hin; simpl in Hin.
    repeat destruct Hin as [Hin|Hin]; try contradiction; inversion Hin; reflexivity.
Qed.

Lemma unit_conversion_none_iff q a b :
  unit_conversion q a b = None <->
  q = None \/ (forall s f, a = PStr s -> ~ In (s, f) metre_table)
           \/ (forall s f, b = PStr s -> ~ In (s, f) metre_table).
Proof.
  unfold unit_conversion.
  destruct (unit_supported a) eqn:Ea; simpl.
  2:{ split; [|reflexivity]. intros _. right; left. intros s f -> Hin.
      assert (unit_supported (PStr s) = true) by (exact (proj2 (supported_iff _) (ex_intro _ s (ex_intro _ f (conj eq_refl Hin))))). congruence. }
  destruct (unit_supported b) eqn:Eb; simpl.
  2:{ split; [|reflexivity]. intros _. right; right. intros s f -> Hin.
      assert (unit_supported (PStr s) = true) by (exact (proj2 (supported_iff _) (ex_intro _ s (ex_intro _ f (conj eq_refl Hin))))). congruence. }
  apply supported_iff in Ea as (s & f & -> & Hs). apply supported_iff in Eb as (t & g & -> & Ht).
  assert (Hws : unit_worth s f) by (exists s; split; [exact Hs|];
    unfold metre_table in Hs; simpl in Hs; repeat destruct Hs as [Hs|Hs]; try contradiction; inversion Hs;
    cbn; unfold ci_char; tauto).
  assert (Hwt : unit_worth t g) by (exists t; split; [exact Ht|];
    unfold metre_table in Ht; simpl in Ht; repeat destruct Ht as [Ht|Ht]; try contradiction; inversion Ht;
    cbn; unfold ci_char; tauto).
  destruct q as [q|].
  - destruct (to_meters_value s f q KwAbsent Hws) as (x & Hx & _). rewrite Hx.
    split.
    + intros H. apply from_meters_none_iff in H. apply to_meters_none_iff in H.
      destruct H as [H|[H|[H|(t' & Ht' & Hn)]]]; try discriminate.
      injection Ht' as <-. exact (False_ind _ (Hn g Hwt)).
    + intros [H|[H|H]]; try discriminate; exfalso; [apply (H s f eq_refl Hs)|apply (H t g eq_refl Ht)].
  - split; [tauto|]. intros _. reflexivity.
Qed.

(** The factor table used when leaving metres. *)
Definition from_factor (u : string) : Q :=
  if String.eqb u "mi" then 621371 # 1000000000
  else if String.eqb u "km" then 1 # 1000
  else if String.eqb u "kft" then 328084 # 100000000
  else if String.eqb u "m" then 1
  else if String.eqb u "ft" then 328084 # 100000
  else if String.eqb u "in" then 393701 # 10000
  else 100.

Lemma unit_conversion_value q a b f g :
  In (a, f) metre_table -> In (b, g) metre_table ->
  exists c, returns (unit_conversion (Some q) (PStr a) (PStr b)) (c * (q * (f / g)))
            /\ - (1#100000) <= c - 1 <= (1#100000) /\ c == from_factor b * g.
Proof.
  intros Ha Hb. exists (from_factor b * g). split; [|split; [|reflexivity]].
  - unfold metre_table in Ha, Hb; simpl in Ha, Hb.
    repeat destruct Ha as [Ha|Ha]; try contradiction; inversion Ha; subst;
    repeat destruct Hb as [Hb|Hb]; try contradiction; inversion Hb; subst;
    (eexists; split; [reflexivity| cbn [from_factor String.eqb Ascii.eqb Bool.eqb]; field]).
  - unfold metre_table in Hb; simpl in Hb.
    repeat destruct Hb as [Hb|Hb]; try contradiction; inversion Hb; subst;
    split; vm_compute; discriminate.
Qed.

Lemma unit_conversion_back q a b f g :
  In (a, f) metre_table -> In (b, g) metre_table ->
  exists r, unit_conversion (unit_conversion (Some q) (PStr a) (PStr b)) (PStr b) (PStr a) = Some r
            /\ rel_close (1 # 10000) q r.
Proof.
  intros Ha Hb.
  destruct (unit_conversion_value q a b f g Ha Hb) as (c & (x & Hx & Hxc) & Hc & _).
  rewrite Hx.
  destruct (unit_conversion_value x b a g f Hb Ha) as (c' & (y & Hy & Hyc) & Hc' & _).
  exists y. split; [exact Hy|].
  assert (Hf : ~ f == 0 /\ ~ g == 0).
  { unfold metre_table in Ha, Hb; simpl in Ha, Hb.
    split; [repeat destruct Ha as [Ha|Ha]; try contradiction; inversion Ha; subst
           |repeat destruct Hb as [Hb|Hb]; try contradiction; inversion Hb; subst];
    vm_compute; discriminate. }
  destruct Hf as [Hf Hg].
  apply rel_close_factor with (c := c' * c).
  - destruct Hc as [L U], Hc' as [L' U'].
    assert (E : c' * c - 1 == (c' - 1) * (c - 1) + (c' - 1) + (c - 1)) by ring.
    rewrite E.
    set (d := c - 1) in *. set (d' := c' - 1) in *. clearbody d d'.
    split; nra.
  - rewrite Hyc, Hxc. field. split; assumption.
Qed.

Lemma unit_conversion_linear a b x y kx ky ka :
  forall rx ry,
  unit_conversion (Some x) a b = Some rx ->
  unit_conversion (Some y) a b = Some ry ->
  kx * x + ky * y == ka ->
  returns (unit_conversion (Some ka) a b) (kx * rx + ky * ry).
Proof.
  intros rx ry. unfold unit_conversion.
  destruct (unit_supported a) eqn:Ea; simpl; [|discriminate].
  destruct (unit_supported b) eqn:Eb; simpl; [|discriminate].
  apply supported_iff in Ea as (s & f & -> & Hs). apply supported_iff in Eb as (t & g & -> & Ht).
  intros Hx Hy He.
  assert (Vx : exists c, forall q, returns (unit_conversion (Some q) (PStr s) (PStr t)) (c * q)).
  { unfold metre_table in Hs, Ht; simpl in Hs, Ht.
    exists (from_factor t * f).
    repeat destruct Hs as [Hs|Hs]; try contradiction; inversion Hs; subst;
    repeat destruct Ht as [Ht|Ht]; try contradiction; inversion Ht; subst;
    intros q; (eexists; split; [reflexivity| cbn [from_factor String.eqb Ascii.eqb Bool.eqb]; field]). }
  destruct Vx as [c Vc].
  assert (Ss : unit_supported (PStr s) = true) by (apply supported_iff; exists s, f; auto).
  assert (St : unit_supported (PStr t) = true) by (apply supported_iff; exists t, g; auto).
  assert (U : forall q, unit_conversion q (PStr s) (PStr t)
              = convert_from_meters (convert_to_meters q (PStr s) KwAbsent) (PStr t) KwAbsent).
  { intros q. unfold unit_conversion. rewrite Ss, St. reflexivity. }
  destruct (Vc x) as (x' & Hx' & Ex). destruct (Vc y) as (y' & Hy' & Ey).
  destruct (Vc ka) as (z & Hz & Ez). rewrite U in Hx', Hy', Hz.
  exists z. split; [exact Hz|].
  assert (x' = rx) by congruence. assert (y' = ry) by congruence. subst x' y'.
  rewrite Ez, <- He, Ex, Ey. ring.
Qed.

(** ** Synergi units *)

Lemma synergi_ok_iff v t u r :
  convert_length_unit v t u = Ok r ->
  exists t' s tbl, t = SType t' /\ u = PStr s /\ In (s, tbl) conversion_factors /\ r = v * tbl t'.
Proof.
  unfold convert_length_unit. destruct t as [t|]; [|discriminate].
  destruct u as [|s|]; try discriminate.
  destruct (smem (lower s) _); cbn [negb]; [|discriminate].
  destruct (dget conversion_factors s) as [tbl|] eqn:E; [|discriminate].
  intros H. injection H as <-. exists t, s, tbl.
  apply dget_In in E. auto.
Qed.

Lemma synergi_upper_case_keyerror s v t :
  In (lower s) ["english"; "english2"; "english1"; "metric"] ->
  ~ In s ["english"; "english2"; "english1"; "metric"] ->
  convert_length_unit v (SType t) (PStr s) = Err EKey.
Proof.
  intros Hin Hn. unfold convert_length_unit.
  assert (E : smem (lower s) ["english"; "english2"; "english1"; "metric"] = true).
  { unfold smem. apply existsb_exists. exists (lower s). split; [exact Hin|apply String.eqb_refl]. }
  rewrite E. cbn [negb].
  destruct (dget conversion_factors s) as [tbl|] eqn:E2; [|reflexivity].
  apply dget_Some_key in E2. exfalso. apply Hn. simpl in *. tauto.
Qed.

Lemma metre_table_accuracy u f :
  In (u, f) metre_table ->
  exists g, In (u, g) international_table /\ rel_close (25 # 10000000) g f.
Proof.
  unfold metre_table, international_table; simpl. intros H.
  repeat destruct H as [H|H]; try contradiction; inversion H; subst;
  eexists; (split; [eauto 10|vm_compute; discriminate]).
Qed.

Lemma units_example :
  unit_worth "KFT" (304 + 8/10) /\ (forall f, ~ unit_worth "furlong" f) /\
  returns (convert_to_meters (Some 2) (PStr "KFT") (KwBool false)) (6096 / 10).
Proof.
  split; [|split].
  - apply unit_worth_lower. simpl. tauto.
  - intros f Hf. apply unit_worth_lower in Hf. simpl in Hf.
    repeat destruct Hf as [Hf|Hf]; try contradiction; discriminate.
  - eexists; split; reflexivity.
Qed.

Lemma units_example2 :
  unit_worth "Mi" (1609 + 34/100) /\ ~ (7#2) == 0 /\ ci_string "Km" "km".
Proof.
  split; [|split].
  - apply unit_worth_lower. simpl. tauto.
  - discriminate.
  - apply lower_ci; [|reflexivity]. cbn; unfold not_upper; cbn; lia.
Qed.

Lemma units_example3 :
  In ("mi", 1609 + 34/100) metre_table /\ In ("ft", 3048/10000) metre_table /\
  unit_conversion (Some 1) (PStr "Mi") (PStr "ft") = None /\
  (exists r, unit_conversion (Some 1) (PStr "mi") (PStr "ft") = Some r).
Proof. split; [simpl; tauto|split; [simpl; tauto|split; [reflexivity|eexists; reflexivity]]]. Qed.

Lemma round_trip_close_both s f q k :
  unit_worth s f ->
  (exists r, convert_from_meters (convert_to_meters (Some q) (PStr s) k) (PStr s) k = Some r
             /\ rel_close (1 # 100000) q r) /\
  (exists r, w_convert_from_meters (convert_to_meters (Some q) (PStr s) k) (PStr s) k = Some r
             /\ rel_close (1 # 100000) q r).
Proof. intros H. assert (R := round_trip_close s f q k H). split; exact R. Qed.

Lemma lower_km s :
  In (lower s) ["km"; "m"; "cm"] <-> ci_string s "km" \/ ci_string s "m" \/ ci_string s "cm".
Proof.
  assert (H1 : lower s = "km" <-> ci_string s "km")
    by (apply lower_ci; cbn; unfold not_upper; cbn; lia).
  assert (H2 : lower s = "m" <-> ci_string s "m")
    by (apply lower_ci; cbn; unfold not_upper; cbn; lia).
  assert (H3 : lower s = "cm" <-> ci_string s "cm")
    by (apply lower_ci; cbn; unfold not_upper; cbn; lia).
  rewrite <- H1, <- H2, <- H3. cbn [In]. intuition congruence.
Qed.

Lemma round_trip_exact_both s f q k :
  unit_worth s f -> ~ q == 0 ->
  (returns (convert_from_meters (convert_to_meters (Some q) (PStr s) k) (PStr s) k) q
   <-> ci_string s "km" \/ ci_string s "m" \/ ci_string s "cm") /\
  (returns (w_convert_from_meters (convert_to_meters (Some q) (PStr s) k) (PStr s) k) q
   <-> ci_string s "km" \/ ci_string s "m" \/ ci_string s "cm").
Proof.
  intros H Hq. rewrite <- !lower_km.
  split; exact (round_trip_exact_iff s f q k H Hq).
Qed.

Lemma unit_conversion_close q a b f g :
  In (a, f) metre_table -> In (b, g) metre_table ->
  exists r, unit_conversion (Some q) (PStr a) (PStr b) = Some r
            /\ rel_close (1 # 100000) (q * (f / g)) r.
Proof.
  intros Ha Hb. destruct (unit_conversion_value q a b f g Ha Hb) as (c & (x & Hx & Hxc) & Hc & _).
  exists x. split; [exact Hx|]. eapply rel_close_factor; eauto.
Qed.

Lemma synergi_value v a u r :
  convert_length_unit v a u = Ok r ->
  exists t s factor,
    a = SType t /\ u = PStr s /\ synergi_worth s t factor /\
    (exists c, r == v * (c * factor) /\ - (1#100000) <= c - 1 <= (1#100000) /\
               ((t <> Per_LUL \/ s = "metric" \/ s = "english2") -> c == 1)).
Proof.
  intros H. apply synergi_ok_iff in H as (t & s & tbl & -> & -> & Hin & ->).
  exists t, s. unfold conversion_factors in Hin; simpl in Hin.
  assert (Hone : - (1#100000) <= 1 - 1 <= (1#100000)) by (split; vm_compute; discriminate).
  assert (Hkft : - (1#100000) <= (328084#100000000) * kilofoot - 1 <= (1#100000))
    by (split; vm_compute; discriminate).
  repeat destruct Hin as [Hin|Hin]; try contradiction; injection Hin as <- <-; destruct t;
  eexists; (split; [reflexivity|split; [reflexivity|split; [constructor|]]]);
  first [ exists 1; split; [unfold inch, foot, kilofoot, mile; field|split; [exact Hone|reflexivity]]
        | exists ((328084#100000000) * kilofoot); split; [unfold kilofoot; field|split; [exact Hkft|]];
          intros [Hx|[Hx|Hx]]; [congruence|discriminate|discriminate] ].
Qed.

Lemma synergi_total v t s :
  In s ["english"; "english1"; "english2"; "metric"] ->
  exists r, convert_length_unit v (SType t) (PStr s) = Ok r.
Proof.
  simpl. intros H. repeat destruct H as [<-|H]; try contradiction; eexists; reflexivity.
Qed.

Lemma synergi_no_upper w : In w ["english"; "english1"; "english2"; "metric"] -> no_upper w.
Proof.
  simpl. intros H. repeat destruct H as [<-|H]; try contradiction;
  cbn; unfold not_upper; cbn; lia.
Qed.

Lemma synergi_rejects v a u :
  (a = SNotType \/ u = PNone \/ u = POther \/
   exists s, u = PStr s /\
     forall w, In w ["english"; "english1"; "english2"; "metric"] -> ~ ci_string s w) ->
  convert_length_unit v a u = Err EValue.
Proof.
  intros [->|[->|[->|(s & -> & Hs)]]]; try (destruct a; reflexivity); [reflexivity|].
  unfold convert_length_unit. destruct a as [t|]; [|reflexivity].
  destruct (smem (lower s) ["english"; "english2"; "english1"; "metric"]) eqn:E; [|reflexivity].
  exfalso. apply smem_In in E.
  assert (Hin : In (lower s) ["english"; "english1"; "english2"; "metric"]) by (simpl in *; tauto).
  apply (Hs (lower s) Hin). apply lower_ci; [apply synergi_no_upper, Hin|reflexivity].
Qed.

Lemma synergi_letter_case v t s w :
  In w ["english"; "english1"; "english2"; "metric"] ->
  ci_string s w -> s <> w ->
  convert_length_unit v (SType t) (PStr s) = Err EKey.
Proof.
  intros Hw Hci Hne.
  assert (Hl : lower s = w) by (apply lower_ci; [apply synergi_no_upper, Hw|exact Hci]).
  apply synergi_upper_case_keyerror.
  - rewrite Hl. simpl in *; tauto.
  - intros Hin. assert (lower s = s); [|congruence].
    simpl in Hin. repeat destruct Hin as [<-|Hin]; try contradiction; reflexivity.
Qed.

Lemma synergi_example :
  ci_string "Metric" "metric" /\ "Metric" <> "metric" /\
  synergi_worth "metric" LUL 1000 /\
  convert_length_unit 3 (SType LUL) (PStr "metric") = Ok (3 * 1000).
Proof.
  split; [apply lower_ci; [cbn; unfold not_upper; cbn; lia|reflexivity]|].
  split; [discriminate|]. split; [constructor|reflexivity].
Qed.
