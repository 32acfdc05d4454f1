(** Proofs about names. *)
From Verif Require Import Base BaseFacts DssNameModel DssNameSpec.
Local Open Scope string_scope.

Lemma alnum_spec c : alnum c = true <-> letter_or_digit c.
Proof.
  unfold alnum, letter_or_digit. cbv zeta. rewrite !orb_true_iff, !andb_true_iff, !Nat.leb_le. intuition lia.
Qed.
Lemma alnum_false c : alnum c = false <-> ~ letter_or_digit c.
Proof. rewrite <- alnum_spec. destruct (alnum c); intuition congruence. Qed.

(** The shape of the result. *)
Fixpoint safe_from (run : bool) (s : string) : Prop :=
  match s with
  | EmptyString => True
  | String c t => (letter_or_digit c /\ safe_from false t) \/ (run = false /\ c = "_"%char /\ safe_from true t)
  end.
Lemma underscore_not : ~ letter_or_digit "_".
Proof. unfold letter_or_digit. cbn. lia. Qed.

Lemma sub_safe_from s : forall run, safe_from run (sub_from run s).
Proof.
  induction s as [|c s IH]; intros run; cbn [sub_from]; [exact I|]. destruct (alnum c) eqn:E.
  - cbn [safe_from]. left. split; [apply alnum_spec; exact E|apply IH].
  - destruct run; [apply IH|]. cbn [safe_from]. right. split; [reflexivity|]. split; [reflexivity|apply IH].
Qed.
Lemma safe_from_safe s : forall run, safe_from run s -> safe s /\ (run = true -> forall b, s <> String "_" b).
Proof.
  induction s as [|c s IH]; intros run H.
  - split; [split; intros [|? ?]; discriminate|discriminate].
  - cbn [safe_from] in H. destruct H as [[Hc Hs]|(-> & -> & Hs)]; destruct (IH _ Hs) as [[S1 S2] S3].
    + split.
      * split.
        { intros [|x a] d b E; cbn in E; injection E as -> E; [left; congruence|]. exact (S1 _ _ _ E). }
        { intros [|x a] b E; cbn in E; injection E as -> E; [exact (underscore_not Hc)|exact (S2 _ _ E)]. }
      * intros _ b E. injection E as -> _. exact (underscore_not Hc).
    + split; [|discriminate]. split.
      * intros [|x a] d b E; cbn in E; injection E as Ex E; [right; congruence|]. exact (S1 _ _ _ E).
      * intros [|x a] b E; cbn in E; [injection E as E; exact (S3 eq_refl _ E)|injection E as Ex E; exact (S2 _ _ E)].
Qed.
Lemma safe_safe_from s : safe s -> safe_from false s /\ ((forall b, s <> String "_" b) -> safe_from true s).
Proof.
  induction s as [|c s IH]; intros [S1 S2]; [split; [exact I|intros; exact I]|].
  assert (Ss : safe s).
  { split; [intros a d b E; apply (S1 (String c a) d b); cbn; now rewrite E|intros a b E; apply (S2 (String c a) b); cbn; now rewrite E]. }
  destruct (IH Ss) as [I1 I2]. destruct (S1 "" c s eq_refl) as [Hc|Hc].
  - split; [left; split; [exact Hc|exact I1]|intros _; left; split; [exact Hc|exact I1]].
  - subst c. split.
    + right. split; [reflexivity|]. split; [reflexivity|]. apply I2. intros b E. apply (S2 "" b). cbn. now rewrite E.
    + intros N. exfalso. exact (N s eq_refl).
Qed.
Lemma safe_from_fixed s : forall run, safe_from run s -> sub_from run s = s.
Proof.
  induction s as [|c s IH]; intros run H; cbn [sub_from]; [reflexivity|]. cbn [safe_from] in H.
  destruct H as [[Hc Hs]|(-> & -> & Hs)].
  - rewrite (proj2 (alnum_spec c) Hc). now rewrite (IH _ Hs).
  - change (alnum "_") with false. now rewrite (IH _ Hs).
Qed.

Lemma re_sub_safe s : safe (re_sub s).
Proof. exact (proj1 (safe_from_safe _ _ (sub_safe_from s false))). Qed.
Lemma re_sub_fixed s : safe s -> re_sub s = s.
Proof. intros H. apply safe_from_fixed. exact (proj1 (safe_safe_from s H)). Qed.

(** What is kept. *)
Lemma sub_kept s : kept s (sub_from false s) /\
  exists g t, s = g ++ t /\ (forall a c b, g = a ++ String c b -> ~ letter_or_digit c) /\
    (t = "" \/ exists c u, t = String c u /\ letter_or_digit c) /\ kept t (sub_from true s).
Proof.
  induction s as [|c s [IH1 (g & t & E & G & T & K)]].
  - split; [constructor|]. exists "", "". split; [reflexivity|]. split; [intros [|? ?] ? ?; discriminate|]. split; [auto|constructor].
  - cbn [sub_from]. destruct (alnum c) eqn:A.
    + assert (L := proj1 (alnum_spec c) A). split; [constructor; assumption|]. exists "", (String c s). split; [reflexivity|].
      split; [intros [|? ?] ? ?; discriminate|]. split; [right; eauto|constructor; assumption].
    + assert (L := proj1 (alnum_false c) A).
      assert (G' : forall a d b, String c g = a ++ String d b -> ~ letter_or_digit d).
      { intros [|x a] d b Eq; cbn in Eq; injection Eq as -> Eq; [exact L|exact (G _ _ _ Eq)]. }
      assert (E' : String c s = String c g ++ t) by (cbn; now rewrite E). rewrite E'. split.
      * apply kept_gap; [discriminate|exact G'|exact T|exact K].
      * exists (String c g), t. split; [reflexivity|]. split; [exact G'|]. split; [exact T|exact K].
Qed.

Lemma lower_not_upper c : ~ (65 <= nat_of_ascii (lower_ascii c) <= 90)%nat.
Proof.
  unfold lower_ascii. cbv zeta. destruct ((65 <=? nat_of_ascii c) && (nat_of_ascii c <=? 90))%nat eqn:E.
  - apply andb_true_iff in E. destruct E as [E1 E2]. apply Nat.leb_le in E1, E2. rewrite nat_ascii_embedding by lia. lia.
  - intros [H1 H2]. apply andb_false_iff in E. destruct E as [E|E]; apply Nat.leb_gt in E; lia.
Qed.
Lemma lower_lower_case s : lower_case (lower s).
Proof.
  induction s as [|c s IH]; intros [|x a] d b E; cbn in E; try discriminate; injection E as <- E; [apply lower_not_upper|exact (IH _ _ _ E)].
Qed.
Lemma lower_fixed s : lower_case s -> lower s = s.
Proof.
  induction s as [|c s IH]; intros H; [reflexivity|]. cbn [lower]. rewrite IH.
  - f_equal. unfold lower_ascii. cbv zeta. destruct ((65 <=? nat_of_ascii c) && (nat_of_ascii c <=? 90))%nat eqn:E; [|reflexivity].
    exfalso. apply (H "" c s eq_refl). apply andb_true_iff in E. destruct E as [E1 E2]. apply Nat.leb_le in E1, E2. lia.
  - intros a d b E. apply (H (String c a) d b). cbn. now rewrite E.
Qed.
Lemma sub_lower s : forall run, lower_case s -> lower_case (sub_from run s).
Proof.
  induction s as [|c s IH]; intros run H; cbn [sub_from]; [exact H|].
  assert (Hs : lower_case s) by (intros a d b E; apply (H (String c a) d b); cbn; now rewrite E).
  destruct (alnum c).
  - intros [|x a] d b E; cbn in E; injection E as -> E; [exact (H "" d s eq_refl)|exact (IH _ Hs _ _ _ E)].
  - destruct run; [apply IH; exact Hs|]. intros [|x a] d b E; cbn in E; injection E as <- E; [cbn; lia|exact (IH _ Hs _ _ _ E)].
Qed.
Lemma plain_safe s : plain s -> safe s.
Proof.
  intros H. split; [intros a c b E; left; exact (H a c b E)|]. intros a b E. exact (underscore_not (H a _ _ E)).
Qed.
Lemma lower_letter c : letter_or_digit c -> letter_or_digit (lower_ascii c).
Proof.
  unfold letter_or_digit, lower_ascii. cbv zeta. destruct ((65 <=? nat_of_ascii c) && (nat_of_ascii c <=? 90))%nat eqn:E; [|auto].
  apply andb_true_iff in E. destruct E as [E1 E2]. apply Nat.leb_le in E1, E2. rewrite nat_ascii_embedding by lia. lia.
Qed.
Lemma lower_plain s : plain s -> plain (lower s).
Proof.
  induction s as [|c s IH]; intros H [|x a] d b E; cbn in E; try discriminate; injection E as <- E.
  - apply lower_letter. exact (H "" c s eq_refl).
  - eapply IH; [|exact E]. intros a' d' b' E'. apply (H (String c a') d' b'). cbn. now rewrite E'.
Qed.
