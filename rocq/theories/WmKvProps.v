(** C131: the voltages of the edges of a Windmil graph. *)
From Verif Require Import Base BaseFacts WmKvModel WmKvSpec.
Local Open Scope string_scope.
Local Open Scope list_scope.

Lemma edge_eqb_eq a b : edge_eqb a b = true <-> a = b.
Proof.
  destruct a as [a1 a2], b as [b1 b2]; unfold edge_eqb; cbn. rewrite andb_true_iff, !String.eqb_eq.
  split; [intros [-> ->]; reflexivity | intros H; injection H as -> ->; auto].
Qed.

Section Graph.
Context {V : Type}.
Variable into : string -> option edge.
Variable file : @attr V.

Lemma nearest_fun e x : nearest into file e x -> forall y, nearest into file e y -> x = y.
Proof.
  induction 1 as [e x H|e e' x H I N IH|e H I]; intros y Hy.
  - inversion Hy as [e0 y0 H0|e0 e1 y0 H0 I0 N0|e0 H0 I0]; subst; congruence.
  - inversion Hy as [e0 y0 H0|e0 e1 y0 H0 I0 N0|e0 H0 I0]; subst; try congruence.
    apply IH. congruence.
  - inversion Hy as [e0 y0 H0|e0 e1 y0 H0 I0 N0|e0 H0 I0]; subst; congruence.
Qed.

(** States between: the values of the file, and nearest values besides. *)
Definition sound (st : @attr V) : Prop :=
  (forall e x, file e = Some x -> st e = Some x)
  /\ (forall e x, st e = Some x -> nearest into file e x).

Lemma sound_none st e : sound st -> st e = None -> file e = None.
Proof. intros [H _] Hn. destruct (file e) as [x|] eqn:E; [|reflexivity]. rewrite (H _ _ E) in Hn. discriminate. Qed.

Lemma iterate_ok st : sound st -> forall fuel e px, iterate_nodes into fuel st e = Ok px ->
  In e (fst px) /\ Forall (fun e' => nearest into file e' (snd px)) (fst px).
Proof.
  intros S. induction fuel as [|f IH]; intros e px H; cbn [iterate_nodes] in H; [discriminate|].
  destruct (st e) as [x|] eqn:E.
  - injection H as <-. cbn. split; [now left|]. constructor; [|constructor]. now apply S.
  - pose proof (sound_none _ _ S E) as N. destruct (into (fst e)) as [e'|] eqn:I.
    + destruct (iterate_nodes into f st e') as [px'|] eqn:E'; cbn [bind] in H; [|discriminate].
      injection H as <-. destruct (IH _ _ E') as [H1 H2]. cbn [fst snd]. split; [now left|].
      constructor; [|exact H2]. rewrite Forall_forall in H2. eapply near_up; [exact N | exact I | now apply H2].
    + injection H as <-. cbn. split; [now left|]. constructor; [|constructor]. now apply near_top.
Qed.

Lemma set_attr_get (st : @attr V) e x e' : set_attr st e x e' = if edge_eqb e e' then Some x else st e'.
Proof. reflexivity. Qed.

Lemma sound_set st e x : sound st -> nearest into file e x -> sound (set_attr st e x).
Proof.
  intros [S1 S2] N. split.
  - intros e' y H. rewrite set_attr_get. destruct (edge_eqb e e') eqn:E; [|now apply S1].
    apply edge_eqb_eq in E; subst e'. f_equal. eapply nearest_fun; [exact N | now apply near_own].
  - intros e' y H. rewrite set_attr_get in H. destruct (edge_eqb e e') eqn:E; [|now apply S2].
    apply edge_eqb_eq in E; subst e'. injection H as <-. exact N.
Qed.

Lemma set_path x p : Forall (fun e => nearest into file e x) p -> forall st, sound st ->
  let st' := fold_left (fun s e => set_attr s e x) p st in
  sound st' /\ (forall e, In e p -> st' e <> None) /\ (forall e, st e <> None -> st' e <> None).
Proof.
  induction 1 as [|e p N F IH]; intros st S; cbn [fold_left]; [split; [exact S|]; split; [intros e [] | auto]|].
  destruct (IH _ (sound_set _ _ _ S N)) as [S' [A B]].
  assert (HE : set_attr st e x e <> None)
    by (rewrite set_attr_get; replace (edge_eqb e e) with true by (symmetry; now apply edge_eqb_eq); discriminate).
  split; [exact S'|]. split.
  - intros e' [<-|H]; [now apply B | now apply A].
  - intros e' H. apply B. rewrite set_attr_get. destruct (edge_eqb e e'); [discriminate | exact H].
Qed.

Definition step fuel (s : @attr V) (e : edge) : res attr :=
  match s e with Some _ => Ok s | None => get_edge_attribute into fuel s e end.

Lemma step_ok fuel s e s' : sound s -> step fuel s e = Ok s' ->
  sound s' /\ s' e <> None /\ (forall e', s e' <> None -> s' e' <> None).
Proof.
  intros S H. unfold step in H. destruct (s e) as [x|] eqn:E.
  - injection H as <-. split; [exact S|]. split; [congruence | auto].
  - unfold get_edge_attribute in H.
    destruct (iterate_nodes into fuel s e) as [px|] eqn:I; cbn [bind] in H; [|discriminate].
    injection H as <-. destruct (iterate_ok _ S _ _ _ I) as [HI F].
    destruct (set_path _ _ F _ S) as [S' [A B]]. auto.
Qed.

Lemma steps_ok fuel es : forall s s', sound s -> foldM (step fuel) es s = Ok s' ->
  sound s' /\ (forall e, In e es -> s' e <> None) /\ (forall e', s e' <> None -> s' e' <> None).
Proof.
  induction es as [|e es IH]; intros s s' S H; cbn [foldM] in H.
  - injection H as <-. split; [exact S|]. split; [intros e [] | auto].
  - destruct (step fuel s e) as [s1|] eqn:E; [|discriminate].
    destruct (step_ok _ _ _ _ S E) as [S1 [A1 B1]]. destruct (IH _ _ S1 H) as [S2 [A2 B2]].
    split; [exact S2|]. split; [|auto]. intros e' [<-|He]; auto.
Qed.

Lemma iterate_total e x : nearest into file e x -> exists n, forall fuel st, n <= fuel -> sound st ->
  exists px, iterate_nodes into fuel st e = Ok px.
Proof.
  induction 1 as [e x H|e e' x H I N [n IH]|e H I].
  - exists 1. intros [|f] st Hf S; [lia|]. cbn [iterate_nodes]. rewrite (proj1 S _ _ H). eauto.
  - exists (S n). intros [|f] st Hf S; [lia|]. cbn [iterate_nodes]. destruct (st e); [eauto|]. rewrite I.
    destruct (IH f st ltac:(lia) S) as [px ->]. cbn [bind]. eauto.
  - exists 1. intros [|f] st Hf S; [lia|]. cbn [iterate_nodes]. destruct (st e); [eauto|]. rewrite I. eauto.
Qed.
End Graph.

(** C131: if it finishes, every edge has the value of the nearest edge at or above it
    that has one in the file (None if there is none), whatever the order in which
    the edges come. *)
Theorem C131_voltages : forall V (into : string -> option edge) (file : @attr V) fuel es st,
  get_base_kv into fuel es file = Ok st ->
  (forall e, In e es -> exists x, st e = Some x /\ nearest into file e x)
  /\ (forall e x, file e = Some x -> st e = Some x).
Proof.
  intros V into file fuel es st H.
  assert (S0 : sound into file file) by (split; [auto | intros; now apply near_own]).
  destruct (steps_ok into file fuel es _ _ S0 H) as [S [A _]]. split; [|apply S].
  intros e He. destruct (st e) as [x|] eqn:E; [|now apply A in He]. exists x. split; [reflexivity | now apply S].
Qed.
Print Assumptions C131_voltages.

(** C131: the edges that C131_voltages speaks of have one value each. *)
Theorem C131_unique : forall V (into : string -> option edge) (file : @attr V) e x y,
  nearest into file e x -> nearest into file e y -> x = y.
Proof. intros V into file e x y H1 H2. eapply nearest_fun; eassumption. Qed.
Print Assumptions C131_unique.

(** C131: it finishes, given enough room for the recursion, if the way up from every
    edge ends. *)
Theorem C131_finishes : forall V (into : string -> option edge) (file : @attr V) es,
  (forall e, In e es -> exists x, nearest into file e x) ->
  exists n, forall fuel, n <= fuel -> exists st, get_base_kv into fuel es file = Ok st.
Proof.
  intros V into file es HE.
  assert (HN : exists n, forall e, In e es -> forall fuel st, n <= fuel -> sound into file st ->
             exists px, iterate_nodes into fuel st e = Ok px).
  { induction es as [|e es IH]; [exists 0; intros e []|].
    destruct IH as [n Hn]; [intros e' He'; apply HE; now right|].
    destruct (HE e (or_introl eq_refl)) as [x Hx].
    destruct (iterate_total into file e x Hx) as [m Hm]. exists (max n m).
    intros e' [<-|He'] fuel st Hf S; [apply Hm | apply (Hn e' He')]; (lia || assumption). }
  destruct HN as [n HN]. exists n. intros fuel Hf.
  assert (S0 : sound into file file) by (split; [auto | intros; now apply near_own]).
  change (exists st, foldM (step into fuel) es file = Ok st).
  generalize S0. generalize file at 2 3 as s. clear S0 HE.
  induction es as [|e es IH]; intros s S; cbn [foldM]; [eauto|].
  assert (exists s1, step into fuel s e = Ok s1) as [s1 E].
  { unfold step. destruct (s e); [eauto|]. unfold get_edge_attribute.
    destruct (HN e (or_introl eq_refl) fuel s Hf S) as [px ->]. cbn [bind]. eauto. }
  rewrite E. destruct (step_ok into file _ _ _ _ S E) as [S1 _].
  apply IH; [|exact S1]. intros e' He'. apply HN. now right.
Qed.
Print Assumptions C131_finishes.

(** Refutation of "it finishes for every graph": on a loop of edges without a value
    no room is enough for the recursion. *)
Theorem C131_loop_refuted : forall V (into : string -> option edge) (file : @attr V) es1 e es2 fuel,
  (forall x, ~ nearest into file e x) ->
  exists x, get_base_kv into fuel (es1 ++ e :: es2) file = Err x.
Proof.
  intros V into file es1 e es2 fuel HN.
  destruct (get_base_kv into fuel (es1 ++ e :: es2) file) as [st|x] eqn:E; [|eauto].
  exfalso. destruct (C131_voltages _ _ _ _ _ _ E) as [A _].
  destruct (A e) as [x [_ Hx]]; [apply in_or_app; right; now left|]. exact (HN x Hx).
Qed.
Print Assumptions C131_loop_refuted.

(** The edges r-a (with a voltage), a-b, b-c, and x-y in no path from r; and a loop. *)
Definition ex_into (n : string) : option edge :=
  if String.eqb n "a" then Some ("r", "a") else if String.eqb n "b" then Some ("a", "b")
  else if String.eqb n "p" then Some ("q", "p") else if String.eqb n "q" then Some ("p", "q") else None.
Definition ex_file : @attr nat :=
  fun e => if edge_eqb e ("r", "a") then Some (Some 12) else None.

(** The hypotheses are met by a chain below an edge with a voltage, and by a loop. *)
Example C131_hypotheses_met :
  (exists st, get_base_kv ex_into 3 [("b", "c"); ("a", "b"); ("x", "y"); ("r", "a")] ex_file = Ok st
     /\ st ("b", "c") = Some (Some 12) /\ st ("a", "b") = Some (Some 12) /\ st ("x", "y") = Some None)
  /\ (forall x, ~ nearest ex_into ex_file ("p", "q") x).
Proof.
  split.
  - eexists. split; [cbn; reflexivity|]. split; [reflexivity|]. split; reflexivity.
  - assert (forall e x, nearest ex_into ex_file e x -> e = ("p", "q") \/ e = ("q", "p") -> False) as HF.
    { induction 1 as [e x H|e e' x H I N IH|e H I]; intros [-> | ->]; try discriminate.
      - apply IH. injection I as <-. auto.
      - apply IH. injection I as <-. auto. }
    intros x Hx. exact (HF _ _ Hx (or_introl eq_refl)).
Qed.
