(** C117: transformers between the loads and the source. *)
From Coq Require Import List String Bool Arith Lia.
From Verif Require Import Base BaseFacts TPathModel TPathSpec.
Import ListNotations.
Local Open Scope string_scope.
Local Open Scope nat_scope.
Local Open Scope list_scope.

Lemma phase_eqb_eq a b : phase_eqb a b = true <-> a = b.
Proof. destruct a as [a|], b as [b|]; cbn; try (split; congruence). rewrite String.eqb_eq. split; congruence. Qed.
Lemma phase_eqb_neq a b : phase_eqb a b = false <-> a <> b.
Proof. rewrite <- phase_eqb_eq. destruct (phase_eqb a b); intuition congruence. Qed.
Lemma pairs_adjacent p x y : In (x, y) (pairs p) <-> adjacent p x y.
Proof.
  induction p as [|a [|b p] IH].
  - split; [intros []|intros ([|? ?] & b & H); discriminate].
  - split; [intros []|intros ([|? [|? ?]] & b & H); discriminate].
  - change (pairs (a :: b :: p)) with ((a, b) :: pairs (b :: p)). cbn [In]. rewrite IH. split.
    + intros [H|(l & r & H)]; [injection H as <- <-; exists [], p; reflexivity|exists (a :: l), r; now rewrite H].
    + intros ([|c l] & r & H); [injection H as <- <- <-; now left|]. injection H as <- H. right. now exists l, r.
Qed.
Lemma pairs_app p x q : pairs (p ++ x :: q) = pairs (p ++ [x]) ++ pairs (x :: q).
Proof.
  induction p as [|a [|b p] IH]; [destruct q; reflexivity|destruct q; reflexivity|]. change ((a :: b :: p) ++ x :: q) with (a :: b :: (p ++ x :: q)). change ((a :: b :: p) ++ [x]) with (a :: b :: (p ++ [x])).
  change (pairs (a :: b :: p ++ x :: q)) with ((a, b) :: pairs ((b :: p) ++ x :: q)). change (pairs (a :: b :: p ++ [x])) with ((a, b) :: pairs ((b :: p) ++ [x])). now rewrite IH.
Qed.
Lemma counted_iff e : counted e = true <-> a_transformer e.
Proof. unfold counted, is_transformer, a_transformer. rewrite andb_true_iff, String.eqb_eq, negb_true_iff. tauto. Qed.

Lemma foldM_inv {A B} (f : A -> B -> res A) (I : A -> Prop) l : (forall s a s', In a l -> I s -> f s a = Ok s' -> I s') -> forall s s', I s -> foldM f l s = Ok s' -> I s'.
Proof.
  induction l as [|a l IH]; intros H s s' HI E; cbn [foldM] in E; [injection E as <-; exact HI|]. destruct (f s a) as [s1|] eqn:F; [|discriminate]. cbn [bind] in E. apply (IH (fun s0 a0 s0' IN => H s0 a0 s0' (or_intror IN)) s1 s'); [|exact E]. exact (H s a s1 (or_introl eq_refl) HI F).
Qed.
Lemma foldM_hit {A B} (f : A -> B -> res A) (I P : A -> Prop) l a0 : In a0 l -> (forall s a s', In a l -> I s -> f s a = Ok s' -> I s') -> (forall s a s', In a l -> P s -> f s a = Ok s' -> P s') ->
  (forall s s', I s -> f s a0 = Ok s' -> P s') -> forall s s', I s -> foldM f l s = Ok s' -> P s'.
Proof.
  intros IN HI HP H0. apply in_split in IN. destruct IN as (l1 & l2 & ->). intros s s' IS E. rewrite foldM_app in E. destruct (foldM f l1 s) as [s1|] eqn:E1; cbn [bind] in E; [|discriminate]. cbn [foldM] in E. destruct (f s1 a0) as [s2|] eqn:E2; [|discriminate].
  eapply (foldM_inv f P l2); [|eapply H0; [|exact E2]|exact E].
  - intros. eapply HP; [apply in_or_app; right; right; eassumption|eassumption..].
  - eapply (foldM_inv f I l1); [|exact IS|exact E1]. intros. eapply HI; [apply in_or_app; left; eassumption|eassumption..].
Qed.

Section Net.
Variable n : net.
Hypothesis UN : undirected n.

Definition climbs (p : list string) := foldM (climb n) (pairs (rev p)) ([], None).
Lemma pairs_rev x y r : pairs (rev (x :: y :: r)) = pairs (rev (y :: r)) ++ [(y, x)].
Proof. cbn [rev]. rewrite <- app_assoc. cbn [app]. rewrite pairs_app. reflexivity. Qed.
Lemma climbs_step x y r : climbs (x :: y :: r) = do st <- climbs (y :: r); climb n st (y, x).
Proof. unfold climbs. rewrite pairs_rev, foldM_app. destruct (foldM _ _ _) as [st|]; cbn [bind foldM]; [|reflexivity]. destruct (climb n st (y, x)); reflexivity. Qed.

Lemma climbs_none p low : climbs p = Ok ([], low) -> (forall x y e, adjacent p x y -> n_edge n x y = Some e -> ~ a_transformer e) /\
  (clear n p -> match p with w :: _ :: _ => low = Some w | _ => low = None end).
Proof.
  revert low. induction p as [|x [|y r] IH]; intros low H.
  - injection H as <-. split; [|reflexivity]. intros x y e ([|? ?] & b & A); discriminate.
  - injection H as <-. split; [|reflexivity]. intros a b e ([|? [|? ?]] & c & A); discriminate.
  - rewrite climbs_step in H. destruct (climbs (y :: r)) as [[names l]|] eqn:C; cbn [bind] in H; [|discriminate]. unfold climb in H. cbn [fst snd] in H. destruct (n_edge n y x) as [e|] eqn:E; cbn [of_opt bind] in H; [|discriminate].
    destruct (counted e) eqn:CE; [destruct names; discriminate|]. destruct names; [|discriminate]. injection H as H. destruct (IH l eq_refl) as [A B]. split.
    + intros a b e' AD EE T. apply pairs_adjacent in AD. destruct AD as [AD|AD]; [|apply pairs_adjacent in AD; now apply (A a b e')]. injection AD as <- <-. rewrite UN, E in EE. injection EE as <-. apply counted_iff in T. congruence.
    + intros CL. destruct (is_transformer e) eqn:T; [|now symmetry]. exfalso. apply (CL x y e); [exists [], r; reflexivity|now rewrite UN|]. now apply String.eqb_eq.
Qed.
Lemma climbs_one p t low : climbs p = Ok ([t], low) -> exists above u w below, p = above ++ u :: w :: below /\ (exists e, n_edge n u w = Some e /\ a_transformer e /\ e_name e = t) /\
  (forall x y e, adjacent (above ++ [u]) x y \/ adjacent (w :: below) x y -> n_edge n x y = Some e -> ~ a_transformer e) /\ (clear n (w :: below) -> match below with _ :: _ => low = Some w | [] => low = None end).
Proof.
  revert low. induction p as [|x [|y r] IH]; intros low H; try discriminate. rewrite climbs_step in H. destruct (climbs (y :: r)) as [[names l]|] eqn:C; cbn [bind] in H; [|discriminate]. unfold climb in H. cbn [fst snd] in H. destruct (n_edge n y x) as [e|] eqn:E; cbn [of_opt bind] in H; [|discriminate].
  destruct (counted e) eqn:CE.
  - destruct names as [|a [|? ?]]; try discriminate. cbn [app] in H. injection H as HN HL. subst l. destruct (climbs_none _ _ C) as [A B]. exists [], x, y, r. split; [reflexivity|]. split; [exists e; split; [now rewrite UN|split; [now apply counted_iff|exact HN]]|]. split.
    + intros a b e' [AD|AD]; [apply pairs_adjacent in AD; destruct AD|now apply A].
    + intros CL. specialize (B CL). destruct r; exact B.
  - assert (names = [t]) as ->. { injection H as H _. exact H. } injection H as HL. subst l. destruct (IH low eq_refl) as (above & u & w & below & EP & T & A & B). exists (x :: above), u, w, below. split; [rewrite EP; reflexivity|]. split; [exact T|]. split; [|exact B].
    intros a b e' [AD|AD]; [|apply A; now right]. apply pairs_adjacent in AD. destruct above as [|y' above].
    + injection EP as -> _. destruct AD as [AD|[]]. injection AD as <- <-. intros EE TT. rewrite UN, E in EE. injection EE as <-. apply counted_iff in TT. congruence.
    + injection EP as -> EP. change (pairs ((x :: y' :: above) ++ [u])) with ((x, y') :: pairs ((y' :: above) ++ [u])) in AD. destruct AD as [AD|AD]; [|apply A; left; now apply pairs_adjacent]. injection AD as <- <-. intros EE TT. rewrite UN, E in EE. injection EE as <-. apply counted_iff in TT. congruence.
Qed.
(** Conversely: what the walk up finds. *)
Lemma climbs_sole c t above u w below p st : sole n c t above u w below -> dget (n_paths n) c = Some p -> climbs p = Ok st -> exists low, st = ([t], low).
Proof.
  intros (EP & (e0 & E0 & T0 & N0) & A) EP' H. assert (p = above ++ u :: w :: below) by congruence. subst p. clear EP EP'.
  assert (Z : forall q s, (forall x y e, adjacent q x y -> n_edge n x y = Some e -> ~ a_transformer e) -> climbs q = Ok s -> fst s = []).
  { induction q as [|x [|y r] IH]; intros s Q HQ; try (injection HQ as <-; reflexivity). rewrite climbs_step in HQ. destruct (climbs (y :: r)) as [[names l]|] eqn:C; cbn [bind] in HQ; [|discriminate]. unfold climb in HQ. cbn [fst snd] in HQ. destruct (n_edge n y x) as [e|] eqn:E; cbn [of_opt bind] in HQ; [|discriminate].
    assert (counted e = false) as CE. { destruct (counted e) eqn:CE; [|reflexivity]. exfalso. apply (Q x y e); [exists [], r; reflexivity|now rewrite UN|now apply counted_iff]. }
    rewrite CE in HQ. injection HQ as <-. cbn [fst]. apply (IH (names, l)); [|reflexivity]. intros a b e' (l1 & l2 & EQ) EE. apply (Q a b e'); [exists (x :: l1), l2; now rewrite EQ|exact EE]. }
  revert st H. induction above as [|x above IH]; intros st H.
  - cbn [app] in H. rewrite climbs_step in H. destruct (climbs (w :: below)) as [[names l]|] eqn:C; cbn [bind] in H; [|discriminate]. assert (names = []) as ->. { apply (Z _ _ (fun x y e AD => A x y e (or_intror AD)) C). }
    unfold climb in H. cbn [fst snd] in H. rewrite UN, E0 in H. cbn [of_opt bind] in H. apply counted_iff in T0. rewrite T0 in H. cbn [app] in H. injection H as <-. exists l. now rewrite N0.
  - assert (exists y r, above ++ u :: w :: below = y :: r /\ adjacent ((x :: above) ++ [u]) x y) as (y & r & EQ & AD). { destruct above as [|y above]; [exists u, (w :: below); split; [reflexivity|exists [], []; reflexivity]|exists y, (above ++ u :: w :: below); split; [reflexivity|exists [], (above ++ [u]); reflexivity]]. }
    change ((x :: above) ++ u :: w :: below) with (x :: (above ++ u :: w :: below)) in H. rewrite EQ in H. rewrite climbs_step, <- EQ in H. destruct (climbs (above ++ u :: w :: below)) as [s|] eqn:C; cbn [bind] in H; [|discriminate].
    destruct (IH) with (st := s) as (low & ->); [|reflexivity|].
    { intros a b e' [(l1 & l2 & Q)|Q]; apply A; [left; exists (x :: l1), l2; cbn; now rewrite Q|now right]. }
    unfold climb in H. cbn [fst snd] in H. destruct (n_edge n y x) as [e|] eqn:E; cbn [of_opt bind] in H; [|discriminate]. assert (counted e = false) as CE. { destruct (counted e) eqn:CE; [|reflexivity]. exfalso. apply (A x y e); [now left|now rewrite UN|now apply counted_iff]. }
    rewrite CE in H. injection H as <-. now exists low.
Qed.

Lemma descend_ends es : forall t high t', descend n es t high = Ok t' -> same_ends t t' /\ same_windings (t_windings t) (t_windings t').
Proof.
  induction es as [|e es IH]; intros t high t' H; cbn [descend] in H; [injection H as <-; split; [now split|constructor]|].
  destruct (n_edge n (fst e) (snd e)) as [el|]; cbn [of_opt bind] in H; [|discriminate]. destruct (counted el); [injection H as <-; split; [now split|constructor]|]. destruct (String.eqb (e_equipment el) "Line"); [|now apply (IH _ high)].
  destruct (negb _ && _ && _); [|now apply (IH _ high)]. destruct (high_of t) as [h|]; cbn [bind] in H; [|discriminate]. destruct (of_opt EIndex _) as [p|]; cbn [bind] in H; [|discriminate]. apply IH in H. destruct H as [[A B] C]. split; [split; [exact A|exact B]|].
  unfold set_phase in C. cbn [t_windings] in C. destruct (t_windings t) as [|[|q r] w]; try exact C. inversion C; subst; [apply same_but_first|apply same_but_first].
Qed.
Lemma rotate_ends t low : (same_ends t (rotate t low) \/ swapped t (rotate t low)) /\ t_windings (rotate t low) = t_windings t.
Proof. unfold rotate. destruct (end_eqb (t_to t) low); [split; [left; now split|reflexivity]|]. destruct (end_eqb (t_from t) low); split; try reflexivity; [right; now split|left; now split]. Qed.

(** What one load changes. *)
Lemma one_load_spec ts c ts' : one_load n ts c = Ok ts' -> ts' = ts \/ exists c0 t above u w below low tr tr1 tr2 high, c = Some c0 /\ sole n c0 t above u w below /\
  (clear n (w :: below) -> match below with _ :: _ => low = Some w | [] => low = None end) /\ dget ts t = Some tr /\ tr1 = rotate tr low /\ high_of tr1 = Ok high /\ descend n (pairs (above ++ u :: w :: below)) tr1 high = Ok tr2 /\ ts' = dset ts t tr2.
Proof.
  intros H. unfold one_load in H. destruct c as [c|]; [|left; congruence]. destruct (dget (n_paths n) c) as [p|] eqn:EP; [|left; congruence]. fold (climbs p) in H. destruct (climbs p) as [[names low]|] eqn:C; cbn [bind] in H; [|discriminate].
  destruct names as [|t [|? ?]]; [left; congruence| |left; congruence]. destruct (climbs_one p t low C) as (above & u & w & below & E & T & A & L). destruct (dget ts t) as [tr|] eqn:ET; cbn [of_opt bind] in H; [|discriminate]. destruct (high_of (rotate tr low)) as [high|] eqn:EH; cbn [bind] in H; [|discriminate].
  rewrite E in H. destruct (descend n _ _ high) as [tr2|] eqn:ED; cbn [bind] in H; [|discriminate]. injection H as <-. right. exists c, t, above, u, w, below, low, tr, (rotate tr low), tr2, high. split; [reflexivity|]. split; [split; [rewrite EP; now rewrite E|split; assumption]|]. auto 10.
Qed.
Lemma one_load_hit ts c0 t above u w below ts' : sole n c0 t above u w below -> one_load n ts (Some c0) = Ok ts' -> exists low tr tr1 tr2 high, 
  (clear n (w :: below) -> match below with _ :: _ => low = Some w | [] => low = None end) /\ dget ts t = Some tr /\ tr1 = rotate tr low /\ high_of tr1 = Ok high /\ descend n (pairs (above ++ u :: w :: below)) tr1 high = Ok tr2 /\ ts' = dset ts t tr2.
Proof.
  intros S H. unfold one_load in H. pose proof S as (EP & T0 & A). rewrite EP in H. fold (climbs (above ++ u :: w :: below)) in H. destruct (climbs (above ++ u :: w :: below)) as [st|] eqn:C; cbn [bind] in H; [|discriminate]. destruct (climbs_sole _ _ _ _ _ _ _ _ S EP C) as (low & ->).
  destruct (dget ts t) as [tr|] eqn:ET; cbn [of_opt bind] in H; [|discriminate]. destruct (high_of (rotate tr low)) as [high|] eqn:EH; cbn [bind] in H; [|discriminate]. destruct (descend n _ _ high) as [tr2|] eqn:ED; cbn [bind] in H; [|discriminate]. injection H as <-.
  exists low, tr, (rotate tr low), tr2, high. split; [|auto 10]. intros CL. 
  (* the low side depends on the part below only *)
  assert (G : forall ab st, (forall x y e, adjacent (ab ++ [u]) x y -> n_edge n x y = Some e -> ~ a_transformer e) -> climbs (ab ++ u :: w :: below) = Ok st -> climbs (w :: below) = Ok ([], snd st)).
  { induction ab as [|x ab IH]; intros st Q HC.
    - cbn [app] in HC. rewrite climbs_step in HC. destruct (climbs (w :: below)) as [[names l]|] eqn:CB; cbn [bind] in HC; [|discriminate]. unfold climb in HC. cbn [fst snd] in HC. destruct T0 as (e0 & E0 & T0 & N0). rewrite UN, E0 in HC. cbn [of_opt bind] in HC. apply counted_iff in T0. rewrite T0 in HC.
      assert (SN : climbs (u :: w :: below) = Ok (names ++ [e_name e0], l)). { rewrite climbs_step, CB. cbn [bind]. unfold climb. cbn [fst snd]. rewrite UN, E0. cbn [of_opt bind]. rewrite T0. destruct names; reflexivity. }
      assert (SU : sole n c0 t above u w below) by exact S. destruct names as [|a names]; [cbn [app] in HC; injection HC as <-; reflexivity|]. exfalso.
      assert (ZZ : forall q s, (forall x y e, adjacent q x y -> n_edge n x y = Some e -> ~ a_transformer e) -> climbs q = Ok s -> fst s = []).
      { induction q as [|x [|y r] IHq]; intros s Q' HQ; try (injection HQ as <-; reflexivity). rewrite climbs_step in HQ. destruct (climbs (y :: r)) as [[nm l']|] eqn:C'; cbn [bind] in HQ; [|discriminate]. unfold climb in HQ. cbn [fst snd] in HQ. destruct (n_edge n y x) as [e|] eqn:E; cbn [of_opt bind] in HQ; [|discriminate].
        assert (counted e = false) as CE. { destruct (counted e) eqn:CE; [|reflexivity]. exfalso. apply (Q' x y e); [exists [], r; reflexivity|now rewrite UN|now apply counted_iff]. }
        rewrite CE in HQ. injection HQ as <-. cbn [fst]. apply (IHq (nm, l')); [|reflexivity]. intros a' b e' (l1 & l2 & EQ) EE. apply (Q' a' b e'); [exists (x :: l1), l2; now rewrite EQ|exact EE]. }
      pose proof (ZZ _ _ (fun x y e AD => A x y e (or_intror AD)) CB) as X. discriminate X.
    - assert (exists y r, ab ++ u :: w :: below = y :: r /\ adjacent ((x :: ab) ++ [u]) x y) as (y & r & EQ & AD). { destruct ab as [|y ab]; [exists u, (w :: below); split; [reflexivity|exists [], []; reflexivity]|exists y, (ab ++ u :: w :: below); split; [reflexivity|exists [], (ab ++ [u]); reflexivity]]. }
      change ((x :: ab) ++ u :: w :: below) with (x :: (ab ++ u :: w :: below)) in HC. rewrite EQ in HC. rewrite climbs_step, <- EQ in HC. destruct (climbs (ab ++ u :: w :: below)) as [s|] eqn:CC; cbn [bind] in HC; [|discriminate].
      assert (QA : forall a b e', adjacent (ab ++ [u]) a b -> n_edge n a b = Some e' -> ~ a_transformer e'). { intros a b e' (l1 & l2 & QQ); apply Q; exists (x :: l1), l2; cbn; now rewrite QQ. }
      rewrite (IH s QA eq_refl). unfold climb in HC. cbn [fst snd] in HC. destruct (n_edge n y x) as [e|] eqn:E; cbn [of_opt bind] in HC; [|discriminate]. assert (counted e = false) as CE. { destruct (counted e) eqn:CE; [|reflexivity]. exfalso. apply (Q x y e); [exact AD|now rewrite UN|now apply counted_iff]. }
      rewrite CE in HC. injection HC as <-. cbn [snd]. destruct (fst s) as [|nm0 nms] eqn:FS; [|reflexivity]. exfalso.
      assert (SO : climbs (ab ++ u :: w :: below) = Ok s -> fst s <> []).
      { clear -T0 UN. revert s. induction ab as [|z ab IHz]; intros s HS HF.
        - cbn [app] in HS. rewrite climbs_step in HS. destruct (climbs (w :: below)) as [[nm l]|]; cbn [bind] in HS; [|discriminate]. unfold climb in HS. cbn [fst snd] in HS. destruct T0 as (e0 & E0 & T0 & N0). rewrite UN, E0 in HS. cbn [of_opt bind] in HS. apply counted_iff in T0. rewrite T0 in HS. injection HS as <-. cbn in HF. destruct nm; discriminate.
        - assert (exists y r, ab ++ u :: w :: below = y :: r) as (y & r & EQ) by (destruct ab; eexists; eexists; reflexivity). change ((z :: ab) ++ u :: w :: below) with (z :: (ab ++ u :: w :: below)) in HS. rewrite EQ in HS. rewrite climbs_step, <- EQ in HS. destruct (climbs (ab ++ u :: w :: below)) as [s0|] eqn:C0; cbn [bind] in HS; [|discriminate].
          unfold climb in HS. cbn [fst snd] in HS. destruct (n_edge n y z); cbn [of_opt bind] in HS; [|discriminate]. injection HS as <-. cbn [fst] in HF. apply (IHz s0 eq_refl). destruct (counted e); [destruct (fst s0); discriminate|exact HF]. }
      exact (SO CC FS). }
  pose proof (G above ([t], low) (fun x y e AD => A x y e (or_introl AD)) C) as CB. cbn [snd] in CB. destruct (climbs_none _ _ CB) as [_ B]. specialize (B CL). destruct below; exact B.
Qed.

(** Phases *)
Lemma single_spec l : single l = true <-> exists p, In p l /\ forall q, In q l -> q = p.
Proof.
  destruct l as [|x l]; cbn [single]; [split; [discriminate|intros (p & [] & _)]|]. rewrite forallb_forall. split.
  - intros H. exists x. split; [now left|]. intros q [->|Q]; [reflexivity|]. symmetry. apply phase_eqb_eq. now apply H.
  - intros (p & _ & H) y Y. apply phase_eqb_eq. rewrite (H x) by now left. symmetry. apply H. now right.
Qed.
Lemma subset_one h l : subset [h] l = true <-> In h l.
Proof. unfold subset. cbn [forallb]. rewrite andb_true_r. rewrite existsb_exists. split; [intros (x & X & E); apply phase_eqb_eq in E; now subst|intros I; exists h; split; [exact I|now apply phase_eqb_eq]]. Qed.
Lemma lines_single e l : filter (fun p => negb (phase_eqb p (Some "N"))) (e_wires e) = l -> forall p, (In p l /\ forall q, In q l -> q = p) <-> (p <> Some "N" /\ In p (e_wires e) /\ forall q, In q (e_wires e) -> q = p \/ q = Some "N").
Proof.
  intros <- p. rewrite filter_In, negb_true_iff, phase_eqb_neq. split.
  - intros ((A & B) & C). split; [exact B|]. split; [exact A|]. intros q Q. destruct (phase_eqb q (Some "N")) eqn:E; [right; now apply phase_eqb_eq|left]. apply C. apply filter_In. split; [exact Q|]. now rewrite E.
  - intros (A & B & C). split; [split; assumption|]. intros q Q. apply filter_In in Q. destruct Q as [Q NQ]. apply negb_true_iff, phase_eqb_neq in NQ. destruct (C q Q); [assumption|congruence].
Qed.
(** A transformer with one phase takes the phase of the lines with one phase. *)
Lemma descend_single p u0 w0 es rest : (forall x y, In (x, y) es -> forall q, single_line n x y q -> q = p) -> (exists e, n_edge n u0 w0 = Some e /\ a_transformer e) -> (forall x y e, In (x, y) es -> n_edge n x y = Some e -> ~ a_transformer e) ->
  forall t q h w t', t_windings t = [q] :: w -> q = h \/ q = p -> descend n (es ++ (u0, w0) :: rest) t [h] = Ok t' ->
  exists q', t_windings t' = [q'] :: w /\ (q = p -> q' = p) /\ ((exists x y, In (x, y) es /\ single_line n x y p) -> q' = p) /\ ((forall x y, In (x, y) es -> ~ single_line n x y p) -> q' = q).
Proof.
  intros HP (e0 & E0 & T0) NT. induction es as [|[x y] es IH]; intros t q h w t' EW J H.
  - cbn [app descend fst snd] in H. rewrite E0 in H. cbn [of_opt bind] in H. apply counted_iff in T0. rewrite T0 in H. injection H as <-. exists q. split; [exact EW|]. split; [auto|]. split; [intros (x & y & [] & _)|auto].
  - cbn [app descend fst snd] in H. destruct (n_edge n x y) as [e|] eqn:E; cbn [of_opt bind] in H; [|discriminate]. assert (counted e = false) as CE. { destruct (counted e) eqn:CE; [|reflexivity]. exfalso. apply (NT x y e); [now left|exact E|now apply counted_iff]. } rewrite CE in H.
    assert (IH' := IH (fun a b I => HP a b (or_intror I)) (fun a b e' I => NT a b e' (or_intror I))). clear IH.
    assert (NS : forall t1 q1 h1 t2, ~ single_line n x y p -> t_windings t1 = [q1] :: w -> q1 = h1 \/ q1 = p -> descend n (es ++ (u0, w0) :: rest) t1 [h1] = Ok t2 ->
      exists q', t_windings t2 = [q'] :: w /\ (q1 = p -> q' = p) /\ ((exists x0 y0, In (x0, y0) ((x, y) :: es) /\ single_line n x0 y0 p) -> q' = p) /\ ((forall x0 y0, In (x0, y0) ((x, y) :: es) -> ~ single_line n x0 y0 p) -> q' = q1)).
    { intros t1 q1 h1 t2 N W1 J1 D. destruct (IH' t1 q1 h1 w t2 W1 J1 D) as (q' & A & B & C & F). exists q'. split; [exact A|]. split; [exact B|]. split; [|intros G; apply F; intros a b I; apply G; now right]. intros (a & b & [I|I] & S); [injection I as <- <-; contradiction|apply C; now exists a, b]. }
    destruct (String.eqb (e_equipment e) "Line") eqn:EL; [apply String.eqb_eq in EL|apply String.eqb_neq in EL; eapply NS; try eassumption; intros (e' & E' & L & _); congruence].
    pose proof (lines_single e _ eq_refl) as LS. set (lp := filter (fun p => negb (phase_eqb p (Some "N"))) (e_wires e)) in *.
    assert (SL : forall r, single_line n x y r <-> (In r lp /\ forall q, In q lp -> q = r)). { intros r. rewrite LS. split; [intros (e' & E' & _ & S); assert (e' = e) by congruence; now subst|intros S; exists e; auto]. }
    destruct (single lp) eqn:ES.
    + apply single_spec in ES. destruct ES as (r & R). assert (r = p) by (apply (HP x y (or_introl eq_refl)); now apply SL). subst r. destruct (subset [h] lp) eqn:SB.
      * cbn [negb andb] in H. apply subset_one in SB. assert (h = p) by now apply R. subst h. assert (q = p) by now destruct J. subst q. destruct (IH' t p p w t' EW (or_introl eq_refl) H) as (q' & A & B & C & F). exists q'. split; [exact A|]. split; [exact B|]. split; [intros _; now apply B|intros _; now apply B].
      * assert (negb false && single [h] && true = true) as EE by reflexivity. rewrite EE in H. clear EE. unfold high_of in H. rewrite EW in H. cbn [nth_error of_opt bind] in H. destruct lp as [|r0 lp'] eqn:ELP; [destruct (proj1 R)|]. cbn [nth_error of_opt bind] in H. assert (r0 = p) by (apply (proj2 R); now left). subst r0.
        assert (W1 : t_windings (set_phase t p) = [p] :: w). { unfold set_phase. cbn [t_windings]. now rewrite EW. }
        destruct (IH' (set_phase t p) p q w t' W1 (or_intror eq_refl) H) as (q' & A & B & C & F). exists q'. split; [exact A|]. split; [auto|]. split; [intros _; now apply B|]. intros G. exfalso. apply (G x y (or_introl eq_refl)). now apply SL.
    + rewrite andb_false_r in H. eapply NS; try eassumption. intros S. apply SL in S. assert (single lp = true) by (apply single_spec; exists p; exact S). congruence.
Qed.
End Net.

Lemma related_refl t : related t t.
Proof. split; [left; now split|constructor]. Qed.
Lemma same_windings_trans a b c : same_windings a b -> same_windings b c -> same_windings a c.
Proof. intros A B. inversion A; subst; [exact B|]. inversion B; subst; constructor. Qed.
Lemma related_trans a b c : related a b -> related b c -> related a c.
Proof.
  intros [[[A1 A2]|[A1 A2]] AW] [[[B1 B2]|[B1 B2]] BW]; (split; [|eapply same_windings_trans; eassumption]).
  - left. split; congruence.
  - right. split; congruence.
  - right. split; congruence.
  - left. split; congruence.
Qed.

(** Only the sole transformer of a load is changed, and at most its ends swapped and the phase of its first phase winding set. *)
Theorem C117_changes : forall nets loads ts ts', Forall undirected nets -> fix_transformer_phase_path nets loads ts = Ok ts' ->
  forall t tr, dget ts t = Some tr -> exists tr', dget ts' t = Some tr' /\ related tr tr' /\
    ((forall n c above u w below, In n nets -> In (Some c) loads -> ~ sole n c t above u w below) -> tr' = tr).
Proof.
  intros nets loads ts ts' UN H t tr E. rewrite Forall_forall in UN.
  apply (foldM_inv (fun ts n => foldM (one_load n) loads ts) (fun s => exists tr', dget s t = Some tr' /\ related tr tr' /\ ((forall n c above u w below, In n nets -> In (Some c) loads -> ~ sole n c t above u w below) -> tr' = tr)) nets) with (s := ts); [|exists tr; split; [exact E|split; [apply related_refl|reflexivity]]|exact H].
  intros s n s' IN IS F. eapply (foldM_inv (one_load n) (fun s => exists tr', dget s t = Some tr' /\ related tr tr' /\ ((forall n c above u w below, In n nets -> In (Some c) loads -> ~ sole n c t above u w below) -> tr' = tr)) loads); [|exact IS|exact F].
  clear s s' IS F. intros s c s' IC (tr' & E' & R & N) F. destruct (one_load_spec n (UN n IN) _ _ _ F) as [->|(c0 & t0 & above & u & w & below & low & tr0 & tr1 & tr2 & high & -> & S & _ & E0 & R1 & _ & D & ->)]; [exists tr'; auto|].
  destruct (string_dec t t0) as [<-|NE].
  - exists tr2. rewrite dget_dset_same. split; [reflexivity|]. assert (tr0 = tr') by congruence. subst tr0. split; [|intros NO; exfalso; now apply (NO n c0 above u w below IN IC)].
    eapply related_trans; [exact R|]. destruct (rotate_ends tr' low) as [A B]. destruct (descend_ends n _ _ _ _ D) as [[C1 C2] CW]. subst tr1. eapply related_trans; [split; [exact A|rewrite B; constructor]|]. split; [left; now split|exact CW].
  - exists tr'. rewrite dget_dset_other by congruence. auto.
Qed.
Print Assumptions C117_changes.

(** A transformer that some load is below of, and that is joined to the node [w0] towards the loads, ends there, in whatever order the loads come. *)
Theorem C117_orientation : forall nets loads ts ts' t tr x w0, Forall undirected nets -> fix_transformer_phase_path nets loads ts = Ok ts' -> dget ts t = Some tr ->
  (t_from tr = Some x /\ t_to tr = Some w0) \/ (t_from tr = Some w0 /\ t_to tr = Some x) ->
  (forall n c above u w below, In n nets -> In (Some c) loads -> sole n c t above u w below -> clear n (w :: below) /\ (below = [] \/ w = w0)) ->
  (exists n c above u w below, In n nets /\ In (Some c) loads /\ sole n c t above u w below /\ below <> []) ->
  exists tr', dget ts' t = Some tr' /\ t_from tr' = Some x /\ t_to tr' = Some w0.
Proof.
  intros nets loads ts ts' t tr x w0 UN H E EN AL (n0 & c0 & above0 & u0 & w1 & below0 & IN0 & IC0 & S0 & B0). rewrite Forall_forall in UN.
  set (I := fun s => exists tr, dget s t = Some tr /\ ((t_from tr = Some x /\ t_to tr = Some w0) \/ (t_from tr = Some w0 /\ t_to tr = Some x))).
  set (P := fun s : list (string * transformer) => exists tr, dget s t = Some tr /\ t_from tr = Some x /\ t_to tr = Some w0).
  assert (RP : forall a low, (low = None \/ low = Some w0) -> (t_from a = Some x /\ t_to a = Some w0) -> (t_from (rotate a low) = Some x /\ t_to (rotate a low) = Some w0)).
  { intros a low L [A B]. unfold rotate, end_eqb. rewrite A, B. destruct L as [-> | ->]; cbn; [now split|rewrite String.eqb_refl; now split]. }
  assert (RS : forall a, (t_from a = Some w0 /\ t_to a = Some x) -> (t_from (rotate a (Some w0)) = Some x /\ t_to (rotate a (Some w0)) = Some w0)).
  { intros a [A B]. unfold rotate, end_eqb. rewrite A, B. cbn. destruct (String.eqb x w0) eqn:X; [apply String.eqb_eq in X; subst; now split|]. rewrite String.eqb_refl. cbn. now split. }
  assert (RN : forall a, (t_from a = Some w0 /\ t_to a = Some x) -> (t_from (rotate a None) = Some w0 /\ t_to (rotate a None) = Some x)).
  { intros a [A B]. unfold rotate, end_eqb. rewrite A, B. cbn. now split. }
  assert (LOW : forall n c above u w below low, In n nets -> In (Some c) loads -> sole n c t above u w below -> (clear n (w :: below) -> match below with _ :: _ => low = Some w | [] => low = None end) -> low = None \/ low = Some w0).
  { intros n c above u w below low A B C D. destruct (AL _ _ _ _ _ _ A B C) as [CL K]. specialize (D CL). destruct below; [now left|]. destruct K as [K| ->]; [discriminate|now right]. }
  assert (SI : forall n s c s', In n nets -> In c loads -> I s -> one_load n s c = Ok s' -> I s').
  { intros n s c s' IN IC (a & EA & A) F. destruct (one_load_spec n (UN n IN) _ _ _ F) as [->|(c1 & t1 & above & u & w & below & low & tr0 & tr1 & tr2 & high & -> & S & L & E1 & R1 & _ & D & ->)]; [exists a; auto|]. destruct (string_dec t t1) as [<-|NE]; [|exists a; rewrite dget_dset_other by congruence; auto].
    exists tr2. rewrite dget_dset_same. split; [reflexivity|]. assert (tr0 = a) by congruence. subst tr0 tr1. destruct (descend_ends n _ _ _ _ D) as [[C1 C2] _]. rewrite C1, C2. destruct (LOW _ _ _ _ _ _ _ IN IC S L) as [-> | ->]; destruct A as [A|A]; [left; now apply RP; [left|]|right; now apply RN|left; now apply RP; [right|]|left; now apply RS]. }
  assert (SP : forall n s c s', In n nets -> In c loads -> P s -> one_load n s c = Ok s' -> P s').
  { intros n s c s' IN IC (a & EA & A) F. destruct (one_load_spec n (UN n IN) _ _ _ F) as [->|(c1 & t1 & above & u & w & below & low & tr0 & tr1 & tr2 & high & -> & S & L & E1 & R1 & _ & D & ->)]; [exists a; auto|]. destruct (string_dec t t1) as [<-|NE]; [|exists a; rewrite dget_dset_other by congruence; auto].
    exists tr2. rewrite dget_dset_same. split; [reflexivity|]. assert (tr0 = a) by congruence. subst tr0 tr1. destruct (descend_ends n _ _ _ _ D) as [[C1 C2] _]. rewrite C1, C2. apply RP; [|exact A]. eapply LOW; eassumption. }
  assert (P ts') as (tr' & E' & A' & B'); [|now exists tr'].
  unfold fix_transformer_phase_path in H. eapply (foldM_hit (fun ts n => foldM (one_load n) loads ts) I P nets n0 IN0); [| | |exists tr; split; [exact E|exact EN]|exact H].
  - intros s n s' IN IS F. eapply (foldM_inv (one_load n) I loads); [|exact IS|exact F]. intros. eapply SI; eassumption.
  - intros s n s' IN IS F. eapply (foldM_inv (one_load n) P loads); [|exact IS|exact F]. intros. eapply SP; eassumption.
  - intros s s' IS F. eapply (foldM_hit (one_load n0) I P loads (Some c0) IC0); [| | |exact IS|exact F].
    + intros. eapply SI; eassumption.
    + intros. eapply SP; eassumption.
    + intros s1 s2 (a & EA & A) F1. destruct (one_load_hit n0 (UN n0 IN0) _ _ _ _ _ _ _ _ S0 F1) as (low & tr0 & tr1 & tr2 & high & L & E1 & R1 & _ & D & ->). exists tr2. rewrite dget_dset_same. split; [reflexivity|]. assert (tr0 = a) by congruence. subst tr0 tr1. destruct (descend_ends n0 _ _ _ _ D) as [[C1 C2] _]. rewrite C1, C2.
      destruct (AL _ _ _ _ _ _ IN0 IC0 S0) as [CL K]. specialize (L CL). destruct below0 as [|b below0]; [congruence|]. destruct K as [K| ->]; [discriminate|]. subst low. destruct A as [A|A]; [apply RP; [now right|exact A]|now apply RS].
Qed.
Print Assumptions C117_orientation.

(** A transformer with one phase has, in the end, the phase of the lines with one phase above it, if these agree. *)
Theorem C117_phase : forall nets loads ts ts' t tr q rest p, Forall undirected nets -> fix_transformer_phase_path nets loads ts = Ok ts' -> dget ts t = Some tr -> t_windings tr = [q] :: rest ->
  (forall n c above u w below x y r, In n nets -> In (Some c) loads -> sole n c t above u w below -> adjacent (above ++ [u]) x y -> single_line n x y r -> r = p) ->
  exists tr' q', dget ts' t = Some tr' /\ t_windings tr' = [q'] :: rest /\
    ((exists n c above u w below x y, In n nets /\ In (Some c) loads /\ sole n c t above u w below /\ adjacent (above ++ [u]) x y /\ single_line n x y p) -> q' = p) /\
    ((forall n c above u w below x y, In n nets -> In (Some c) loads -> sole n c t above u w below -> adjacent (above ++ [u]) x y -> ~ single_line n x y p) -> q' = q).
Proof.
  intros nets loads ts ts' t tr q rest p UN H E EW AL. rewrite Forall_forall in UN.
  set (I := fun s => exists a b, dget s t = Some a /\ t_windings a = [b] :: rest /\ ((forall n c above u w below x y, In n nets -> In (Some c) loads -> sole n c t above u w below -> adjacent (above ++ [u]) x y -> ~ single_line n x y p) -> b = q)).
  set (P := fun s : list (string * transformer) => exists a, dget s t = Some a /\ t_windings a = [p] :: rest).
  assert (HI : forall a low high, high_of (rotate a low) = Ok high -> forall b, t_windings a = [b] :: rest -> high = [b] /\ t_windings (rotate a low) = [b] :: rest).
  { intros a low high EH b W. destruct (rotate_ends a low) as [_ R]. unfold high_of in EH. rewrite R, W in EH. rewrite R, W. cbn in EH. injection EH as <-. now split. }
  assert (DE : forall n c above u w below a b low high tr2, In n nets -> In (Some c) loads -> sole n c t above u w below -> t_windings a = [b] :: rest -> high_of (rotate a low) = Ok high -> descend n (pairs (above ++ u :: w :: below)) (rotate a low) high = Ok tr2 ->
    exists b', t_windings tr2 = [b'] :: rest /\ (b = p -> b' = p) /\ ((exists x y, adjacent (above ++ [u]) x y /\ single_line n x y p) -> b' = p) /\ ((forall x y, adjacent (above ++ [u]) x y -> ~ single_line n x y p) -> b' = b)).
  { intros n c above u w below a b low high tr2 IN IC S W EH D. destruct (HI a low high EH b W) as [-> W']. rewrite pairs_app in D. change (pairs (u :: w :: below)) with ((u, w) :: pairs (w :: below)) in D. pose proof S as (_ & (e0 & E0 & T0 & _) & NT).
    destruct (descend_single n p u w (pairs (above ++ [u])) (pairs (w :: below))) with (t := rotate a low) (q := b) (h := b) (w := rest) (t' := tr2) as (b' & A1 & A2 & A3 & A4).
    - intros x y Q r SL. apply pairs_adjacent in Q. eapply AL; eassumption.
    - now exists e0.
    - intros x y e Q EE. apply pairs_adjacent in Q. apply (NT x y e); [now left|exact EE].
    - exact W'.
    - now left.
    - exact D.
    - exists b'. split; [exact A1|]. split; [exact A2|]. split; [intros (x & y & Q & SL); apply A3; exists x, y; split; [now apply pairs_adjacent|exact SL]|intros G; apply A4; intros x y Q; apply G; now apply pairs_adjacent]. }
  assert (SI : forall n s c s', In n nets -> In c loads -> I s -> one_load n s c = Ok s' -> I s').
  { intros n s c s' IN IC (a & b & EA & WA & NA) F. destruct (one_load_spec n (UN n IN) _ _ _ F) as [->|(c1 & t1 & above & u & w & below & low & tr0 & tr1 & tr2 & high & -> & S & _ & E1 & R1 & EH & D & ->)]; [exists a, b; auto|]. destruct (string_dec t t1) as [<-|NE]; [|exists a, b; rewrite dget_dset_other by congruence; auto].
    assert (tr0 = a) by congruence. subst tr0 tr1. destruct (DE _ _ _ _ _ _ _ _ _ _ _ IN IC S WA EH D) as (b' & A1 & _ & _ & A4). exists tr2, b'. rewrite dget_dset_same. split; [reflexivity|]. split; [exact A1|]. intros G. rewrite A4; [now apply NA|]. intros x y Q. eapply G; eassumption. }
  assert (SP : forall n s c s', In n nets -> In c loads -> P s -> one_load n s c = Ok s' -> P s').
  { intros n s c s' IN IC (a & EA & WA) F. destruct (one_load_spec n (UN n IN) _ _ _ F) as [->|(c1 & t1 & above & u & w & below & low & tr0 & tr1 & tr2 & high & -> & S & _ & E1 & R1 & EH & D & ->)]; [exists a; auto|]. destruct (string_dec t t1) as [<-|NE]; [|exists a; rewrite dget_dset_other by congruence; auto].
    assert (tr0 = a) by congruence. subst tr0 tr1. destruct (DE _ _ _ _ _ _ _ _ _ _ _ IN IC S WA EH D) as (b' & A1 & A2 & _). exists tr2. rewrite dget_dset_same. split; [reflexivity|]. rewrite A1. now rewrite A2. }
  assert (START : I ts) by (exists tr, q; auto).
  assert (I ts') as (a & b & EA & WA & NA). { unfold fix_transformer_phase_path in H. eapply (foldM_inv (fun ts n => foldM (one_load n) loads ts) I nets); [|exact START|exact H]. intros s n s' IN IS F. eapply (foldM_inv (one_load n) I loads); [|exact IS|exact F]. intros. eapply SI; eassumption. }
  exists a, b. split; [exact EA|]. split; [exact WA|]. split; [|exact NA]. intros (n0 & c0 & above0 & u0 & w0 & below0 & x0 & y0 & IN0 & IC0 & S0 & AD0 & SL0).
  assert (P ts') as (a' & EA' & WA'); [|assert (a' = a) by congruence; subst; congruence].
  unfold fix_transformer_phase_path in H. eapply (foldM_hit (fun ts n => foldM (one_load n) loads ts) I P nets n0 IN0); [| | |exact START|exact H].
  - intros s n s' IN IS F. eapply (foldM_inv (one_load n) I loads); [|exact IS|exact F]. intros. eapply SI; eassumption.
  - intros s n s' IN IS F. eapply (foldM_inv (one_load n) P loads); [|exact IS|exact F]. intros. eapply SP; eassumption.
  - intros s s' IS F. eapply (foldM_hit (one_load n0) I P loads (Some c0) IC0); [| | |exact IS|exact F].
    + intros. eapply SI; eassumption.
    + intros. eapply SP; eassumption.
    + intros s1 s2 (a1 & b1 & EA1 & WA1 & _) F1. destruct (one_load_hit n0 (UN n0 IN0) _ _ _ _ _ _ _ _ S0 F1) as (low & tr0 & tr1 & tr2 & high & _ & E1 & R1 & EH & D & ->). assert (tr0 = a1) by congruence. subst tr0 tr1. destruct (DE _ _ _ _ _ _ _ _ _ _ _ IN0 IC0 S0 WA1 EH D) as (b' & A1 & _ & A3 & _).
      exists tr2. rewrite dget_dset_same. split; [reflexivity|]. rewrite A1, A3; [reflexivity|]. now exists x0, y0.
Qed.
Print Assumptions C117_phase.

(** ** What goes wrong *)
(** A transformer right at its loads is never turned round. *)
Theorem C117_at_load_refuted : forall nets loads ts ts' t tr x w0, Forall undirected nets -> fix_transformer_phase_path nets loads ts = Ok ts' -> dget ts t = Some tr -> t_from tr = Some w0 -> t_to tr = Some x ->
  (forall n c above u w below, In n nets -> In (Some c) loads -> sole n c t above u w below -> below = [] /\ w = w0) -> exists tr', dget ts' t = Some tr' /\ t_from tr' = Some w0 /\ t_to tr' = Some x.
Proof.
  intros nets loads ts ts' t tr x w0 UN H E F T AL. rewrite Forall_forall in UN. unfold fix_transformer_phase_path in H.
  apply (foldM_inv (fun ts n => foldM (one_load n) loads ts) (fun s => exists tr', dget s t = Some tr' /\ t_from tr' = Some w0 /\ t_to tr' = Some x) nets) with (s := ts); [|now exists tr|exact H]. intros s n s' IN IS FO. eapply (foldM_inv (one_load n) (fun s => exists tr', dget s t = Some tr' /\ t_from tr' = Some w0 /\ t_to tr' = Some x) loads); [|exact IS|exact FO].
  clear s s' IS FO. intros s c s' IC (a & EA & FA & TA) FO. destruct (one_load_spec n (UN n IN) _ _ _ FO) as [->|(c1 & t1 & above & u & w & below & low & tr0 & tr1 & tr2 & high & -> & S & L & E1 & R1 & _ & D & ->)]; [now exists a|]. destruct (string_dec t t1) as [<-|NE]; [|exists a; rewrite dget_dset_other by congruence; auto].
  exists tr2. rewrite dget_dset_same. split; [reflexivity|]. assert (tr0 = a) by congruence. subst tr0 tr1. destruct (descend_ends n _ _ _ _ D) as [[C1 C2] _]. rewrite C1, C2. destruct (AL _ _ _ _ _ _ IN IC S) as [-> ->]. assert (low = None) as ->. { apply L. intros p y e Q. apply pairs_adjacent in Q. destruct Q. }
  unfold rotate, end_eqb. rewrite FA, TA. cbn. now split.
Qed.
Print Assumptions C117_at_load_refuted.

(** Of a transformer whose phase windings all have one wrong phase only the first phase winding is corrected. *)
Theorem C117_windings_refuted : forall nets loads ts ts' t tr q more rest p, Forall undirected nets -> fix_transformer_phase_path nets loads ts = Ok ts' -> dget ts t = Some tr -> t_windings tr = (q :: q :: more) :: rest -> q <> p ->
  exists tr' first, dget ts' t = Some tr' /\ t_windings tr' = (first :: q :: more) :: rest /\ ~ (forall r, In r (first :: q :: more) -> r = p).
Proof.
  intros nets loads ts ts' t tr q more rest p UN H E W N. destruct (C117_changes nets loads ts ts' UN H t tr E) as (tr' & E' & (_ & SW) & _). rewrite W in SW. inversion SW as [w EW|p0 q0 r0 w EW]; subst.
  - exists tr', q. split; [exact E'|]. split; [now symmetry|]. intros A. apply N. apply A. now left.
  - exists tr', q0. split; [exact E'|]. split; [now symmetry|]. intros A. apply N. apply A. right. now left.
Qed.
Print Assumptions C117_windings_refuted.

(** A transformer with the phase of the line next to it loses it to a line with another phase further up. *)
Theorem C117_stale_refuted : forall n x y z w t q p rest e1 e2 e3, t_windings t = [Some q] :: rest -> p <> q -> p <> "N" -> q <> "N" -> n_edge n x y = Some e1 -> e_equipment e1 = "Line" -> e_wires e1 = [Some p] -> n_edge n y z = Some e2 -> e_equipment e2 = "Line" -> e_wires e2 = [Some q] ->
  n_edge n z w = Some e3 -> a_transformer e3 -> descend n (pairs [x; y; z; w]) t [Some q] = Ok (set_phase t (Some p)).
Proof.
  intros n x y z w t q p rest e1 e2 e3 W N NP NQ E1 L1 W1 E2 L2 W2 E3 T3. apply counted_iff in T3. apply String.eqb_neq in N, NP, NQ.
  assert (C1 : counted e1 = false) by (unfold counted, is_transformer; now rewrite L1). assert (C2 : counted e2 = false) by (unfold counted, is_transformer; now rewrite L2). unfold pairs. cbn [descend fst snd]. rewrite E1. cbn [of_opt bind]. rewrite C1, L1, W1. cbn [filter phase_eqb negb String.eqb]. rewrite NP. cbn [negb].
  unfold subset. cbn [forallb existsb phase_eqb]. rewrite String.eqb_sym, N. unfold high_of. rewrite W. cbn. rewrite E2. cbn. rewrite C2, L2, W2. cbn. rewrite NQ. cbn. rewrite String.eqb_refl. cbn. rewrite E3. cbn. rewrite T3. reflexivity.
Qed.
Print Assumptions C117_stale_refuted.

(** ** The hypotheses can be met: s - a - b, transformer b - c, c - d with a load; the transformer is backwards and has the wrong phase. *)
Definition net0 : net :=
  let line ps := mkE "Line" false "l" ps in
  mkNet (fun x y => if String.ltb x y then dget [("ab", line [Some "B"; Some "N"]); ("as", line [Some "A"; Some "B"; Some "N"]); ("bc", mkE "PowerTransformer" false "t" []); ("cd", line [Some "A"])] (x ++ y)
                    else dget [("ab", line [Some "B"; Some "N"]); ("as", line [Some "A"; Some "B"; Some "N"]); ("bc", mkE "PowerTransformer" false "t" []); ("cd", line [Some "A"])] (y ++ x))
    [("s", ["s"]); ("a", ["s"; "a"]); ("d", ["s"; "a"; "b"; "c"; "d"])].
Example C117_hypotheses_met : fix_transformer_phase_path [net0] [Some "d"; None; Some "d"] [("t", mkT (Some "c") (Some "b") [[Some "A"]; [Some "A"]])] = Ok [("t", mkT (Some "b") (Some "c") [[Some "B"]; [Some "A"]])] /\
  sole net0 "d" "t" ["s"; "a"] "b" "c" ["d"] /\ single_line net0 "a" "b" (Some "B").
Proof.
  split; [reflexivity|]. split.
  - split; [reflexivity|]. split; [eexists; split; [reflexivity|]; split; [split|]; reflexivity|]. intros x y e [Q|Q]; apply pairs_adjacent in Q; cbn in Q.
    + destruct Q as [Q|[Q|[]]]; injection Q as <- <-; intros EE; injection EE as <-; intros [T _]; discriminate.
    + destruct Q as [Q|[]]; injection Q as <- <-; intros EE; injection EE as <-; intros [T _]; discriminate.
  - eexists. split; [reflexivity|]. split; [reflexivity|]. split; [discriminate|]. split; [now left|]. intros q [<-|[<-|[]]]; auto.
Qed.
