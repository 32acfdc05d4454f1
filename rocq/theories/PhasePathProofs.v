(** Proofs about check_transformer_phase_path. *)
From Coq Require Import Permutation.
From Verif Require Import Base BaseFacts StoreModel NetworkModel NetworkSpec NetworkProofs NetworkBfs
  NetworkQueries NetworkDown NetworkEdit NetworkTop ConsistencyModel ConsistencySpec PathProofs ConsistencyProofs RouteProofs.
Local Open Scope string_scope.
Local Open Scope nat_scope.
Local Open Scope list_scope.

(** ** Lists *)

Lemma picks_fun {A} (P : A -> Prop) l k k' : picks P l k -> picks P l k' -> k = k'.
Proof.
  intros H. revert k'. induction H as [|x l k Hx H IH|x l k Hx H IH]; intros k' H'; inversion H'; subst; try contradiction; [reflexivity| |auto].
  f_equal. auto.
Qed.
Lemma picks_app {A} (P : A -> Prop) l l' k k' : picks P l k -> picks P l' k' -> picks P (l ++ l') (k ++ k').
Proof. intros H. induction H; intros H'; cbn [app]; [exact H'|constructor; auto|constructor; auto]. Qed.
Lemma picks_rev {A} (P : A -> Prop) l k : picks P l k -> picks P (rev l) (rev k).
Proof.
  intros H. induction H as [|x l k Hx H IH|x l k Hx H IH]; cbn [rev]; [constructor| |].
  - apply picks_app; [exact IH|]. constructor; [exact Hx|constructor].
  - rewrite <- (app_nil_r (rev k)). apply picks_app; [exact IH|]. apply picks_no; [exact Hx|constructor].
Qed.
Lemma picks_none {A} (P : A -> Prop) l : picks P l [] <-> forall x, In x l -> ~ P x.
Proof.
  split.
  - intros H. remember [] as k eqn:E. revert E. induction H as [|x l k Hx H IH|x l k Hx H IH]; intros E y Hy; [destruct Hy|discriminate|].
    destruct Hy as [<-|Hy]; [exact Hx|]. exact (IH E y Hy).
  - induction l as [|x l IH]; intros H; [constructor|]. apply picks_no; [apply H; left; reflexivity|].
    apply IH. intros y Hy. apply H. right; exact Hy.
Qed.
Lemma picks_one {A} (P : A -> Prop) l t : picks P l [t] <-> exists a b, l = a ++ t :: b /\ P t /\ picks P a [] /\ picks P b [].
Proof.
  split.
  - intros H. remember [t] as k eqn:E. revert E. induction H as [|x l k Hx H IH|x l k Hx H IH]; intros E; [discriminate| |].
    + injection E as -> ->. exists [], l. split; [reflexivity|]. split; [exact Hx|]. split; [constructor|exact H].
    + destruct (IH E) as (a & b & -> & Ht & Ha & Hb). exists (x :: a), b. split; [reflexivity|]. split; [exact Ht|].
      split; [apply picks_no; assumption|exact Hb].
  - intros (a & b & -> & Ht & Ha & Hb). change [t] with ([] ++ [t]). apply picks_app; [exact Ha|]. constructor; assumption.
Qed.

Lemma Forall2_app_inv_l' {A B} (R : A -> B -> Prop) l1 l2 l :
  Forall2 R l (l1 ++ l2) -> exists k1 k2, l = k1 ++ k2 /\ Forall2 R k1 l1 /\ Forall2 R k2 l2.
Proof.
  revert l. induction l1 as [|x l1 IH]; intros l H.
  - exists [], l. split; [reflexivity|]. split; [constructor|exact H].
  - cbn [app] in H. inversion H as [|y z k ? Hy Hk]; subst. destruct (IH _ Hk) as (k1 & k2 & -> & H1 & H2).
    exists (y :: k1), k2. split; [reflexivity|]. split; [constructor; assumption|exact H2].
Qed.
Lemma Forall2_len {A B} (R : A -> B -> Prop) l k : Forall2 R l k -> length l = length k.
Proof. intros H. induction H; cbn [length]; congruence. Qed.
Lemma Forall2_rev' {A B} (R : A -> B -> Prop) l k : Forall2 R l k -> Forall2 R (rev l) (rev k).
Proof.
  intros H. induction H as [|x y l k Hx H IH]; cbn [rev]; [constructor|]. apply Forall2_app; [exact IH|]. constructor; [exact Hx|constructor].
Qed.

Lemma foldM_each {A B} (f : A -> B -> res A) l a r x : foldM f l a = Ok r -> In x l -> exists a' r', f a' x = Ok r'.
Proof.
  revert a. induction l as [|y l IH]; intros a H Hx; [destruct Hx|]. cbn [foldM] in H.
  destruct (f a y) as [a'|] eqn:E; [|discriminate]. destruct Hx as [<-|Hx]; [eauto|]. exact (IH a' H Hx).
Qed.

Lemma hops_nth p : forall k h, nth_error (hops p) k = Some h -> nth_error p k = Some (fst h).
Proof.
  induction p as [|a p IH]; intros k h H; [destruct k; discriminate|].
  destruct p as [|b p]; [destruct k; discriminate|].
  destruct k as [|k]; [cbn in H; injection H as <-; reflexivity|]. apply IH. exact H.
Qed.

(** ** One path, given the elements on it *)

Definition dtx (c : cobj) : bool :=
  String.eqb (e_cls (c_e c)) "PowerTransformer" && match c_sub c with Some (Some true) => false | _ => true end.
Definition ptx (c : cobj) : bool := String.eqb (e_cls (c_e c)) "PowerTransformer".
Definition nm (c : cobj) : string := match c_name c with Some x => x | None => "" end.

Lemma dtx_spec c : dtx c = true <-> distribution c.
Proof.
  unfold dtx, distribution, is_transformer. rewrite andb_true_iff, String.eqb_eq.
  destruct (c_sub c) as [[[]|]|]; intuition congruence.
Qed.
Lemma ptx_spec c : ptx c = true <-> is_transformer c.
Proof. unfold ptx, is_transformer. apply String.eqb_eq. Qed.

Lemma dt_info c d : distribution_transformer (info_of c) = Ok d -> d = dtx c.
Proof.
  unfold distribution_transformer, info_of, dtx. cbn [i_cls i_sub]. destruct (String.eqb _ _); [|intros E; injection E as <-; reflexivity].
  destruct (c_sub c) as [[[]|]|]; intros E; [injection E as <-..|discriminate]; reflexivity.
Qed.
Lemma dt_info_ok c : (is_transformer c -> c_sub c <> None) -> distribution_transformer (info_of c) = Ok (dtx c).
Proof.
  intros H. unfold distribution_transformer, info_of, dtx. cbn [i_cls i_sub]. destruct (String.eqb_spec (e_cls (c_e c)) "PowerTransformer") as [E|_]; [|reflexivity].
  specialize (H E). destruct (c_sub c) as [[[]|]|]; try reflexivity. congruence.
Qed.

Section Path.
Variable el : string -> string -> res info.
Definition okh (h : string * string) (c : cobj) : Prop :=
  el (fst h) (snd h) = Ok (info_of c) /\ el (snd h) (fst h) = Ok (info_of c).

Fixpoint lowval (L : list (string * string)) (C : list cobj) (low : option string) : option string :=
  match L, C with
  | h :: L', c :: C' => if dtx c then low else lowval L' C' (if ptx c then low else Some (fst h))
  | _, _ => low
  end.

Lemma scan_spec L C : Forall2 okh L C -> forall ts low ts' low',
  foldM (scan_step el) L (ts, low) = Ok (ts', low') ->
  exists D, picks distribution C D /\ ts' = ts ++ map nm D /\ low' = match ts with [] => lowval L C low | _ => low end.
Proof.
  intros F. induction F as [|h c L C [_ Hb] F IH]; intros ts low ts' low' H; cbn [foldM] in H.
  - injection H as <- <-. exists []. split; [constructor|]. split; [rewrite app_nil_r; reflexivity|]. destruct ts; reflexivity.
  - unfold scan_step in H at 1. rewrite Hb in H. cbn [bind fst snd] in H.
    destruct (distribution_transformer (info_of c)) as [d|] eqn:Ed; cbn [bind] in H; [|discriminate].
    apply dt_info in Ed. subst d. cbn [i_name info_of of_opt bind] in H.
    destruct (dtx c) eqn:Ed; cbn [bind] in H.
    + replace (match ts ++ [nm c] with [] => if String.eqb (i_cls (info_of c)) "PowerTransformer" then low else Some (fst h) | _ :: _ => low end)
        with low in H by (destruct ts; reflexivity).
      apply IH in H as (D & P & E1 & E2). exists (c :: D). split; [constructor; [apply dtx_spec; exact Ed|exact P]|].
      split; [rewrite E1, <- app_assoc; reflexivity|]. destruct ts as [|x ts]; cbn [app] in E2; cbn [lowval]; [rewrite Ed|]; exact E2.
    + apply IH in H as (D & P & E1 & E2). exists D. split; [apply picks_no; [rewrite <- dtx_spec, Ed; discriminate|exact P]|].
      split; [exact E1|]. destruct ts as [|x ts]; cbn [lowval]; [rewrite Ed|]; exact E2.
Qed.

Lemma scan_ok L C : Forall2 okh L C -> (forall c, In c C -> is_transformer c -> c_sub c <> None) ->
  forall st, exists r, foldM (scan_step el) L st = Ok r.
Proof.
  intros F. induction F as [|h c L C [_ Hb] F IH]; intros Hs st; cbn [foldM]; [eauto|].
  unfold scan_step at 1. rewrite Hb. cbn [bind]. rewrite dt_info_ok by (apply Hs; left; reflexivity). cbn [bind].
  cbn [i_name info_of of_opt bind]. assert (Hs' : forall c0, In c0 C -> is_transformer c0 -> c_sub c0 <> None) by (intros x Hx; apply Hs; right; exact Hx).
  destruct (dtx c); cbn [bind]; apply IH; exact Hs'.
Qed.

Fixpoint low_of (L : list (string * string)) (C : list cobj) : option string :=
  match L, C with
  | h :: L', c :: C' => if ptx c then low_of L' C' else Some (fst h)
  | _, _ => None
  end.

Lemma lowval_snoc L C h c low : length L = length C -> (forall x, In x (C ++ [c]) -> dtx x = false) ->
  forall ht t L' C', dtx t = true ->
  lowval ((L ++ [h]) ++ ht :: L') ((C ++ [c]) ++ t :: C') low =
  if ptx c then lowval (L ++ ht :: L') (C ++ t :: C') low else Some (fst h).
Proof.
  revert C low. induction L as [|h0 L IH]; intros [|c0 C] low E N ht t L' C' Ht; try discriminate.
  - cbn [app lowval]. rewrite (N c) by (left; reflexivity). rewrite Ht. reflexivity.
  - cbn [app lowval]. rewrite (N c0) by (left; reflexivity). cbn [app] in N.
    rewrite (IH C); [reflexivity|cbn in E; lia|intros x Hx; apply N; right; exact Hx|exact Ht].
Qed.

Lemma lowval_low_of L C ht t L' C' : length L = length C -> (forall x, In x C -> dtx x = false) -> dtx t = true ->
  lowval (rev L ++ ht :: L') (rev C ++ t :: C') None = low_of L C.
Proof.
  revert C. induction L as [|h L IH]; intros [|c C] E N Ht; try discriminate.
  - cbn [rev app lowval low_of]. rewrite Ht. reflexivity.
  - cbn [rev low_of]. rewrite lowval_snoc; [|rewrite !rev_length; cbn in E; lia| |exact Ht].
    + destruct (ptx c); [|reflexivity]. apply IH; [cbn in E; lia|intros x Hx; apply N; right; exact Hx|exact Ht].
    + intros x Hx. apply N. apply in_app_iff in Hx as [Hx|[<-|[]]]; [right; apply in_rev; exact Hx|left; reflexivity].
Qed.

Lemma low_of_end p up down hu ht hd : hops p = hu ++ ht :: hd -> length hu = length up -> length hd = length down ->
  forall y, low_end p up down y <-> low_of hd down = y.
Proof.
  intros Eh Eu Ed.
  assert (Hn : forall j h, nth_error hd j = Some h -> nth_error p (S (length up) + j) = Some (fst h)).
  { intros j h H. apply hops_nth. rewrite Eh. rewrite <- Eu. rewrite nth_error_app2 by lia.
    replace (S (length hu) + j - length hu) with (S j) by lia. exact H. }
  assert (G : forall skip0 hs0 hd' down', hd = hs0 ++ hd' -> down = skip0 ++ down' -> length hs0 = length skip0 ->
    Forall is_transformer skip0 -> low_end p up down (low_of hd' down')).
  { intros skip0 hs0 hd'. revert skip0 hs0. induction hd' as [|h hd' IH]; intros skip0 hs0 [|c down'] E1 E2 E3 F.
    - cbn [low_of]. right. split; [|reflexivity]. rewrite E2, app_nil_r. exact F.
    - exfalso. rewrite E1, E2, !app_length in Ed. cbn [length] in Ed. lia.
    - exfalso. rewrite E1, E2, !app_length in Ed. cbn [length] in Ed. lia.
    - cbn [low_of]. destruct (ptx c) eqn:Ec.
      + apply (IH (skip0 ++ [c]) (hs0 ++ [h])); [rewrite <- app_assoc; exact E1|rewrite <- app_assoc; exact E2|rewrite !app_length; cbn; lia|].
        apply Forall_app. split; [exact F|]. constructor; [apply ptx_spec; exact Ec|constructor].
      + left. exists skip0, c, down', (fst h). split; [exact E2|]. split; [exact F|]. split; [rewrite <- ptx_spec, Ec; discriminate|].
        split; [reflexivity|]. apply Hn. rewrite E1, nth_error_app2 by lia. rewrite E3, Nat.sub_diag. reflexivity. }
  assert (G0 := G [] [] hd down eq_refl eq_refl eq_refl (Forall_nil _)).
  assert (U : forall y y', low_end p up down y -> low_end p up down y' -> y = y').
  { intros y y' [(s1 & d1 & r1 & x1 & E1 & F1 & N1 & Y1 & H1)|[F1 Y1]] [(s2 & d2 & r2 & x2 & E2 & F2 & N2 & Y2 & H2)|[F2 Y2]].
    - assert (Q : s1 = s2).
      { rewrite E1 in E2. clear - E2 F1 N1 F2 N2. revert s2 F2 E2. induction F1 as [|a s1 Ha F1 IH]; intros [|b s2] F2 E; cbn [app] in E.
        - reflexivity.
        - injection E as -> _. inversion F2; subst. contradiction.
        - injection E as <- _. contradiction.
        - injection E as <- E. inversion F2; subst. f_equal. auto. }
      subst s2. congruence.
    - exfalso. rewrite E1 in F2. apply Forall_app in F2 as [_ F2]. inversion F2; subst. contradiction.
    - exfalso. rewrite E2 in F1. apply Forall_app in F1 as [_ F1]. inversion F1; subst. contradiction.
    - congruence. }
  intros y. split; [intros H; apply U; assumption|intros <-; exact G0].
Qed.

Lemma low_side_spec L A ht t L' lp : Forall2 okh L A -> okh ht t -> (forall x, In x A -> dtx x = false) -> dtx t = true ->
  forall a, low_side_ok el lp (L ++ ht :: L') = Ok a ->
  (a = true <-> forall d w, In d A -> line_with d w -> forall x, In x (conductors w) <-> In x lp).
Proof.
  intros F Ho N Ht. induction F as [|h c L A [_ Hb] F IH]; intros a H; cbn [app low_side_ok] in H.
  - rewrite (proj2 Ho) in H. cbn [bind] in H. destruct (distribution_transformer (info_of t)) as [d|] eqn:Ed; cbn [bind] in H; [|discriminate].
    apply dt_info in Ed. subst d. rewrite Ht in H. injection H as <-. split; [intros _ d w []|reflexivity].
  - rewrite Hb in H. cbn [bind] in H. destruct (distribution_transformer (info_of c)) as [d|] eqn:Ed; cbn [bind] in H; [|discriminate].
    apply dt_info in Ed. subst d. rewrite (N c (or_introl eq_refl)) in H.
    assert (N' : forall x, In x A -> dtx x = false) by (intros x Hx; apply N; right; exact Hx).
    cbn [i_cls i_wires info_of] in H. destruct (String.eqb_spec (e_cls (c_e c)) "Line") as [El|El].
    + destruct (c_wires c) as [[ws|]|] eqn:Ew; cbn [bind] in H; [|discriminate|discriminate].
      change (line_phases ws) with (conductors ws) in H.
      destruct (same_set (conductors ws) lp) eqn:Es.
      * apply (IH N') in H. rewrite H. rewrite same_set_spec in Es. split.
        -- intros Q d w [<-|Hd] [L1 L2]; [rewrite Ew in L2; injection L2 as <-; exact Es|]. apply (Q d w Hd). split; assumption.
        -- intros Q d w Hd Hw. apply (Q d w); [right; exact Hd|exact Hw].
      * injection H as <-. split; [discriminate|]. intros Q. rewrite <- Es. apply same_set_spec.
        apply (Q c ws); [left; reflexivity|split; assumption].
    + apply (IH N') in H. rewrite H. split.
      * intros Q d w [<-|Hd] [L1 L2]; [contradiction|]. apply (Q d w Hd). split; assumption.
      * intros Q d w Hd Hw. apply (Q d w); [right; exact Hd|exact Hw].
Qed.

Lemma low_side_total L A ht t L' lp : Forall2 okh L A -> okh ht t -> (forall x, In x A -> dtx x = false) -> dtx t = true ->
  (forall c, In c (t :: A) -> is_transformer c -> c_sub c <> None) ->
  (forall c, In c A -> e_cls (c_e c) = "Line" -> exists ws, c_wires c = Some (Some ws)) ->
  exists a, low_side_ok el lp (L ++ ht :: L') = Ok a.
Proof.
  intros F Ho N Ht Hs Hw. induction F as [|h c L A [_ Hb] F IH]; cbn [app low_side_ok].
  - rewrite (proj2 Ho). cbn [bind]. rewrite dt_info_ok by (apply Hs; left; reflexivity). cbn [bind]. rewrite Ht. eauto.
  - rewrite Hb. cbn [bind]. rewrite dt_info_ok by (apply Hs; right; left; reflexivity). cbn [bind]. rewrite (N c (or_introl eq_refl)).
    assert (I : exists a, low_side_ok el lp (L ++ ht :: L') = Ok a).
    { apply IH; [intros x Hx; apply N; right; exact Hx|intros x [<-|Hx]; apply Hs; simpl; auto|intros x Hx; apply Hw; right; exact Hx]. }
    cbn [i_cls i_wires info_of]. destruct (String.eqb_spec (e_cls (c_e c)) "Line") as [El|El]; [|exact I].
    destruct (Hw c (or_introl eq_refl) El) as [ws Ew]. rewrite Ew. cbn [bind]. destruct (same_set _ _); [exact I|eauto].
Qed.

Lemma narrowing_line k c ws cs : line_with c ws ->
  (narrowing k (c :: cs) <-> length (conductors ws) <= k /\ narrowing (length (conductors ws)) cs).
Proof.
  intros L. split.
  - intros H. inversion H as [|? ? ws' ? L' H1 H2|? ? ? N H2]; subst; [|exfalso; exact (N _ L)].
    destruct L as [_ L], L' as [_ L']. assert (ws = ws') by congruence. subst. auto.
  - intros [H1 H2]. econstructor; eauto.
Qed.
Lemma narrowing_other k c cs : (forall ws, ~ line_with c ws) -> (narrowing k (c :: cs) <-> narrowing k cs).
Proof.
  intros N. split.
  - intros H. inversion H as [|? ? ws' ? L' H1 H2|? ? ? _ H2]; subst; [exfalso; exact (N _ L')|exact H2].
  - intros H. apply narrow_other; assumption.
Qed.

Lemma high_side_spec hp L A ht t L' : Forall2 okh L A -> okh ht t -> (forall x, In x A -> dtx x = false) -> dtx t = true ->
  forall k a, high_side_ok el (Some hp) k (L ++ ht :: L') = Ok a ->
  (a = true <-> (forall d w, In d A -> line_with d w -> incl hp (conductors w)) /\ narrowing k A).
Proof.
  intros F Ho N Ht. induction F as [|h c L A [Hb _] F IH]; intros k a H; cbn [app high_side_ok] in H.
  - rewrite (proj1 Ho) in H. cbn [bind] in H. destruct (distribution_transformer (info_of t)) as [d|] eqn:Ed; cbn [bind] in H; [|discriminate].
    apply dt_info in Ed. subst d. rewrite Ht in H. injection H as <-. split; [intros _; split; [intros d w []|constructor]|reflexivity].
  - rewrite Hb in H. cbn [bind] in H. destruct (distribution_transformer (info_of c)) as [d|] eqn:Ed; cbn [bind] in H; [|discriminate].
    apply dt_info in Ed. subst d. rewrite (N c (or_introl eq_refl)) in H.
    assert (N' : forall x, In x A -> dtx x = false) by (intros x Hx; apply N; right; exact Hx).
    cbn [i_cls i_wires info_of] in H.
    assert (Skip : (forall ws, ~ line_with c ws) -> high_side_ok el (Some hp) k (L ++ ht :: L') = Ok a ->
      (a = true <-> (forall d w, In d (c :: A) -> line_with d w -> incl hp (conductors w)) /\ narrowing k (c :: A))).
    { intros Nl Hk. apply (IH N') in Hk. rewrite Hk, (narrowing_other _ _ _ Nl). split.
      - intros [Q1 Q2]. split; [|exact Q2]. intros d w [<-|Hd] Hw; [exfalso; exact (Nl _ Hw)|eauto].
      - intros [Q1 Q2]. split; [|exact Q2]. intros d w Hd. apply Q1. right; exact Hd. }
    destruct (String.eqb_spec (e_cls (c_e c)) "Line") as [El|El].
    + destruct (c_wires c) as [[ws|]|] eqn:Ew; [|discriminate|].
      * assert (Lc : line_with c ws) by (split; assumption).
        change (line_phases ws) with (conductors ws) in H. rewrite (narrowing_line _ _ _ _ Lc).
        destruct (subset hp (conductors ws)) eqn:Es; cbn [negb] in H.
        -- apply subset_incl in Es. destruct (Nat.ltb_spec k (length (conductors ws))) as [Lt|Ge].
           ++ injection H as <-. split; [discriminate|]. intros [_ [Q _]]. lia.
           ++ apply (IH N') in H. rewrite H. split.
              ** intros [Q1 Q2]. split; [|split; [lia|exact Q2]]. intros d w [<-|Hd] Hw; [|eauto].
                 destruct Hw as [_ Hw]. assert (w = ws) by congruence. subst. exact Es.
              ** intros [Q1 [_ Q2]]. split; [|exact Q2]. intros d w Hd. apply Q1. right; exact Hd.
        -- injection H as <-. split; [discriminate|]. intros [Q _]. rewrite <- Es. apply subset_incl.
           apply (Q c ws); [left; reflexivity|exact Lc].
      * apply Skip; [|exact H]. intros ws [_ Q]. congruence.
    + apply Skip; [|exact H]. intros ws [Q _]. contradiction.
Qed.

Lemma free_side_spec L A : Forall2 okh L A -> forall k a, high_side_ok el None k L = Ok a -> (a = true <-> narrowing k A).
Proof.
  intros F. induction F as [|h c L A [Hb _] F IH]; intros k a H; cbn [high_side_ok] in H.
  - injection H as <-. split; [intros _; constructor|reflexivity].
  - rewrite Hb in H. cbn [bind] in H. cbn [i_cls i_wires info_of] in H.
    destruct (String.eqb_spec (e_cls (c_e c)) "Line") as [El|El].
    + destruct (c_wires c) as [[ws|]|] eqn:Ew; [|discriminate|].
      * assert (Lc : line_with c ws) by (split; assumption).
        change (line_phases ws) with (conductors ws) in H. rewrite (narrowing_line _ _ _ _ Lc).
        destruct (Nat.ltb_spec k (length (conductors ws))) as [Lt|Ge].
        -- injection H as <-. split; [discriminate|]. intros [Q _]. lia.
        -- apply IH in H. rewrite H. split; [intros Q; split; [lia|exact Q]|intros [_ Q]; exact Q].
      * rewrite narrowing_other by (intros ws [_ Q]; congruence). apply IH. exact H.
    + rewrite narrowing_other by (intros ws [Q _]; contradiction). apply IH. exact H.
Qed.

Lemma high_side_total hp L A : Forall2 okh L A ->
  (forall c, In c A -> is_transformer c -> c_sub c <> None) ->
  (forall c, In c A -> e_cls (c_e c) = "Line" -> exists ws, c_wires c = Some (Some ws)) ->
  forall k, exists a, high_side_ok el hp k L = Ok a.
Proof.
  intros F. induction F as [|h c L A [Hb _] F IH]; intros Hs Hw k; cbn [high_side_ok]; [eauto|].
  rewrite Hb. cbn [bind].
  assert (I : forall k, exists a, high_side_ok el hp k L = Ok a).
  { apply IH; [intros x Hx; apply Hs; right; exact Hx|intros x Hx; apply Hw; right; exact Hx]. }
  destruct hp as [hp|].
  - rewrite dt_info_ok by (apply Hs; left; reflexivity). cbn [bind]. destruct (dtx c); [eauto|].
    cbn [i_cls i_wires info_of]. destruct (String.eqb_spec (e_cls (c_e c)) "Line") as [El|El]; [|apply I].
    destruct (Hw c (or_introl eq_refl) El) as [ws Ew]. rewrite Ew. destruct (negb _); [eauto|]. destruct (_ <? _); [eauto|apply I].
  - cbn [bind]. cbn [i_cls i_wires info_of]. destruct (String.eqb_spec (e_cls (c_e c)) "Line") as [El|El]; [|apply I].
    destruct (Hw c (or_introl eq_refl) El) as [ws Ew]. rewrite Ew. destruct (_ <? _); [eauto|apply I].
Qed.

Lemma rev_one_inv {A} (P : A -> Prop) l t : picks P (rev l) [t] -> exists a b, l = a ++ t :: b /\ P t /\ picks P a [] /\ picks P b [].
Proof. intros H. apply picks_rev in H. rewrite rev_involutive in H. apply picks_one. exact H. Qed.

Lemma split_unique (a a' b b' : list cobj) x x' : (forall z, In z a -> ~ distribution z) -> (forall z, In z a' -> ~ distribution z) ->
  distribution x -> distribution x' -> a ++ x :: b = a' ++ x' :: b' -> a = a' /\ x = x' /\ b = b'.
Proof.
  revert a'. induction a as [|y a IH]; intros [|y' a'] N N' D D' E; cbn [app] in E.
  - injection E as -> ->. auto.
  - injection E as -> _. exfalso. exact (N' _ (or_introl eq_refl) D).
  - injection E as <- _. exfalso. exact (N _ (or_introl eq_refl) D').
  - injection E as <- E. destruct (IH a') as (-> & -> & ->); auto; intros z Hz; [apply N|apply N']; right; exact Hz.
Qed.

Lemma passes_spec names needs p cs ok :
  Forall2 okh (hops p) cs -> (forall c, In c cs -> is_transformer c -> names (nm c) = Some c) ->
  load_passes names el needs p = Ok ok -> (ok = true <-> accepts_route needs p cs).
Proof.
  intros F Hn H. unfold load_passes, scan in H.
  destruct (foldM (scan_step el) (rev (hops p)) ([], None)) as [[ts low]|] eqn:Es; cbn [bind] in H; [|discriminate].
  destruct (scan_spec _ _ (Forall2_rev' _ _ _ F) _ _ _ _ Es) as (D' & P' & E1 & E2). cbn [app] in E1. cbv iota in E2.
  assert (P : picks distribution cs (rev D')) by (apply picks_rev in P'; rewrite rev_involutive in P'; exact P').
  destruct D' as [|t [|u [|v D']]]; cbn [map] in E1; subst ts.
  - destruct (high_side_ok el None 3 (hops p)) as [a|] eqn:Eh; cbn [bind] in H; [|discriminate]. injection H as <-.
    rewrite andb_true_iff, (free_side_spec _ _ F _ _ Eh). unfold accepts_route. cbn [rev] in P. split.
    + intros [Q1 Q2]. left. split; [exact P|]. split; [destruct needs; [discriminate|reflexivity]|exact Q2].
    + intros [(_ & -> & Q)|[(up & t & down & h & l & ws & hp & lp & -> & Ht & _)|(t & u & Q)]].
      * auto.
      * exfalso. rewrite picks_none in P. apply (P t); [apply in_app_iff; right; left; reflexivity|exact Ht].
      * discriminate (picks_fun _ _ _ _ P Q).
  - cbn [rev app] in P. apply picks_one in P as (up & down & -> & Ht & Pu & Pd).
    destruct (Forall2_app_inv_l' _ _ _ _ F) as (hu & hr & Ehops & Fu & Fr). inversion Fr as [|ht ? hd ? Oht Fd]; subst.
    assert (Nu : forall x, In x up -> dtx x = false).
    { intros x Hx. apply not_true_is_false. intros Q. apply dtx_spec in Q. exact (proj1 (picks_none _ _) Pu x Hx Q). }
    assert (Nd : forall x, In x down -> dtx x = false).
    { intros x Hx. apply not_true_is_false. intros Q. apply dtx_spec in Q. exact (proj1 (picks_none _ _) Pd x Hx Q). }
    assert (Tt : dtx t = true) by (apply dtx_spec; exact Ht).
    destruct (match hops p with h :: _ => do i <- el (snd h) (fst h); of_opt EKey (i_name i) | [] => Ok (nm t) end) as [first|]; cbn [bind] in H; [|discriminate].
    rewrite (Hn t) in H by (try (apply in_app_iff; right; left; reflexivity); apply Ht). cbn [of_opt bind] in H.
    unfold use in H. destruct (c_windings t) as [[ws|]|] eqn:Ew; cbn [bind] in H; [|discriminate|discriminate].
    unfold nth_winding, winding_phases in H.
    destruct ws as [|h [|l ws]]; cbn [nth_error of_opt bind] in H; [discriminate|discriminate|].
    destruct (wd_phases l) as [lp|] eqn:El; cbn [of_opt bind] in H; [|discriminate].
    destruct (wd_phases h) as [hp|] eqn:Eh; cbn [of_opt bind] in H; [|discriminate].
    assert (Er : rev (hops p) = rev hd ++ ht :: rev hu).
    { rewrite Ehops, rev_app_distr. cbn [rev]. rewrite <- app_assoc. reflexivity. }
    rewrite Er in H. destruct (low_side_ok el lp (rev hd ++ ht :: rev hu)) as [a|] eqn:Ea; cbn [bind] in H; [|discriminate].
    rewrite Ehops in H. destruct (high_side_ok el (Some hp) 3 (hu ++ ht :: hd)) as [b|] eqn:Eb; cbn [bind] in H; [|discriminate].
    injection H as <-.
    apply (low_side_spec (rev hd) (rev down) ht t (rev hu) lp (Forall2_rev' _ _ _ Fd) Oht) in Ea;
      [|intros x Hx; apply Nd, in_rev; exact Hx|exact Tt].
    apply (high_side_spec hp hu up ht t hd Fu Oht Nu Tt) in Eb.
    assert (Lh : length hd = length down) by (eapply Forall2_len; exact Fd).
    assert (Lu : length hu = length up) by (eapply Forall2_len; exact Fu).
    assert (Elow : low_of hd down = lowval (rev (hops p)) (rev (up ++ t :: down)) None).
    { rewrite Er, rev_app_distr. cbn [rev]. rewrite <- app_assoc. cbn [app]. symmetry. apply lowval_low_of; auto. }
    rewrite !andb_true_iff, okey_eqb_spec, Ea, Eb. unfold accepts_route.
    assert (P1 : picks distribution (up ++ t :: down) [t]).
    { apply picks_one. exists up, down. auto. }
    assert (LE := low_of_end p up down hu ht hd Ehops Lu Lh (e_to (c_e t))).
    split.
    + intros [[Q1 Q2] [Q3 Q4]]. right; left. exists up, t, down, h, l, ws, hp, lp.
      split; [reflexivity|]. split; [exact Ht|]. split; [exact Pu|]. split; [exact Pd|].
      split; [apply LE; congruence|]. split; [exact Ew|]. split; [exact Eh|]. split; [exact El|].
      split; [intros d w Hd; apply Q2; apply in_rev in Hd; exact Hd|]. split; [exact Q3|exact Q4].
    + intros [(Q & _)|[(up' & t' & down' & h' & l' & ws' & hp' & lp' & E & Ht' & Pu' & Pd' & Q1 & Q2 & Q3 & Q4 & Q5 & Q6 & Q7)|(t' & u & Q)]].
      * discriminate (picks_fun _ _ _ _ P1 Q).
      *
        destruct (split_unique _ _ _ _ _ _ (proj1 (picks_none _ _) Pu) (proj1 (picks_none _ _) Pu') Ht Ht' E) as (-> & -> & ->).
        rewrite Ew in Q2. injection Q2 as <- <- <-. rewrite Eh in Q3. injection Q3 as <-. rewrite El in Q4. injection Q4 as <-.
        apply LE in Q1. split; [split; [congruence|]|split; assumption]. intros d w Hd. apply Q5. apply in_rev. exact Hd.
      * discriminate (picks_fun _ _ _ _ P1 Q).
  - injection H as <-. split; [|reflexivity]. intros _. right; right. exists u, t. exact P.
  - injection H as <-. split; [discriminate|]. intros Q. exfalso.
    assert (L : 3 <= length (rev (t :: u :: v :: D'))) by (rewrite rev_length; cbn; lia).
    destruct Q as [(Q & _)|[(up & x & down & h & l & ws & hp & lp & Ec & Hx & Pu & Pd & _)|(x & y & Q)]].
    + rewrite (picks_fun _ _ _ _ P Q) in L. cbn in L. lia.
    + assert (Q : picks distribution cs [x]) by (apply picks_one; exists up, down; auto).
      rewrite (picks_fun _ _ _ _ P Q) in L. cbn in L. lia.
    + rewrite (picks_fun _ _ _ _ P Q) in L. cbn in L. lia.
Qed.

Lemma passes_ok names needs p cs : Forall2 okh (hops p) cs ->
  (forall c, In c cs -> is_transformer c -> names (nm c) = Some c) -> (forall c, In c cs -> readable c) ->
  exists ok, load_passes names el needs p = Ok ok.
Proof.
  intros F Hn Hr. unfold load_passes, scan.
  assert (Hs : forall c, In c cs -> is_transformer c -> c_sub c <> None) by (intros c Hc; apply (Hr c Hc)).
  assert (Hw : forall c, In c cs -> e_cls (c_e c) = "Line" -> exists ws, c_wires c = Some (Some ws)) by (intros c Hc; apply (Hr c Hc)).
  destruct (scan_ok _ _ (Forall2_rev' _ _ _ F) (fun c Hc => Hs c (proj2 (in_rev _ _) Hc)) ([], None)) as [[ts low] Es].
  rewrite Es. cbn [bind].
  destruct (scan_spec _ _ (Forall2_rev' _ _ _ F) _ _ _ _ Es) as (D' & P' & E1 & E2). cbn [app] in E1.
  destruct D' as [|t [|u [|v D']]]; cbn [map] in E1; subst ts; [|  |eauto|eauto].
  - destruct (high_side_total None _ _ F Hs Hw 3) as [a Ea]. rewrite Ea. cbn [bind]. eauto.
  - apply rev_one_inv in P' as (up & down & -> & Ht & Pu & Pd).
    destruct (Forall2_app_inv_l' _ _ _ _ F) as (hu & hr & Ehops & Fu & Fr). inversion Fr as [|ht ? hd ? Oht Fd]; subst.
    assert (It : In t (up ++ t :: down)) by (apply in_app_iff; right; left; reflexivity).
    assert (X : exists x, match hops p with h :: _ => do i <- el (snd h) (fst h); of_opt EKey (i_name i) | [] => Ok (nm t) end = Ok x).
    { destruct (hops p) as [|h0 hs]; [eauto|]. inversion F as [|? c0 ? ? [_ Hb] _]; subst. rewrite Hb. cbn. eauto. }
    destruct X as [x Ex]. rewrite Ex. cbn [bind]. rewrite (Hn t It (proj1 Ht)). cbn [of_opt bind].
    destruct (Hr t It) as (_ & _ & Hwd & _). destruct (Hwd Ht) as (h & l & ws & Ew & Wh & Wl).
    unfold use. rewrite Ew. cbn [bind]. unfold nth_winding, winding_phases. cbn [nth_error of_opt bind].
    destruct (wd_phases l) as [lp|]; [|congruence]. destruct (wd_phases h) as [hp|]; [|congruence]. cbn [of_opt bind].
    assert (Nd : forall y, In y (rev down) -> dtx y = false).
    { intros y Hy. apply in_rev in Hy. apply not_true_is_false. intros Q. apply dtx_spec in Q. exact (proj1 (picks_none _ _) Pd y Hy Q). }
    assert (Er : rev (hops p) = rev hd ++ ht :: rev hu).
    { rewrite Ehops, rev_app_distr. cbn [rev]. rewrite <- app_assoc. reflexivity. }
    destruct (low_side_total (rev hd) (rev down) ht t (rev hu) lp (Forall2_rev' _ _ _ Fd) Oht Nd) as [a Ea].
    { apply dtx_spec. exact Ht. }
    { intros c [<-|Hc]; apply Hs; [exact It|]. apply in_rev in Hc. apply in_app_iff. right; right; exact Hc. }
    { intros c Hc. apply Hw. apply in_rev in Hc. apply in_app_iff. right; right; exact Hc. }
    rewrite Er, Ea. cbn [bind]. destruct (high_side_total (Some hp) _ _ F Hs Hw 3) as [b Eb]. rewrite Eb. cbn [bind]. eauto.
Qed.
End Path.

(** ** Routes and their objects *)

Lemma along_unique m p cs cs' : one_per_link m -> along m p cs -> along m p cs' -> cs = cs'.
Proof.
  intros O H. revert cs'. induction H as [a|a b p c cs Hc Hj H IH]; intros cs' H'; inversion H'; subst; [reflexivity|].
  f_equal; [eapply link_unique; eauto|auto].
Qed.

Lemma along_exists m p : p <> [] -> steps (closed_link (objs m)) p -> exists cs, along m p cs.
Proof.
  induction p as [|a p IH]; [congruence|]. intros _ H. destruct p as [|b p]; [exists []; constructor|].
  destruct H as [[(i & Hi & Hj) _] H]. apply in_map_iff in Hi as (c & <- & Hc).
  destruct IH as [cs Hcs]; [discriminate|exact H|]. exists (c :: cs). constructor; auto.
Qed.

Lemma along_In m p cs c : along m p cs -> In c cs -> In c m.
Proof. intros H. induction H; [intros []|intros [<-|Hc]; auto]. Qed.

Section Routes.
Variables (m : list cobj) (s : string) (n n' : network).
Hypothesis K : closed m s n n'.
Hypothesis Rad : radial m.
Hypothesis One : one_per_link m.
Hypothesis Named : all_named (objs m).

Lemma objects_on a p cs : reach (linked (objs m)) s a -> steps (closed_link (objs m)) (a :: p) -> along m (a :: p) cs ->
  (forall h, In h (hops (a :: p)) -> exists i, element m n n' (snd h) (fst h) = Ok i) ->
  Forall2 (okh (element m n n')) (hops (a :: p)) cs /\ forall c, In c cs -> exists x, c_name c = Some x.
Proof.
  revert a cs. induction p as [|b p IH]; intros a cs Hr Hs Ha He.
  - inversion Ha; subst. split; [constructor|intros c []].
  - inversion Ha as [|? ? ? c cs' Hc Hj Ha']; subst. destruct Hs as [Hab Hs].
    assert (Hrb : reach (linked (objs m)) s b) by (eapply reach_step; [exact Hr|apply Hab]).
    destruct (IH b cs' Hrb Hs Ha') as [I1 I2]; [intros h Hh; apply He; right; exact Hh|].
    destruct (He (a, b) (or_introl eq_refl)) as [i Hi]. cbn [fst snd] in Hi.
    destruct (element_spec m s n n' K Rad One Named b a c Hrb (closed_sym _ _ _ Hab) Hc (joins_sym _ _ _ Hj)) as [(S1 & E1 & x & Ex)|[_ E1]]; [|congruence].
    destruct (element_spec m s n n' K Rad One Named a b c Hr Hab Hc Hj) as [(S2 & E2 & _)|[N2 _]]; [|exfalso; apply N2; tauto].
    split.
    + cbn [hops]. constructor; [split; assumption|exact I1].
    + intros c' [<-|Hc']; [eauto|auto].
Qed.

Lemma objects_readable a p cs : reach (linked (objs m)) s a -> steps (closed_link (objs m)) (a :: p) -> along m (a :: p) cs ->
  (forall c, In c cs -> e_conn (c_e c) = None) ->
  forall h, In h (hops (a :: p)) -> exists i, element m n n' (snd h) (fst h) = Ok i.
Proof.
  revert a cs. induction p as [|b p IH]; intros a cs Hr Hs Ha He h Hh; [destruct Hh|].
  inversion Ha as [|? ? ? c cs' Hc Hj Ha']; subst. destruct Hs as [Hab Hs].
  assert (Hrb : reach (linked (objs m)) s b) by (eapply reach_step; [exact Hr|apply Hab]).
  destruct Hh as [<-|Hh]; [|apply (IH b cs' Hrb Hs Ha'); [intros x Hx; apply He; right; exact Hx|exact Hh]].
  cbn [fst snd].
  destruct (element_spec m s n n' K Rad One Named b a c Hrb (closed_sym _ _ _ Hab) Hc (joins_sym _ _ _ Hj)) as [(S1 & E1 & x & Ex)|[N1 E1]]; [eauto|].
  exfalso. apply N1. specialize (He c (or_introl eq_refl)). destruct Hj as [Hj|[Hj|[[Hj _]|[Hj _]]]]; [tauto|tauto|congruence|congruence].
Qed.

Lemma closed_unique x p q : simple_route (closed_link (objs m)) s x p -> simple_route (closed_link (objs m)) s x q -> p = q.
Proof.
  intros H1 H2. apply (simple_unique (linked (objs m)) (linked_sym (objs m)) Rad s x).
  - destruct H1 as [(r & E & L & S) N]. split; [|exact N]. exists r. split; [exact E|]. split; [exact L|].
    eapply steps_mono; [|exact S]. intros u v H. apply H.
  - destruct H2 as [(r & E & L & S) N]. split; [|exact N]. exists r. split; [exact E|]. split; [exact L|].
    eapply steps_mono; [|exact S]. intros u v H. apply H.
Qed.

(** The path of a load is the only simple route to it. *)
Lemma path_is_route ps x p : shortest_paths (net_graph n') s = Ok ps -> dget ps x = Some p ->
  exists q, p = s :: q /\ simple_route (closed_link (objs m)) s x p /\ steps (closed_link (objs m)) p.
Proof.
  intros Eps Hp. destruct (closed_paths _ _ _ _ K) as (ps' & E & _ & H & _). rewrite Eps in E. injection E as <-.
  apply H, shortest_simple in Hp. destruct Hp as [(q & Eq & L & S) N]. exists q. split; [exact Eq|].
  split; [|exact S]. split; [|exact N]. exists q. auto.
Qed.

Lemma route_is_path ps x p : shortest_paths (net_graph n') s = Ok ps -> simple_route (closed_link (objs m)) s x p -> dget ps x = Some p.
Proof.
  intros Eps Hp. destruct (closed_paths _ _ _ _ K) as (ps' & E & H1 & H2 & _). rewrite Eps in E. injection E as <-.
  assert (R : reach (closed_link (objs m)) s x) by (apply route_reach; exists p; apply Hp).
  apply H1 in R. destruct (dget ps x) as [q|] eqn:Eq; [|congruence]. f_equal.
  apply (closed_unique x); [|exact Hp]. apply shortest_simple, H2. exact Eq.
Qed.

Lemma scan_elements el p r : scan el p = Ok r -> forall h, In h (hops p) -> exists i, el (snd h) (fst h) = Ok i.
Proof.
  intros H h Hh. unfold scan in H. destruct (foldM_each _ _ _ _ h H) as (a & r' & E); [apply in_rev in Hh; exact Hh|].
  unfold scan_step in E. destruct (el (snd h) (fst h)); [eauto|discriminate].
Qed.
End Routes.

Theorem phase_path_result ord names needs m : (forall l, Permutation (ord l) l) ->
  radial m -> one_per_link m -> all_named (objs m) ->
  (forall c x, In c m -> is_transformer c -> e_name (c_e c) = Some (Some x) -> names x = Some c) ->
  forall b, check_transformer_phase_path ord names needs m = Ok b ->
  (b = true <-> (exists c s, In c m /\ source_at c s) /\
     forall c s l x p cs, In c m -> source_at c s -> In l m -> is_load l -> e_conn (c_e l) = Some x ->
       simple_route (closed_link (objs m)) s x p -> along m p cs -> accepts_route needs p cs).
Proof.
  intros Ord Rad One Named Hnames b H. unfold check_transformer_phase_path in H.
  assert (HN : forall cs p, along m p cs -> (forall c, In c cs -> exists x, c_name c = Some x) ->
     forall c, In c cs -> is_transformer c -> names (nm c) = Some c).
  { intros cs p Ha Hx c Hc Ht. destruct (Hx c Hc) as [x Ex]. unfold nm. rewrite Ex. apply Hnames; [exact (along_In _ _ _ _ Ha Hc)|exact Ht|].
    unfold c_name in Ex. destruct (e_name (c_e c)); congruence. }
  destruct (sources m) as [|s0 srcs] eqn:Es.
  { injection H as <-. split; [discriminate|]. intros [(c & s & Hc & Hs) _].
    assert (Q : In c (sources m)) by (apply in_sources; rewrite (source_at_bus _ _ Hs); auto). rewrite Es in Q. destruct Q. }
  rewrite <- Es in H.
  assert (G : forall srcs r, (forall c, In c srcs -> In c (sources m)) ->
    foldM (fun r src =>
        do '(n, n') <- closed_network m (source_bus src);
        do ps <- shortest_paths (net_graph n') (source_bus src);
        foldM (fun r c =>
            match e_conn (c_e c) with
            | None => Ok r
            | Some x => match dget ps x with
                        | None => Ok r
                        | Some p => do ok <- load_passes names (element m n n') needs p; Ok (r && ok)
                        end
            end) (ord (loads m)) r) srcs r = Ok b ->
    (b = true <-> r = true /\ forall c l x p cs, In c srcs -> In l (loads m) -> e_conn (c_e l) = Some x ->
       simple_route (closed_link (objs m)) (source_bus c) x p -> along m p cs -> accepts_route needs p cs)).
  { clear H Es s0 srcs. induction srcs as [|c srcs IH]; intros r Hs H; cbn [foldM] in H.
    - injection H as <-. split; [intros ->; split; [reflexivity|intros c l x p cs []]|tauto].
    - destruct (closed_network m (source_bus c)) as [[n n']|] eqn:Ec; cbn [bind] in H; [|discriminate].
      assert (K := closed_network_spec _ _ _ _ Ec).
      destruct (shortest_paths (net_graph n') (source_bus c)) as [ps|] eqn:Eps; cbn [bind] in H; [|discriminate].
      destruct (foldM _ (ord (loads m)) r) as [r1|] eqn:E1; [|discriminate].
      apply IH in H; [|intros y Hy; apply Hs; right; exact Hy].
      assert (G1 : r1 = true <-> r = true /\ forall l x p cs, In l (loads m) -> e_conn (c_e l) = Some x ->
         simple_route (closed_link (objs m)) (source_bus c) x p -> along m p cs -> accepts_route needs p cs).
      { assert (G2 : forall ls r, foldM (fun r c0 =>
            match e_conn (c_e c0) with
            | None => Ok r
            | Some x => match dget ps x with
                        | None => Ok r
                        | Some p => do ok <- load_passes names (element m n n') needs p; Ok (r && ok)
                        end
            end) ls r = Ok r1 ->
          (r1 = true <-> r = true /\ forall l x p cs, In l ls -> e_conn (c_e l) = Some x ->
           simple_route (closed_link (objs m)) (source_bus c) x p -> along m p cs -> accepts_route needs p cs)).
        { clear - K Eps Rad One Named HN. induction ls as [|l ls IH]; intros r H; cbn [foldM] in H.
          - injection H as <-. split; [intros ->; split; [reflexivity|intros l x p cs []]|tauto].
          - destruct (e_conn (c_e l)) as [x|] eqn:Ex.
            + destruct (dget ps x) as [p|] eqn:Ep.
              * destruct (load_passes names (element m n n') needs p) as [ok|] eqn:Eok; cbn [bind] in H; [|discriminate].
                apply IH in H. rewrite H. clear H.
                destruct (path_is_route m (source_bus c) n n' K ps x p Eps Ep) as (q & Eq & Hp & Sp).
                destruct (along_exists m p) as [cs Hcs]; [rewrite Eq; discriminate|exact Sp|].
                assert (Hel : forall h, In h (hops p) -> exists i, element m n n' (snd h) (fst h) = Ok i).
                { unfold load_passes in Eok. destruct (scan (element m n n') p) as [st|] eqn:Esc; [|discriminate].
                  exact (scan_elements _ _ _ Esc). }
                rewrite Eq in Hel, Sp, Hcs. destruct (objects_on m (source_bus c) n n' K Rad One Named _ _ _ (reach_refl _ _) Sp Hcs Hel) as [F Hx].
                rewrite <- Eq in F, Hcs. assert (PS := passes_spec _ names needs p cs ok F (HN cs p Hcs Hx) Eok).
                rewrite andb_true_iff, PS. split.
                -- intros [[Q1 Q2] Q3]. split; [exact Q1|]. intros l' x' p' cs' [<-|Hl] Ex' Hp' Hcs'; [|eauto].
                   assert (x' = x) by congruence. subst x'. assert (p' = p) by (eapply (closed_unique m (source_bus c) Rad); eauto). subst p'.
                   rewrite (along_unique m p cs' cs One Hcs' Hcs). exact Q2.
                -- intros [Q1 Q2]. split; [split; [exact Q1|]|].
                   ++ exact (Q2 l x p cs (or_introl eq_refl) Ex Hp Hcs).
                   ++ intros l' x' p' cs' Hl. apply (Q2 l'). right; exact Hl.
              * apply IH in H. rewrite H. split; intros [Q1 Q2]; (split; [exact Q1|]).
                -- intros l' x' p' cs' [<-|Hl] Ex' Hp'; [|eauto]. exfalso. assert (x' = x) by congruence. subst x'.
                   rewrite (route_is_path m (source_bus c) n n' K Rad ps x p' Eps Hp') in Ep. discriminate.
                -- intros l' x' p' cs' Hl. apply (Q2 l'). right; exact Hl.
            + apply IH in H. rewrite H. split; intros [Q1 Q2]; (split; [exact Q1|]).
              * intros l' x' p' cs' [<-|Hl] Ex'; [congruence|eauto].
              * intros l' x' p' cs' Hl. apply (Q2 l'). right; exact Hl. }
        rewrite (G2 _ _ E1). split; intros [Q1 Q2]; (split; [exact Q1|]); intros l x p cs Hl; apply Q2;
          (eapply Permutation_in; [|exact Hl]); [symmetry|]; apply Ord. }
      rewrite H, G1. split.
      + intros [[Q1 Q2] Q3]. split; [exact Q1|]. intros c' l x p cs [<-|Hc']; [apply Q2|apply Q3; exact Hc'].
      + intros [Q1 Q2]. split; [split; [exact Q1|]|].
        * intros l x p cs. apply (Q2 c). left; reflexivity.
        * intros c' l x p cs Hc'. apply (Q2 c'). right; exact Hc'. }
  apply G in H; [|auto]. rewrite H. split.
  - intros [_ Q]. split.
    + exists s0, (source_bus s0). apply in_sources. rewrite Es. left; reflexivity.
    + intros c s l x p cs Hc Hs Hl Hl' Ex Hp. rewrite <- (source_at_bus _ _ Hs) in Hp.
      apply (Q c l x p cs); [apply in_sources; rewrite (source_at_bus _ _ Hs); auto|apply in_loads; auto|exact Ex|exact Hp].
  - intros [_ Q]. split; [reflexivity|]. intros c l x p cs Hc Hl. apply in_sources in Hc as [Hc1 Hc2]. apply in_loads in Hl as [Hl1 Hl2].
    exact (Q c (source_bus c) l x p cs Hc1 Hc2 Hl1 Hl2).
Qed.

Theorem phase_path_ok ord names needs m : (forall l, Permutation (ord l) l) ->
  buildable m -> radial m -> one_per_link m ->
  (forall c x, In c m -> is_transformer c -> e_name (c_e c) = Some (Some x) -> names x = Some c) ->
  (forall c s l x p cs, In c m -> source_at c s -> In l m -> is_load l -> e_conn (c_e l) = Some x ->
     simple_route (closed_link (objs m)) s x p -> along m p cs -> forall d, In d cs -> readable d) ->
  exists b, check_transformer_phase_path ord names needs m = Ok b.
Proof.
  intros Ord B Rad One Hnames Hread. assert (Named := proj1 B). unfold check_transformer_phase_path.
  assert (Hs : forall c, In c (sources m) -> In c (sources m)) by auto.
  destruct (sources m) as [|s0 srcs] eqn:Es; [eauto|]. rewrite <- Es in *. clear Es s0 srcs.
  revert Hs. generalize true. generalize (sources m) at 1 3. intros srcs.
  induction srcs as [|c srcs IH]; intros r Hs; cbn [foldM]; [eauto|].
  destruct (proj1 (in_sources m c) (Hs c (or_introl eq_refl))) as [Hc1 Hc2].
  destruct (closed_network_ok m c _ B Hc1 Hc2) as (n & n' & Ec). rewrite Ec. cbn [bind].
  assert (K := closed_network_spec _ _ _ _ Ec). destruct (closed_paths _ _ _ _ K) as (ps & Eps & _). rewrite Eps. cbn [bind].
  match goal with |- exists b, match ?F with Ok _ => _ | Err _ => _ end = _ => assert (X : exists r1, F = Ok r1) end.
  { assert (Hl : forall l, In l (ord (loads m)) -> In l m /\ is_load l).
    { intros l H. apply in_loads. eapply Permutation_in; [apply Ord|exact H]. }
    revert r Hl. generalize (ord (loads m)). induction l as [|l ls IHl]; intros r Hl; cbn [foldM]; [eauto|].
    assert (Hl' : forall l0, In l0 ls -> In l0 m /\ is_load l0) by (intros z Hz; apply Hl; right; exact Hz).
    destruct (e_conn (c_e l)) as [x|] eqn:Ex; [|apply IHl; exact Hl']. destruct (dget ps x) as [p|] eqn:Ep; [|apply IHl; exact Hl'].
    destruct (Hl l (or_introl eq_refl)) as [Hm Hld].
    destruct (path_is_route m (source_bus c) n n' K ps x p Eps Ep) as (q & Eq & Hp & Sp).
    destruct (along_exists m p) as [cs Hcs]; [rewrite Eq; discriminate|exact Sp|].
    assert (Rd := Hread c _ l x p cs Hc1 Hc2 Hm Hld Ex Hp Hcs).
    assert (Hcs' := Hcs). rewrite Eq in Sp, Hcs'.
    assert (Hel := objects_readable m (source_bus c) n n' K Rad One Named _ _ _ (reach_refl _ _) Sp Hcs' (fun d Hd => proj1 (Rd d Hd))).
    destruct (objects_on m (source_bus c) n n' K Rad One Named _ _ _ (reach_refl _ _) Sp Hcs' Hel) as [F Hx].
    rewrite <- Eq in F. destruct (passes_ok _ names needs p cs F) as [ok Eok]; [|exact Rd|].
    - intros d Hd Ht. destruct (Hx d Hd) as [z Ez]. unfold nm. rewrite Ez. apply Hnames; [exact (along_In _ _ _ _ Hcs Hd)|exact Ht|].
      unfold c_name in Ez. destruct (e_name (c_e d)); congruence.
    - rewrite Eok. cbn [bind]. apply IHl. exact Hl'. }
  destruct X as [r1 E1]. rewrite E1. apply IH. intros y Hy. apply Hs. right; exact Hy.
Qed.
