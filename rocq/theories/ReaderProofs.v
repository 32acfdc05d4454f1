(** Proofs about the base reader. *)
From Verif Require Import Base BaseFacts ReaderModel ReaderSpec.
Local Open Scope string_scope.
Local Open Scope list_scope.

(** ** combine *)

Section Combine.
Context {V : Type}.
Notation D := (list (string * V)).

Lemma dict_update_dget (d e : D) k : NoDup (map fst e) ->
  dget (dict_update d e) k = match dget e k with Some v => Some v | None => dget d k end.
Proof.
  unfold dict_update. revert d. induction e as [|[a v] e IH]; intros d N; cbn [fold_left dget fst snd]; [reflexivity|].
  cbn [map fst] in N. inversion N as [|? ? N1 N2]; subst. rewrite (IH _ N2). destruct (String.eqb a k) eqn:E.
  - apply String.eqb_eq in E. subst. destruct (dget e k) as [w|] eqn:Ek; [exfalso; apply N1; exact (dget_Some_key _ _ _ Ek)|apply dget_dset_same].
  - destruct (dget e k); [reflexivity|]. apply dget_dset_other. apply String.eqb_neq. exact E.
Qed.
Lemma dict_update_NoDup (d e : D) : NoDup (map fst d) -> NoDup (map fst (dict_update d e)).
Proof. unfold dict_update. revert d. induction e as [|[a v] e IH]; intros d N; cbn [fold_left]; [exact N|]. apply IH. apply dset_NoDup. exact N. Qed.

Lemma combine_spec (ds : list D) (acc : D) k : (forall d, In d ds -> NoDup (map fst d)) ->
  (exists v, last_value ds k v /\ dget (fold_left dict_update ds acc) k = Some v) \/
  ((forall d, In d ds -> dget d k = None) /\ dget (fold_left dict_update ds acc) k = dget acc k).
Proof.
  revert acc. induction ds as [|d ds IH]; intros acc N; cbn [fold_left].
  - right. split; [intros d []|reflexivity].
  - destruct (IH (dict_update acc d) (fun e He => N e (or_intror He))) as [(v & (b & e & a & E & Ev & Ha) & Q)|[Hn Q]].
    + left. exists v. split; [|exact Q]. exists (d :: b), e, a. split; [now rewrite E|]. auto.
    + rewrite Q, dict_update_dget by (apply N; left; reflexivity). destruct (dget d k) as [v|] eqn:Ed.
      * left. exists v. split; [|reflexivity]. exists [], d, ds. split; [reflexivity|]. auto.
      * right. split; [|reflexivity]. intros e [<-|He]; [exact Ed|apply Hn; exact He].
Qed.
Lemma combine_NoDup (ds : list D) : forall acc, NoDup (map fst acc) -> NoDup (map fst (fold_left dict_update ds acc)).
Proof. induction ds as [|d ds IH]; intros acc N; cbn [fold_left]; [exact N|]. apply IH. apply dict_update_NoDup. exact N. Qed.
Lemma last_value_fun (ds : list D) k v w : last_value ds k v -> last_value ds k w -> v = w.
Proof.
  revert v w. induction ds as [|d ds IH]; intros v w (b & e & a & E & Ev & Ha) (b' & e' & a' & E' & Ev' & Ha').
  - destruct b; discriminate.
  - destruct b as [|x b], b' as [|x' b']; cbn in E, E'; injection E as E1 E2; injection E' as E1' E2'; subst.
    + congruence.
    + exfalso. assert (Z : dget e' k = None) by (apply Ha; apply in_app_iff; right; left; reflexivity). congruence.
    + exfalso. assert (Z : dget e k = None) by (apply Ha'; apply in_app_iff; right; left; reflexivity). congruence.
    + apply IH; [exists b, e, a|exists b', e', a']; auto.
Qed.

(** ** update_dict *)

Notation H := (heap V).
Lemma nth_hset (h : H) r d s : nth_error (hset h r d) s = if Nat.eqb r s then (match nth_error h r with Some _ => Some d | None => None end) else nth_error h s.
Proof.
  revert r s. induction h as [|x h IH]; intros [|r] [|s]; cbn; try reflexivity.
  - destruct (Nat.eqb r s); reflexivity.
  - apply IH.
Qed.
Lemma hset_length (h : H) r d : length (hset h r d) = length h.
Proof. revert r. induction h as [|x h IH]; intros [|r]; cbn; auto. Qed.


Lemma update_dict_run d2 : forall (h : H) d1,
  separate h d1 d2 ->
  exists h' d', update_dict h d1 d2 = Ok (h', d') /\ length h' = length h /\
    (forall k l, at2 h' d' k l = match at2 h d2 k l with Some v => Some v | None => at2 h d1 k l end) /\
    (forall k, (In k (map fst d1) \/ In k (map fst d2)) <-> In k (map fst d')) /\
    (forall r, (forall k, In (k, r) d1 -> ~ In k (map fst d2)) -> nth_error h' r = nth_error h r).
Proof.
  unfold update_dict. induction d2 as [|[k2 r2] d2 IH]; intros h d1 (N1 & N2 & R & Sep & I1 & I2 & W); cbn [foldM].
  - exists h, d1. split; [reflexivity|]. split; [reflexivity|]. split; [intros k l; reflexivity|]. split; [cbn; intuition|reflexivity].
  - cbn [map fst] in N2. inversion N2 as [|? ? N21 N22]; subst. cbn [fst snd].
    assert (L2 : r2 < length h) by (apply (R k2); right; left; reflexivity).
    destruct (nth_error h r2) as [new|] eqn:En; [|apply nth_error_None in En; lia].
    destruct (dget d1 k2) as [r1|] eqn:E1.
    + assert (In1 : In (k2, r1) d1) by (apply dget_In; exact E1). assert (L1 : r1 < length h) by (apply (R k2); left; exact In1).
      destruct (nth_error h r1) as [old|] eqn:Eo; [|apply nth_error_None in Eo; lia]. cbn [of_opt bind].
      assert (Ne : r1 <> r2) by (eapply Sep; [exact In1|left; reflexivity]).
      assert (Keep : forall k r, In (k, r) d2 -> nth_error (hset h r1 (dict_update old new)) r = nth_error h r).
      { intros k r Hr. rewrite nth_hset. destruct (Nat.eqb_spec r1 r) as [->|]; [|reflexivity]. exfalso. eapply Sep; [exact In1|right; exact Hr|reflexivity]. }
      destruct (IH (hset h r1 (dict_update old new)) d1) as (h' & d' & E & L & V1 & K & U).
      * split; [exact N1|]. split; [exact N22|]. split; [|split; [|split; [exact I1|split]]].
        { intros k r Hr. rewrite hset_length. apply (R k). destruct Hr as [Hr|Hr]; [left; exact Hr|right; right; exact Hr]. }
        { intros k r k' r' Hr Hr'. apply (Sep k r k' r' Hr). right. exact Hr'. }
        { intros k k' r Hr Hr'. apply (I2 k k' r); right; assumption. }
        { intros r e Hr. rewrite nth_hset in Hr. destruct (Nat.eqb_spec r1 r) as [->|]; [rewrite Eo in Hr; injection Hr as <-; apply dict_update_NoDup; exact (W r old Eo)|exact (W r e Hr)]. }
      * exists h', d'. split; [exact E|]. split; [rewrite L; apply hset_length|]. split; [|split].
        { intros k l. rewrite V1. unfold at2 at 1. cbn [dget].
          assert (A2 : at2 (hset h r1 (dict_update old new)) d2 k l = at2 h d2 k l).
          { unfold at2. destruct (dget d2 k) as [r|] eqn:Er; [|reflexivity]. rewrite (Keep k r (dget_In _ _ _ Er)). reflexivity. }
          unfold at2 in A2 |- *. cbn [dget]. destruct (String.eqb k2 k) eqn:Q.
          - apply String.eqb_eq in Q. subst k. destruct (dget d2 k2) as [r|] eqn:Er; [exfalso; apply N21; exact (dget_Some_key _ _ _ Er)|].
            rewrite En, E1, nth_hset, Nat.eqb_refl, Eo, dict_update_dget by exact (W r2 new En). reflexivity.
          - apply String.eqb_neq in Q. rewrite A2. destruct (dget d2 k) as [r|] eqn:Er.
            + destruct (match nth_error h r with Some e => dget e l | None => None end); [reflexivity|].
              destruct (dget d1 k) as [r'|] eqn:Er'; [|reflexivity]. rewrite nth_hset. destruct (Nat.eqb_spec r1 r') as [->|]; [|reflexivity].
              exfalso. apply Q. eapply I1; [exact In1|apply dget_In; exact Er'].
            + destruct (dget d1 k) as [r'|] eqn:Er'; [|reflexivity]. rewrite nth_hset. destruct (Nat.eqb_spec r1 r') as [->|]; [|reflexivity].
              exfalso. apply Q. eapply I1; [exact In1|apply dget_In; exact Er']. }
        { intros k. rewrite <- K. cbn [map fst In]. split; [intros [A|[A|A]]; [left; exact A|left; subst; exact (dget_Some_key _ _ _ E1)|right; exact A]|intros [A|A]; auto]. }
        { intros r Hr. rewrite (U r), nth_hset; [|intros k Hk A; apply (Hr k Hk); right; exact A]. destruct (Nat.eqb_spec r1 r) as [->|]; [exfalso; apply (Hr _ In1); left; reflexivity|reflexivity]. }
    + assert (Hd : forall k r, In (k, r) (dset d1 k2 r2) -> In (k, r) d1 \/ (k = k2 /\ r = r2)).
      { intros k r Hr. assert (Nd : NoDup (map fst (dset d1 k2 r2))) by (apply dset_NoDup; exact N1). apply (dget_NoDup _ _ _ Nd) in Hr.
        destruct (string_dec k2 k) as [<-|Nk]; [rewrite dget_dset_same in Hr; injection Hr as <-; right; auto|].
        rewrite dget_dset_other in Hr by congruence. left. apply dget_In. exact Hr. }
      destruct (IH h (dset d1 k2 r2)) as (h' & d' & E & L & V1 & K & U).
      * split; [apply dset_NoDup; exact N1|]. split; [exact N22|]. split; [|split; [|split; [|split; [|exact W]]]].
        { intros k r [Hr|Hr]; [|apply (R k); right; right; exact Hr]. destruct (Hd k r Hr) as [Hr'|[-> ->]]; [apply (R k); left; exact Hr'|exact L2]. }
        { intros k r k' r' Hr Hr'. destruct (Hd k r Hr) as [H'|[-> ->]]; [apply (Sep k r k' r' H'); right; exact Hr'|].
          intros <-. apply N21. replace k2 with k'; [change k' with (fst (k', r2)); apply in_map; exact Hr'|].
          apply (I2 k' k2 r2); [right; exact Hr'|left; reflexivity]. }
        { intros k k' r Hr Hr'. destruct (Hd k r Hr) as [A|[-> ->]].
          - destruct (Hd k' r Hr') as [B|[-> ->]]; [exact (I1 k k' r A B)|]. exfalso. eapply Sep; [exact A|left; reflexivity|reflexivity].
          - destruct (Hd k' r2 Hr') as [B|[-> _]]; [|reflexivity]. exfalso. eapply Sep; [exact B|left; reflexivity|reflexivity]. }
        { intros k k' r Hr Hr'. apply (I2 k k' r); right; assumption. }
      * exists h', d'. split; [exact E|]. split; [exact L|]. split; [|split].
        { intros k l. rewrite V1. unfold at2. cbn [dget]. destruct (String.eqb k2 k) eqn:Q.
          - apply String.eqb_eq in Q. subst k. destruct (dget d2 k2) as [r|] eqn:Er; [exfalso; apply N21; exact (dget_Some_key _ _ _ Er)|].
            rewrite dget_dset_same, En, E1. destruct (dget new l); reflexivity.
          - apply String.eqb_neq in Q. rewrite dget_dset_other by congruence. reflexivity. }
        { intros k. rewrite <- K. cbn [map fst In]. rewrite In_dkeys_dset || idtac. assert (X : In k (map fst (dset d1 k2 r2)) <-> In k (map fst d1) \/ k = k2).
          { split.
            - intros A. apply in_map_iff in A. destruct A as ([a r] & <- & A). destruct (Hd a r A) as [B|[-> _]]; [left; change (fst (a, r)) with (fst (a, r)); apply in_map; exact B|right; reflexivity].
            - intros [A| ->].
              + apply in_map_iff in A. destruct A as ([a r] & <- & A). cbn [fst]. destruct (string_dec k2 a) as [->|Na].
                * eapply dget_Some_key. apply dget_dset_same.
                * eapply dget_Some_key. rewrite dget_dset_other by congruence. apply dget_NoDup; eassumption.
              + eapply dget_Some_key. apply dget_dset_same. }
          rewrite X. intuition. }
        { intros r Hr. apply U. intros k Hk. destruct (Hd k r Hk) as [A|[-> _]]; [|exact N21]. intros B. apply (Hr k A). right. exact B. }
Qed.
End Combine.

(** ** Parse order *)

Lemma in_order_app {M} (ps qs : list (parser M)) m m' e : in_order (ps ++ qs) m m' e <->
  (exists m1, in_order ps m m1 None /\ in_order qs m1 m' e) \/ (exists x, e = Some x /\ in_order ps m m' (Some x)).
Proof.
  revert m. induction ps as [|p ps IH]; intros m; cbn [app].
  - split.
    + intros H. left. exists m. split; [constructor|exact H].
    + intros [(m1 & A & B)|(x & _ & A)]; inversion A; subst; exact B.
  - split.
    + intros H. inversion H as [|? ? ? m1 ? ? E H'|? ? ? ? x E]; subst.
      * apply IH in H'. destruct H' as [(m2 & A & B)|(x & -> & A)]; [left; exists m2; split; [eapply order_next; eauto|exact B]|right; exists x; split; [reflexivity|eapply order_next; eauto]].
      * right. exists x. split; [reflexivity|]. constructor. exact E.
    + intros [(m1 & A & B)|(x & -> & A)].
      * inversion A as [|? ? ? m2 ? ? E A'|]; subst. eapply order_next; [exact E|]. apply IH. left. eauto.
      * inversion A as [|? ? ? m2 ? ? E A'|? ? ? ? ? E]; subst; [eapply order_next; [exact E|]; apply IH; right; eauto|apply order_stop; exact E].
Qed.
Lemma in_order_one {M} (p : parser M) m m' e : in_order [p] m m' e <-> p m = (m', e).
Proof.
  split.
  - intros H. inversion H as [|? ? ? m1 ? ? E H'|? ? ? ? x E]; subst; [inversion H'; subst; exact E|exact E].
  - intros E. destruct e; [apply order_stop; exact E|eapply order_next; [exact E|constructor]].
Qed.
Lemma and_then_order {M} ps (q : parser M) m r : (forall m' e, r = (m', e) <-> in_order ps m m' e) ->
  forall m' e, and_then M r q = (m', e) <-> in_order (ps ++ [q]) m m' e.
Proof.
  intros H m' e. rewrite in_order_app. destruct r as [m1 [x|]]; cbn [and_then].
  - split.
    + intros E. injection E as <- <-. right. exists x. split; [reflexivity|]. apply H. reflexivity.
    + intros [(m2 & A & B)|(y & -> & A)]; apply H in A; congruence.
  - split.
    + intros E. left. exists m1. split; [apply H; reflexivity|apply in_order_one; exact E].
    + intros [(m2 & A & B)|(y & -> & A)]; apply H in A; [|discriminate]. injection A as <-. apply in_order_one. exact B.
Qed.

(** ** Default values *)

Section Defaults.
Variable V : Type.
Variable none : V.
Variable cmatrix : V -> V.
Variable zmatrix : V -> V -> res V.
Notation run_call := (run_call V none cmatrix zmatrix).
Notation dobj := (dobj V).

Definition applies (c a : string) (k : call) : bool :=
  (String.eqb (k_attr k) a && match k_class k with Some c' => String.eqb c c' | None => true end)%bool.
(** The value a call gives, from whether the attribute was there before. *)
Definition call_value (flag : bool) t (k : call) (there : bool) : res V :=
  do v <- table_value V none t (k_section k) (k_key k);
  do x <- match k_arg k with Some key2 => do x <- table_value V none t (k_section k) key2; Ok (Some x) | None => Ok None end;
  if negb flag then
    if there then
      if String.eqb (k_attr k) "capacitance_matrix" then Ok (cmatrix v)
      else if String.eqb (k_attr k) "impedance_matrix" then match x with Some y => zmatrix v y | None => Err EIndex end
      else Ok v
    else Ok v
  else Ok none.
Lemma run_call_eq flag t o k : run_call flag t o k =
  if match k_class k with Some c => String.eqb (d_class V o) c | None => true end then
    do v <- call_value flag t k (dmem (d_attrs V o) (k_attr k)); Ok (mkDobj V (d_class V o) (dset (d_attrs V o) (k_attr k) v))
  else Ok o.
Proof.
  unfold ReaderModel.run_call, call_value, set_default_values. destruct (match k_class k with Some c => _ | None => true end); [|reflexivity].
  destruct (table_value V none t (k_section k) (k_key k)) as [v|e]; cbn [bind]; [|reflexivity].
  destruct (k_arg k) as [key2|]; cbn [bind]; [|reflexivity]. destruct (table_value V none t (k_section k) key2); reflexivity.
Qed.

Lemma foldM_calls flag t ks : forall o o', foldM (run_call flag t) ks o = Ok o' ->
  (forall a k k' l l', ks = l ++ k :: l' -> In k' l' -> applies (d_class V o) a k = true -> applies (d_class V o) a k' = false) ->
  d_class V o' = d_class V o /\
  forall a, match find (applies (d_class V o) a) ks with
            | Some k => exists v, call_value flag t k (dmem (d_attrs V o) a) = Ok v /\ dget (d_attrs V o') a = Some v
            | None => dget (d_attrs V o') a = dget (d_attrs V o) a
            end.
Proof.
  induction ks as [|k ks IH]; intros o o' E U; cbn [foldM] in E.
  - injection E as <-. split; reflexivity.
  - rewrite run_call_eq in E.
    assert (U' : forall a k0 k' l l', ks = l ++ k0 :: l' -> In k' l' -> applies (d_class V o) a k0 = true -> applies (d_class V o) a k' = false).
    { intros a k0 k' l l' Ek. apply (U a k0 k' (k :: l) l'). now rewrite Ek. }
    destruct (match k_class k with Some c => String.eqb (d_class V o) c | None => true end) eqn:C.
    + destruct (call_value flag t k (dmem (d_attrs V o) (k_attr k))) as [v|] eqn:Ev; cbn [bind] in E; [|discriminate].
      destruct (IH _ _ E U') as [Hc H]. cbn [d_class d_attrs] in Hc, H. split; [exact Hc|]. intros a. cbn [find]. unfold applies at 1. rewrite C, andb_true_r.
      specialize (H a). destruct (String.eqb (k_attr k) a) eqn:Q.
      * apply String.eqb_eq in Q. subst a. exists v. split; [exact Ev|].
        replace (find (applies (d_class V o) (k_attr k)) ks) with (@None call) in H; [rewrite dget_dset_same in H; exact H|].
        symmetry. destruct (find (applies (d_class V o) (k_attr k)) ks) as [k'|] eqn:F; [|reflexivity]. exfalso.
        apply find_some in F. destruct F as [F1 F2]. rewrite (U (k_attr k) k k' [] ks eq_refl F1) in F2; [discriminate|].
        unfold applies. now rewrite C, String.eqb_refl.
      * apply String.eqb_neq in Q. unfold dmem in H. rewrite !dget_dset_other in H by congruence. exact H.
    + destruct (IH _ _ E U') as [Hc H]. split; [exact Hc|]. intros a. cbn [find]. unfold applies at 1. rewrite C, andb_false_r. apply H.
Qed.

Lemma calls_unique c a k k' l l' : calls = l ++ k :: l' -> In k' l' -> applies c a k = true -> applies c a k' = false.
Proof.
  intros E I A. apply andb_true_iff in A. destruct A as [A1 A2]. apply String.eqb_eq in A1. subst a. unfold applies.
  destruct (String.eqb (k_attr k') (k_attr k)) eqn:Q; [|reflexivity]. cbn [andb].
  assert (X : forallb (fun p => negb (String.eqb (k_attr (snd p)) (k_attr (fst p))) ||
      match k_class (fst p), k_class (snd p) with Some x, Some y => negb (String.eqb x y) | _, _ => false end)%bool
      ((fix pairs (l : list call) := match l with [] => [] | x :: t => map (pair x) t ++ pairs t end) calls) = true) by (vm_compute; reflexivity).
  assert (P : forall ks l0, ks = l0 ++ k :: l' -> In (k, k') ((fix pairs (l : list call) := match l with [] => [] | x :: t => map (pair x) t ++ pairs t end) ks)).
  { clear - I. intros ks l0. revert ks. induction l0 as [|x l0 IH]; intros ks ->; cbn [app].
    - apply in_app_iff. left. apply in_map. exact I.
    - apply in_app_iff. right. apply IH. reflexivity. }
  rewrite forallb_forall in X. specialize (X _ (P calls l E)). cbn [fst snd] in X. rewrite Q in X. cbn [negb orb] in X.
  destruct (k_class k) as [x|], (k_class k') as [y|]; try discriminate. apply String.eqb_eq in A2. subst x.
  apply negb_true_iff in X. exact X.
Qed.

Lemma find_listed c a s k : listed c a s k -> exists x, find (applies c a) calls = Some x /\ k_attr x = a /\ k_section x = s /\ k_key x = k /\
  (a = "impedance_matrix" -> k_arg x = Some "xmatrix") /\ (a <> "impedance_matrix" -> k_arg x = None).
Proof.
  intros [H|(H & -> & ->)].
  - cbn [for_all In] in H. repeat (destruct H as [E|H]; [injection E as <- <- <-; eexists; cbn; split; [reflexivity|]; repeat split; try reflexivity; congruence|]). destruct H.
  - cbn [for_class In] in H. repeat (destruct H as [E|H]; [injection E as <- <-; eexists; cbn; split; [reflexivity|]; repeat split; try reflexivity; congruence|]). destruct H.
Qed.
Lemma find_unlisted c a : (forall s k, ~ listed c a s k) -> find (applies c a) calls = None.
Proof.
  intros H. destruct (find (applies c a) calls) as [x|] eqn:F; [|reflexivity]. exfalso. apply find_some in F. destruct F as [F1 F2].
  apply andb_true_iff in F2. destruct F2 as [F2 F3]. apply String.eqb_eq in F2. apply (H (k_section x) (k_key x)).
  cbn [calls In] in F1.
  repeat (destruct F1 as [F1|F1]; [subst x; cbn in F2, F3 |- *; subst a;
    first [left; cbn [for_all In]; repeat (first [left; reflexivity|right]); fail
          |right; apply String.eqb_eq in F3; subst c; split; [cbn [for_class In]; repeat (first [left; reflexivity|right]); fail|split; reflexivity]]|]).
  destruct F1.
Qed.
End Defaults.

Section DefaultsTop.
Variable V : Type.
Variable none : V.
Variable cmatrix : V -> V.
Variable zmatrix : V -> V -> res V.

Lemma table_value_entry t s k v : table_value V none t s k = Ok v -> v = entry_of none t s k.
Proof. unfold table_value, entry_of. destruct (dget t s); [congruence|]. destruct (String.eqb s "Line"); congruence. Qed.

Lemma one_object flag t o o' : foldM (run_call V none cmatrix zmatrix flag t) calls o = Ok o' -> defaulted V none cmatrix zmatrix flag t o o'.
Proof.
  intros E. destruct (foldM_calls V none cmatrix zmatrix flag t calls o o' E) as [Hc H].
  { intros a k k' l l'. apply calls_unique. }
  split; [exact Hc|]. split.
  - intros a Ha. specialize (H a). rewrite (find_unlisted _ _ Ha) in H. exact H.
  - intros a s k Hl. destruct (find_listed _ _ _ _ Hl) as (x & F & Xa & Xs & Xk & X1 & X2). specialize (H a). rewrite F in H. destruct H as (v & Ev & Hv).
    rewrite Hv. unfold call_value in Ev. rewrite Xs, Xk, Xa in Ev.
    destruct (table_value V none t s k) as [w|] eqn:T; cbn [bind] in Ev; [|discriminate]. apply table_value_entry in T. subst w.
    assert (Y : exists y, (match k_arg x with Some key2 => do z <- table_value V none t s key2; Ok (Some z) | None => Ok None end) = Ok y /\
                  (a = "impedance_matrix" -> y = Some (entry_of none t s "xmatrix"))).
    { destruct (string_dec a "impedance_matrix") as [Q|Q].
      - rewrite (X1 Q) in Ev |- *. destruct (table_value V none t s "xmatrix") as [z|] eqn:T; [|discriminate Ev]. apply table_value_entry in T. subst z.
        cbn [bind]. eexists. split; [reflexivity|reflexivity].
      - rewrite (X2 Q). eexists. split; [reflexivity|contradiction]. }
    destruct Y as (y & Ey & Hy). rewrite Ey in Ev. cbn [bind] in Ev. destruct flag; cbn [negb] in Ev.
    + injection Ev as <-. split; [reflexivity|]. repeat split; discriminate.
    + split; [discriminate|]. unfold dmem in Ev. split; [|split]; intros _.
      * intros [[N1 N2]|N].
        { apply String.eqb_neq in N1, N2. rewrite N1, N2 in Ev. destruct (dget (d_attrs V o) a); congruence. }
        { rewrite N in Ev. congruence. }
      * intros -> Hn. destruct (dget (d_attrs V o) "capacitance_matrix"); [|exfalso; apply Hn; reflexivity]. cbn in Ev. congruence.
      * intros Q Hn. rewrite (Hy Q) in Ev. rewrite Q in Ev, Hn. destruct (dget (d_attrs V o) "impedance_matrix"); [|exfalso; apply Hn; reflexivity]. cbn in Ev. eauto.
Qed.

Lemma mapM_rel {A B} (f : A -> res B) (R : A -> B -> Prop) l l' : (forall x y, f x = Ok y -> R x y) -> mapM f l = Ok l' -> Forall2 R l l'.
Proof.
  intros H. revert l'. induction l as [|x l IH]; intros l' E; cbn [mapM] in E; [injection E as <-; constructor|].
  destruct (f x) as [y|] eqn:Ex; [|discriminate]. destruct (mapM f l) as [ys|]; [|discriminate]. injection E as <-. constructor; auto.
Qed.
Lemma mapM_total {A B} (f : A -> res B) l : (forall x, exists y, f x = Ok y) -> exists l', mapM f l = Ok l'.
Proof. intros H. induction l as [|x l [l' IH]]; cbn [mapM]; [eauto|]. destruct (H x) as [y ->]. rewrite IH. eauto. Qed.
Lemma foldM_total {A S} (f : S -> A -> res S) l : (forall s x, exists s', f s x = Ok s') -> forall s, exists s', foldM f l s = Ok s'.
Proof. intros H. induction l as [|x l IH]; intros s; cbn [foldM]; [eauto|]. destruct (H s x) as [s' ->]. apply IH. Qed.

Lemma remove_total t m : dget t "Line" <> None -> exists m', mapM (fun o => foldM (run_call V none cmatrix zmatrix true t) calls o) m = Ok m'.
Proof.
  intros L. apply mapM_total. intros o. apply foldM_total. intros s k. rewrite run_call_eq.
  destruct (match k_class k with Some c => _ | None => true end); [|eauto].
  assert (T : forall s k, exists v, table_value V none t s k = Ok v).
  { intros s0 k0. unfold table_value. destruct (dget t s0) eqn:E; [eauto|]. destruct (String.eqb_spec s0 "Line") as [->|]; [contradiction|eauto]. }
  unfold call_value. destruct (T (k_section k) (k_key k)) as [v ->]. cbn [bind negb].
  destruct (k_arg k) as [key2|]; [destruct (T (k_section k) key2) as [w ->]|]; cbn [bind]; eauto.
Qed.
End DefaultsTop.
