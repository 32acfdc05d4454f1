(** Lemmas on Modifier.delete_element, copy, add and delete. *)
From Verif Require Import Base BaseFacts StoreModel StoreSpec StoreProofs.
Local Open Scope string_scope.
Local Open Scope nat_scope.
Local Open Scope list_scope.

Scheme tree_ind2 := Induction for tree_of Sort Prop
  with forest_ind2 := Induction for forest_of Sort Prop.
Combined Scheme tree_forest_ind from tree_ind2, forest_ind2.

Lemma special_plain a : special_attr a = true <-> plain_list a.
Proof.
  unfold special_attr, plain_list. rewrite smem_In. simpl.
  split; intros H; repeat destruct H as [H|H]; subst; try tauto.
Qed.

Lemma special_not_plain a : special_attr a = false <-> ~ plain_list a.
Proof. rewrite <- special_plain. destruct (special_attr a); split; congruence. Qed.

Lemma sub_elts_has_elt ob e : In e (sub_elts ob) <-> has_elt ob e.
Proof.
  unfold sub_elts, has_elt. rewrite in_flat_map. split.
  - intros ([a [v|[l|]]] & Hin & He); cbn [fst snd] in He; try (destruct He; fail).
    fold (special_attr a) in He.
    destruct (special_attr a) eqn:E; [destruct He|]. apply special_not_plain in E.
    exists a, l. auto.
  - intros (a & l & Hin & Hp & He). exists (a, Lst (Some l)). split; [exact Hin|]. cbn [fst snd].
    fold (special_attr a). apply special_not_plain in Hp. rewrite Hp. exact He.
Qed.

(** ** delete_element *)

(** Removal of several objects, in order. *)
Definition remove_all (l : list oid) (e : list oid) : res (list oid) :=
  foldM (fun e o => list_remove o e) l e.

Definition del_elt (fuel : nat) (h : heap) (s : store) (e : elt) : res store :=
  match e with EObj o' => delete_element fuel h s o' | ERaw _ => Err EAttr end.

Lemma foldM_flat_map {A B S} (f : S -> B -> res S) (g : A -> list B) l s :
  foldM f (flat_map g l) s = foldM (fun s x => foldM f (g x) s) l s.
Proof.
  revert s; induction l as [|x t IH]; simpl; intros s; [reflexivity|].
  rewrite foldM_app. destruct (foldM f (g x) s); auto.
Qed.

Lemma foldM_ext {A S} (f g : S -> A -> res S) l :
  (forall s x, In x l -> f s x = g s x) -> forall s, foldM f l s = foldM g l s.
Proof.
  induction l as [|x t IH]; simpl; intros H s; [reflexivity|].
  rewrite (H s x (or_introl eq_refl)). destruct (g s x); auto.
Qed.

Lemma delete_element_S fuel h s o :
  delete_element (S fuel) h s o =
  match nth_error h o with
  | None => Err EAttr
  | Some ob => match foldM (del_elt fuel h) (sub_elts ob) s with
               | Ok s' => remove_element s' o
               | Err e => Err e
               end
  end.
Proof.
  cbn [delete_element]. destruct (nth_error h o) as [ob|]; [|reflexivity].
  unfold sub_elts. rewrite foldM_flat_map. unfold bind.
  erewrite foldM_ext; [reflexivity|].
  intros s0 [a [v|[l|]]] _; cbn [fst snd]; try reflexivity.
  fold (special_attr a). destruct (special_attr a); reflexivity.
Qed.

Definition with_elems (s : store) (r : res (list oid)) : res store :=
  match r with Ok e => Ok (mkStore e (names s)) | Err e => Err e end.

Lemma delete_sound fuel h : forall s o s',
  delete_element fuel h s o = Ok s' ->
  exists l, tree_of h o l /\ names s' = names s /\ remove_all l (elems s) = Ok (elems s').
Proof.
  induction fuel as [|fuel IH]; intros s o s'; [discriminate|].
  rewrite delete_element_S. destruct (nth_error h o) as [ob|] eqn:Eo; [|discriminate].
  assert (G : forall es s s1, foldM (del_elt fuel h) es s = Ok s1 ->
     exists l, forest_of h es l /\ names s1 = names s /\ remove_all l (elems s) = Ok (elems s1)).
  { induction es as [|e es IHe]; simpl; intros s0 s1 H.
    - injection H as <-. exists []. split; [constructor|]. split; reflexivity.
    - destruct e as [o'|]; simpl in H; [|discriminate].
      destruct (delete_element fuel h s0 o') as [s2|] eqn:E; [|discriminate].
      apply IH in E as (l1 & T1 & N1 & R1). apply IHe in H as (l2 & T2 & N2 & R2).
      exists (l1 ++ l2). split; [constructor; assumption|]. split; [congruence|].
      unfold remove_all in *. rewrite foldM_app, R1. exact R2. }
  destruct (foldM (del_elt fuel h) (sub_elts ob) s) as [s1|] eqn:E; [|discriminate].
  apply G in E as (l & T & N & R). unfold remove_element.
  destruct (list_remove o (elems s1)) as [e|] eqn:Er; [|discriminate].
  intros H; injection H as <-. simpl.
  exists (l ++ [o]). split; [econstructor; eauto|]. split; [exact N|].
  unfold remove_all in *. rewrite foldM_app, R. simpl. rewrite Er. reflexivity.
Qed.

Lemma delete_complete h :
  (forall o l, tree_of h o l ->
     exists n, forall fuel s, n <= fuel ->
       delete_element fuel h s o = with_elems s (remove_all l (elems s))) /\
  (forall es l, forest_of h es l ->
     exists n, forall fuel s, n <= fuel ->
       foldM (del_elt fuel h) es s = with_elems s (remove_all l (elems s))).
Proof.
  apply (tree_forest_ind h
    (fun o l _ => exists n, forall fuel s, n <= fuel ->
       delete_element fuel h s o = with_elems s (remove_all l (elems s)))
    (fun es l _ => exists n, forall fuel s, n <= fuel ->
       foldM (del_elt fuel h) es s = with_elems s (remove_all l (elems s)))).
  - intros o ob l Ho F (n & Hn). exists (S n). intros [|fuel] s Hf; [lia|].
    rewrite delete_element_S, Ho, Hn by lia.
    unfold remove_all. rewrite foldM_app. unfold with_elems.
    destruct (foldM _ l (elems s)) as [e|]; [|reflexivity]. simpl.
    unfold remove_element; simpl. destruct (list_remove o e); reflexivity.
  - exists 0. intros fuel [e d] _. reflexivity.
  - intros o t l1 l2 T (n1 & H1) F (n2 & H2). exists (Nat.max n1 n2).
    intros fuel s Hf. simpl. rewrite H1 by lia.
    unfold remove_all in *. rewrite foldM_app. unfold with_elems at 1.
    destruct (foldM _ l1 (elems s)) as [e|]; [|reflexivity].
    rewrite H2 by lia. simpl. reflexivity.
Qed.

(** What removing several objects does to a duplicate-free list. *)
Lemma remove_all_ok l : forall e e',
  NoDup e -> (remove_all l e = Ok e' <-> NoDup l /\ incl l e /\ e' = filter (not_in l) e).
Proof.
  induction l as [|o t IH]; intros e e' Hnd; unfold remove_all; simpl.
  - split.
    + intros H; injection H as <-. split; [constructor|]. split; [intros x []|].
      symmetry. apply filter_all. intros x _. reflexivity.
    + intros (_ & _ & ->). f_equal. symmetry. apply filter_all. intros x _. reflexivity.
  - assert (Hff : forall e1, filter (not_in t) (filter (not_in [o]) e1) = filter (not_in (o :: t)) e1).
    { assert (Hc : forall x, not_in (o :: t) x = not_in [o] x && not_in t x).
      { intros x. unfold not_in. simpl. rewrite orb_false_r, negb_orb. reflexivity. }
      induction e1 as [|x e1 IHe]; [reflexivity|]. cbn [filter]. rewrite (Hc x).
      destruct (not_in [o] x); cbn [andb filter]; [|exact IHe].
      rewrite IHe. reflexivity. }
    destruct (list_remove o e) as [e1|] eqn:E.
    + destruct (list_remove_filter o e e1 Hnd E) as [-> Hin].
      fold (remove_all t (filter (not_in [o]) e)).
      rewrite IH by (apply NoDup_filter; exact Hnd). rewrite Hff.
      split.
      * intros (H1 & H2 & ->). split; [|split; [|reflexivity]].
        -- constructor; [|exact H1]. intros Ho. apply H2 in Ho. apply filter_In in Ho as [_ Ho].
           apply not_in_spec in Ho. simpl in Ho; tauto.
        -- intros x [<-|Hx]; [exact Hin|]. apply H2 in Hx. apply filter_In in Hx. tauto.
      * intros (H1 & H2 & ->). inversion H1; subst. split; [assumption|split; [|reflexivity]].
        intros x Hx. apply filter_In. split; [apply H2; simpl; auto|].
        apply not_in_spec. simpl. intros [->|[]]. contradiction.
    + apply list_remove_err in E as [_ E]. split; [discriminate|].
      intros (_ & H2 & _). exfalso. apply E, H2. simpl; auto.
Qed.

Lemma tree_parts h :
  (forall o l, tree_of h o l -> forall x, In x l <-> part_of h o x) /\
  (forall es l, forest_of h es l ->
     (forall x, In x l <-> exists o, In (EObj o) es /\ part_of h o x) /\
     (forall e, In e es -> exists o, e = EObj o)).
Proof.
  apply (tree_forest_ind h
    (fun o l _ => forall x, In x l <-> part_of h o x)
    (fun es l _ => (forall x, In x l <-> exists o, In (EObj o) es /\ part_of h o x) /\
                   (forall e, In e es -> exists o, e = EObj o))).
  - intros o ob l Ho F [IH _] x. rewrite in_app_iff, IH. simpl. split.
    + intros [(o' & Hin & Hp)|[->|[]]]; [|constructor].
      econstructor; [exact Ho|apply sub_elts_has_elt; exact Hin|exact Hp].
    + intros Hp. inversion Hp as [|? ob' o' ? Ho' He Hp']; subst; [auto|].
      left. exists o'. assert (ob' = ob) by congruence. subst.
      split; [apply sub_elts_has_elt; exact He|exact Hp'].
  - split; [|intros e []]. intros x. split; [intros []|intros (o & [] & _)].
  - intros o t l1 l2 T IH1 F [IH2 IH3]. split.
    + intros x. rewrite in_app_iff, IH1, IH2. split.
      * intros [Hp|(o' & Hin & Hp)]; [exists o|exists o']; simpl; auto.
      * intros (o' & [He|Hin] & Hp); [injection He as ->; auto|right; eauto].
    + intros e [<-|Hin]; eauto.
Qed.

Lemma tree_fun h :
  (forall o l, tree_of h o l -> forall l', tree_of h o l' -> l = l') /\
  (forall es l, forest_of h es l -> forall l', forest_of h es l' -> l = l').
Proof.
  apply (tree_forest_ind h
    (fun o l _ => forall l', tree_of h o l' -> l = l')
    (fun es l _ => forall l', forest_of h es l' -> l = l')).
  - intros o ob l Ho F IH l' T. inversion T as [? ob' l1 Ho' F']; subst.
    assert (ob' = ob) by congruence. subst. rewrite (IH _ F'). reflexivity.
  - intros l' F. inversion F. reflexivity.
  - intros o t l1 l2 T IH1 F IH2 l' F'. inversion F'; subst. f_equal; auto.
Qed.

(** The main characterisation of a successful deletion. *)
Lemma delete_element_effect fuel h s o s' :
  NoDup (elems s) -> delete_element fuel h s o = Ok s' ->
  exists l, tree_of h o l /\ NoDup l /\ incl l (elems s) /\
            names s' = names s /\ elems s' = filter (not_in l) (elems s).
Proof.
  intros Hnd H. apply delete_sound in H as (l & T & N & R).
  apply (remove_all_ok _ _ _ Hnd) in R as (R1 & R2 & R3). exists l. auto.
Qed.

Lemma delete_element_post fuel h s o s' :
  NoDup (elems s) -> delete_element fuel h s o = Ok s' ->
  names s' = names s /\
  (forall x, part_of h o x -> In x (elems s)) /\
  (exists keep, (forall x, keep x = true <-> ~ part_of h o x) /\
                elems s' = filter keep (elems s)).
Proof.
  intros Hnd H. destruct (delete_element_effect _ _ _ _ _ Hnd H) as (l & T & Hl & Hi & N & E).
  assert (P := proj1 (tree_parts h) o l T).
  split; [exact N|]. split.
  - intros x Hx. apply Hi, P, Hx.
  - exists (not_in l). split; [|exact E]. intros x. rewrite not_in_spec, P. tauto.
Qed.

Lemma delete_element_succeeds_iff h s o :
  NoDup (elems s) ->
  ((exists fuel s', delete_element fuel h s o = Ok s') <->
   (exists l, tree_of h o l /\ NoDup l /\ incl l (elems s))).
Proof.
  intros Hnd. split.
  - intros (fuel & s' & H).
    destruct (delete_element_effect _ _ _ _ _ Hnd H) as (l & T & Hl & Hi & _). eauto.
  - intros (l & T & Hl & Hi). destruct (proj1 (delete_complete h) o l T) as (n & Hn).
    exists n. rewrite Hn by lia.
    assert (E : remove_all l (elems s) = Ok (filter (not_in l) (elems s)))
      by (apply remove_all_ok; auto).
    rewrite E. simpl. eauto.
Qed.

(** Deleting fails with ValueError when the parts form a tree but one of them is shared or
    not registered. *)
Lemma delete_element_valueerror h s o l :
  NoDup (elems s) -> tree_of h o l -> ~ (NoDup l /\ incl l (elems s)) ->
  exists n, forall fuel, n <= fuel -> delete_element fuel h s o = Err EValue.
Proof.
  intros Hnd T Hbad. destruct (proj1 (delete_complete h) o l T) as (n & Hn).
  exists n. intros fuel Hf. rewrite Hn by exact Hf.
  destruct (remove_all l (elems s)) as [e|e] eqn:E.
  - exfalso. apply Hbad. apply (remove_all_ok _ _ _ Hnd) in E. tauto.
  - simpl. f_equal. clear - E. revert E. generalize (elems s). unfold remove_all.
    induction l as [|x t IH]; simpl; intros e0 E; [discriminate|].
    destruct (list_remove x e0) eqn:Er; [eauto|]. apply list_remove_err in Er as [-> _]. congruence.
Qed.
