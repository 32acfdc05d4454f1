(** Lemmas on names, histories, deletion and copying. *)
From Verif Require Import Base BaseFacts StoreModel StoreSpec.
From Coq Require Import Sorted.
Local Open Scope string_scope.
Local Open Scope nat_scope.
Local Open Scope list_scope.

(** ** Keys and the name dictionary *)

Lemma key_eqb_spec a b : reflect (a = b) (key_eqb a b).
Proof.
  destruct a as [[s|x]|], b as [[t|y]|]; simpl;
  try (constructor; congruence).
  - destruct (String.eqb_spec s t); constructor; congruence.
  - destruct (Z.eqb_spec x y); constructor; congruence.
Qed.

Lemma key_eqb_refl k : key_eqb k k = true.
Proof. destruct (key_eqb_spec k k); congruence. Qed.

Lemma kget_kset d k o k' :
  kget (kset d k o) k' = if key_eqb k k' then Some o else kget d k'.
Proof.
  induction d as [|[k0 o0] t IH]; simpl.
  - reflexivity.
  - destruct (key_eqb_spec k0 k) as [->|Hn]; simpl.
    + destruct (key_eqb k k'); reflexivity.
    + rewrite IH. destruct (key_eqb_spec k0 k') as [->|Hn']; [|reflexivity].
      destruct (key_eqb_spec k k'); congruence.
Qed.

Lemma name_of_named h o k : name_of h o = Some k <-> named h o k.
Proof.
  unfold name_of, named, get_attr. destruct (nth_error h o) as [ob|].
  - split.
    + intros H. exists ob. split; [reflexivity|].
      destruct (dget (attrs ob) "name") as [[v|v]|]; congruence.
    + intros (ob' & Ho & H). injection Ho as <-. rewrite H. reflexivity.
  - split; [discriminate|]. intros (ob & Ho & _). discriminate.
Qed.

Lemma named_fun h o k k' : named h o k -> named h o k' -> k = k'.
Proof. rewrite <- !name_of_named. congruence. Qed.

Definition key_dec (a b : key) : {a = b} + {a <> b}.
Proof. destruct (key_eqb_spec a b); [left|right]; assumption. Defined.

Lemma named_dec h o k : {named h o k} + {~ named h o k}.
Proof.
  destruct (name_of h o) as [k'|] eqn:E.
  - destruct (key_dec k' k) as [->|Hn].
    + left. apply name_of_named, E.
    + right. intros H. apply name_of_named in H. congruence.
  - right. intros H. apply name_of_named in H. congruence.
Qed.

Lemma set_names_fold h l d k o :
  kget (fold_left (set_name h) l d) k = Some o <->
  last_named h l k o \/ (kget d k = Some o /\ forall o', In o' l -> ~ named h o' k).
Proof.
  revert d; induction l as [|x t IH]; simpl; intros d.
  - split.
    + intros H; right; auto.
    + intros [(b & a & H & _)|[H _]]; [destruct b; discriminate|exact H].
  - rewrite IH. split.
    + intros [(b & a & -> & Hn & Ha)|[Hk Ht]].
      * left. exists (x :: b), a. auto.
      * unfold set_name in Hk. destruct (name_of h x) as [kx|] eqn:E.
        -- rewrite kget_kset in Hk. destruct (key_eqb_spec kx k) as [->|Hne].
           ++ injection Hk as <-. left. exists [], t. apply name_of_named in E. auto.
           ++ right. split; [exact Hk|]. intros o' [<-|Hin]; [|auto].
              intros Hx. apply name_of_named in Hx. congruence.
        -- right. split; [exact Hk|]. intros o' [<-|Hin]; [|auto].
           intros Hx. apply name_of_named in Hx. congruence.
    + intros [(b & a & Heq & Hn & Ha)|[Hk Ht]].
      * destruct b as [|b0 b].
        -- injection Heq as -> ->. right. split; [|exact Ha].
           unfold set_name. apply name_of_named in Hn. rewrite Hn, kget_kset, key_eqb_refl.
           reflexivity.
        -- injection Heq as -> ->. left. exists b, a. auto.
      * right. split; [|auto]. unfold set_name.
        destruct (name_of h x) as [kx|] eqn:E; [|exact Hk].
        rewrite kget_kset. destruct (key_eqb_spec kx k) as [->|Hne]; [|exact Hk].
        exfalso. apply (Ht x); [auto|]. apply name_of_named, E.
Qed.

Lemma set_names_lookup h s k o :
  getitem (set_names h s) k = Ok o <-> last_named h (elems s) k o.
Proof.
  unfold getitem, of_opt, set_names; simpl.
  assert (H := set_names_fold h (elems s) [] k o). simpl in H.
  destruct (kget (fold_left (set_name h) (elems s) []) k) as [o'|].
  - split.
    + intros E; injection E as <-. destruct H as [H _]. destruct (H eq_refl) as [?|[? _]]; [auto|discriminate].
    + intros L. f_equal. destruct H as [_ H]. specialize (H (or_introl L)). congruence.
  - split; [discriminate|]. intros L. destruct H as [_ H]. specialize (H (or_introl L)). discriminate.
Qed.

Lemma set_names_kget h s k o :
  kget (names (set_names h s)) k = Some o <-> last_named h (elems s) k o.
Proof.
  rewrite <- set_names_lookup. unfold getitem, of_opt.
  destruct (kget _ k); split; congruence.
Qed.

Lemma last_named_exists h l k :
  (exists o, In o l /\ named h o k) <-> exists o, last_named h l k o.
Proof.
  split.
  - induction l as [|x t IH]; intros (o & Hin & Hn); [destruct Hin|].
    destruct (in_dec Nat.eq_dec o t) as [Ht|Ht].
    + destruct IH as (o' & b & a & -> & Hn' & Ha); [eauto|].
      exists o', (x :: b), a. auto.
    + destruct Hin as [->|Hin]; [|contradiction].
      assert (D : {exists o', In o' t /\ named h o' k} + {forall o', In o' t -> ~ named h o' k}).
      { clear. induction t as [|y t IH].
        - right; intros o' [].
        - destruct (named_dec h y k) as [Hy|Hy].
          + left; exists y; simpl; auto.
          + destruct IH as [IH|IH].
            * left. destruct IH as (o' & Hin & Hn). exists o'; simpl; auto.
            * right. intros o' [<-|Hin]; auto. }
      destruct D as [(o' & Hin & Hn')|D].
      * destruct IH as (o2 & b & a & -> & Hn2 & Ha); [eauto|].
        exists o2, (o :: b), a. auto.
      * exists o, [], t. auto.
  - intros (o & b & a & -> & Hn & _). exists o. split; [|exact Hn].
    apply in_or_app; simpl; auto.
Qed.

Lemma set_names_keyerror h s k :
  getitem (set_names h s) k = Err EKey <-> forall o, In o (elems s) -> ~ named h o k.
Proof.
  split.
  - intros H o Hin Hn. assert (Hex : exists o, In o (elems s) /\ named h o k) by eauto.
    apply last_named_exists in Hex as (o' & L). apply set_names_lookup in L. congruence.
  - intros H. destruct (getitem (set_names h s) k) as [o|e] eqn:E.
    + apply set_names_lookup in E. exfalso.
      destruct E as (b & a & Heq & Hn & _). apply (H o); [|exact Hn].
      rewrite Heq. apply in_or_app; simpl; auto.
    + unfold getitem, of_opt in E. destruct (kget _ k); congruence.
Qed.

(** The dictionary's keys are the names that occur, each once. *)
Lemma kset_NoDup d k o : NoDup (map fst d) -> NoDup (map fst (kset d k o)).
Proof.
  induction d as [|[k0 o0] t IH]; simpl; intros H.
  - constructor; [intros []|constructor].
  - inversion H as [|? ? Hni Hnd]; subst.
    destruct (key_eqb_spec k0 k) as [->|Hn]; simpl; [constructor; assumption|].
    constructor; [|auto].
    intros Hin. apply Hni. clear - Hin Hn.
    induction t as [|[k1 o1] t IH]; simpl in *.
    + destruct Hin as [->|[]]; congruence.
    + destruct (key_eqb_spec k1 k) as [->|Hn1]; simpl in *; tauto.
Qed.

Lemma kget_In d k o : kget d k = Some o -> In (k, o) d.
Proof.
  induction d as [|[k0 o0] t IH]; simpl; [discriminate|].
  destruct (key_eqb_spec k0 k) as [->|Hn]; [intros H; injection H as <-; auto|auto].
Qed.

Lemma kget_NoDup d k o : NoDup (map fst d) -> In (k, o) d -> kget d k = Some o.
Proof.
  induction d as [|[k0 o0] t IH]; simpl; [tauto|].
  intros Hnd. inversion Hnd as [|? ? Hni Hnd']; subst. intros [He|Hin].
  - injection He as -> ->. rewrite key_eqb_refl. reflexivity.
  - destruct (key_eqb_spec k0 k) as [->|Hn]; [|auto].
    exfalso. apply Hni. apply (in_map fst) in Hin. exact Hin.
Qed.

Lemma set_names_keys_NoDup h s : NoDup (map fst (names (set_names h s))).
Proof.
  unfold set_names; simpl.
  assert (G : forall l d, NoDup (map fst d) -> NoDup (map fst (fold_left (set_name h) l d))).
  { induction l as [|x t IH]; simpl; intros d Hd; [exact Hd|].
    apply IH. unfold set_name. destruct (name_of h x); [apply kset_NoDup|]; exact Hd. }
  apply G. constructor.
Qed.

Lemma set_names_In h s k o :
  In (k, o) (names (set_names h s)) <-> last_named h (elems s) k o.
Proof.
  rewrite <- set_names_kget. split.
  - apply kget_NoDup, set_names_keys_NoDup.
  - apply kget_In.
Qed.

Lemma last_named_fun h l k o o' : last_named h l k o -> last_named h l k o' -> o = o'.
Proof.
  intros H H'.
  assert (E : getitem (set_names h (mkStore l [])) k = Ok o) by (apply set_names_lookup; exact H).
  assert (E' : getitem (set_names h (mkStore l [])) k = Ok o') by (apply set_names_lookup; exact H').
  congruence.
Qed.

(** ** Removal from the list *)

Lemma list_remove_ok o l l' :
  list_remove o l = Ok l' <-> exists b a, l = b ++ o :: a /\ ~ In o b /\ l' = b ++ a.
Proof.
  revert l'; induction l as [|x t IH]; simpl; intros l'.
  - split; [discriminate|]. intros (b & a & H & _). destruct b; discriminate.
  - destruct (Nat.eqb_spec x o) as [->|Hn].
    + split.
      * intros H; injection H as <-. exists [], t. simpl; auto.
      * intros (b & a & H & Hb & ->). destruct b as [|y b]; simpl in *.
        -- injection H as <-. reflexivity.
        -- injection H as <- _. exfalso; auto.
    + destruct (list_remove o t) as [t'|e].
      * split.
        -- intros H; injection H as <-. destruct (IH t') as [H _].
           destruct (H eq_refl) as (b & a & -> & Hb & ->).
           exists (x :: b), a. simpl. split; [reflexivity|split; [|reflexivity]].
           intros [?|?]; auto.
        -- intros (b & a & H & Hb & ->). destruct b as [|y b]; simpl in *.
           ++ injection H as -> _. congruence.
           ++ injection H as <- ->. f_equal. f_equal.
              destruct (IH (b ++ a)) as [_ G].
              assert (Ok t' = Ok (b ++ a)) by (apply G; exists b, a; tauto). congruence.
      * split; [discriminate|]. intros (b & a & H & Hb & ->).
        destruct b as [|y b]; simpl in *; injection H as -> ->; [congruence|].
        destruct (IH (b ++ a)) as [_ G].
        assert (@Err (list oid) e = Ok (b ++ a)) by (apply G; exists b, a; tauto). discriminate.
Qed.

Lemma list_remove_err o l e : list_remove o l = Err e -> e = EValue /\ ~ In o l.
Proof.
  induction l as [|x t IH]; simpl.
  - intros H; injection H as <-. auto.
  - destruct (Nat.eqb_spec x o) as [->|Hn]; [discriminate|].
    destruct (list_remove o t); [discriminate|]. intros H.
    destruct (IH H) as [-> Hni]. split; [reflexivity|]. intros [?|?]; auto.
Qed.

Lemma list_remove_total o l : In o l -> exists l', list_remove o l = Ok l'.
Proof.
  intros H. destruct (list_remove o l) eqn:E; [eauto|].
  apply list_remove_err in E as [_ E]. contradiction.
Qed.

Definition not_in (l : list oid) (x : oid) : bool := negb (existsb (Nat.eqb x) l).

Lemma not_in_spec l x : not_in l x = true <-> ~ In x l.
Proof.
  unfold not_in. rewrite negb_true_iff. split.
  - intros H Hin. assert (existsb (Nat.eqb x) l = true); [|congruence].
    apply existsb_exists. exists x. split; [exact Hin|apply Nat.eqb_refl].
  - intros H. destruct (existsb (Nat.eqb x) l) eqn:E; [|reflexivity].
    apply existsb_exists in E as (y & Hin & Hy). apply Nat.eqb_eq in Hy. subst. contradiction.
Qed.

Lemma filter_all {A} (f : A -> bool) l : (forall x, In x l -> f x = true) -> filter f l = l.
Proof.
  induction l as [|x t IH]; simpl; intros H; [reflexivity|].
  rewrite (H x (or_introl eq_refl)). f_equal. auto.
Qed.

Lemma list_remove_filter o l l' :
  NoDup l -> list_remove o l = Ok l' -> l' = filter (not_in [o]) l /\ In o l.
Proof.
  intros Hnd H. apply list_remove_ok in H as (b & a & -> & Hb & ->).
  apply NoDup_remove in Hnd as [Hnd Ho]. split; [|apply in_or_app; simpl; auto].
  rewrite filter_app. simpl.
  replace (not_in [o] o) with false.
  2:{ symmetry. apply not_true_iff_false. rewrite not_in_spec. simpl; tauto. }
  f_equal; symmetry; apply filter_all; intros x Hx; apply not_in_spec; simpl;
  intros [<-|[]]; apply Ho; apply in_or_app; auto.
Qed.

(** ** Histories *)

Lemma created_app a b : created (a ++ b) = created a + created b.
Proof. induction a as [|[] a IH]; simpl; rewrite ?IH; auto. Qed.

Lemma upd_length h o ob : length (upd h o ob) = length h.
Proof. revert o; induction h as [|x t IH]; intros [|o]; simpl; auto. Qed.

Lemma set_attr_length h o a v : length (set_attr h o a v) = length h.
Proof. unfold set_attr. destruct (nth_error h o); [apply upd_length|reflexivity]. Qed.

Lemma run_snoc ops c : run (ops ++ [c]) = fst (step (run ops) c).
Proof. unfold run. rewrite fold_left_app. reflexivity. Qed.

Lemma run_heap_length ops : length (fst (run ops)) = created ops.
Proof.
  induction ops as [|c ops IH] using rev_ind; [reflexivity|].
  rewrite run_snoc, created_app. destruct (run ops) as [h s]; simpl in *.
  destruct c; simpl.
  - rewrite app_length. simpl. lia.
  - destruct (remove_element s o); simpl; lia.
  - rewrite set_attr_length. lia.
  - lia.
  - lia.
Qed.

Lemma StronglySorted_snoc l x :
  StronglySorted lt l -> (forall y, In y l -> y < x) -> StronglySorted lt (l ++ [x]).
Proof.
  induction 1 as [|y t Hs IH Hf]; simpl; intros Hx.
  - constructor; constructor.
  - constructor.
    + apply IH. auto.
    + apply Forall_app. split; [exact Hf|]. constructor; [|constructor]. auto.
Qed.

Lemma StronglySorted_remove b (o : nat) a :
  StronglySorted lt (b ++ o :: a) -> StronglySorted lt (b ++ a).
Proof.
  induction b as [|y b IH]; simpl; intros H; inversion H as [|? ? Hs Hf]; subst; [exact Hs|].
  constructor; [auto|]. apply Forall_app in Hf as [H1 H2]. inversion H2; subst.
  apply Forall_app; auto.
Qed.

Lemma StronglySorted_lt_NoDup l : StronglySorted lt l -> NoDup l.
Proof.
  induction 1 as [|y t Hs IH Hf]; constructor; [|exact IH].
  intros Hin. rewrite Forall_forall in Hf. specialize (Hf _ Hin). lia.
Qed.

Lemma alive_bound ops o : alive ops o -> o < created ops.
Proof.
  intros (b & ob & a & -> & <- & _). rewrite created_app. simpl. lia.
Qed.

Lemma alive_snoc_create ops ob o :
  alive (ops ++ [OCreate ob]) o <-> alive ops o \/ o = created ops.
Proof.
  split.
  - intros (b & ob' & a & H & Hc & Hr).
    destruct a as [|x a] using rev_ind.
    + apply app_inj_tail in H as [-> _]. auto.
    + clear IHa. rewrite app_comm_cons, app_assoc in H. apply app_inj_tail in H as [-> <-].
      left. exists b, ob', a. split; [reflexivity|split; [exact Hc|]].
      intros Hin; apply Hr; apply in_or_app; auto.
  - intros [(b & ob' & a & -> & Hc & Hr)| ->].
    + exists b, ob', (a ++ [OCreate ob]). split; [rewrite <- app_assoc; reflexivity|].
      split; [exact Hc|]. intros Hin. apply in_app_iff in Hin as [?|[?|[]]]; [auto|discriminate].
    + exists ops, ob, []. split; [reflexivity|]. split; [reflexivity|intros []].
Qed.

Lemma alive_snoc_other ops c o :
  (forall ob, c <> OCreate ob) ->
  (alive (ops ++ [c]) o <-> alive ops o /\ c <> ORemove o).
Proof.
  intros Hc. split.
  - intros (b & ob & a & H & Hb & Hr).
    destruct a as [|x a] using rev_ind.
    + apply app_inj_tail in H as [_ H]. exfalso. apply (Hc ob). exact H.
    + clear IHa. rewrite app_comm_cons, app_assoc in H. apply app_inj_tail in H as [-> <-].
      split.
      * exists b, ob, a. split; [reflexivity|]. split; [exact Hb|].
        intros Hin; apply Hr; apply in_or_app; auto.
      * intros ->. apply Hr. apply in_or_app; simpl; auto.
  - intros [(b & ob & a & -> & Hb & Hr) Hn].
    exists b, ob, (a ++ [c]). split; [rewrite <- app_assoc; reflexivity|].
    split; [exact Hb|]. intros Hin. apply in_app_iff in Hin as [?|[?|[]]]; auto.
Qed.

Lemma run_elems ops :
  StronglySorted lt (elems (snd (run ops))) /\
  forall o, In o (elems (snd (run ops))) <-> alive ops o.
Proof.
  induction ops as [|c ops IHops] using rev_ind; [|destruct IHops as [IHs IHm]].
  - split; [constructor|]. intros o. split; [intros []|].
    intros (b & ob & a & H & _). destruct b; discriminate.
  - rewrite run_snoc. assert (Hl := run_heap_length ops).
    assert (Hsame : forall s', elems s' = elems (snd (run ops)) -> (forall ob, c <> OCreate ob) ->
              (forall o, c = ORemove o -> ~ In o (elems (snd (run ops)))) ->
              StronglySorted lt (elems s') /\ forall o, In o (elems s') <-> alive (ops ++ [c]) o).
    { intros s' -> Hc Hr. split; [exact IHs|]. intros o.
      rewrite (alive_snoc_other _ _ _ Hc), <- IHm. split; [|tauto].
      intros Hin. split; [exact Hin|]. intros E. exact (Hr o E Hin). }
    destruct (run ops) as [h s]; simpl in *.
    destruct c as [ob|o|o k| |k o]; simpl.
    + split.
      * apply StronglySorted_snoc; [exact IHs|]. intros y Hy. apply IHm in Hy.
        apply alive_bound in Hy. lia.
      * intros o. rewrite in_app_iff, alive_snoc_create, IHm. simpl. rewrite Hl.
        split; [intros [H|[<-|[]]]; auto|intros [H| ->]; auto].
    + unfold remove_element. destruct (list_remove o (elems s)) as [l|e] eqn:E; simpl.
      * assert (Hnd := StronglySorted_lt_NoDup _ IHs).
        assert (E' := E). apply list_remove_ok in E' as (b & a & Heq & Hb & ->).
        split; [rewrite Heq in IHs; exact (StronglySorted_remove b o a IHs)|].
        intros x. destruct (list_remove_filter _ _ _ Hnd E) as [Hf _]. rewrite Hf.
        rewrite filter_In, not_in_spec, IHm.
        rewrite alive_snoc_other by congruence. simpl.
        split; intros [H1 H2]; (split; [exact H1|]).
        -- intros He; injection He as ->. tauto.
        -- intros [->|[]]. congruence.
      * apply Hsame; [reflexivity|congruence|].
        intros o' He Hin. injection He as <-. apply list_remove_err in E as [_ E]. contradiction.
    + apply Hsame; [reflexivity|congruence|congruence].
    + apply Hsame; [reflexivity|congruence|congruence].
    + apply Hsame; [reflexivity|congruence|congruence].
Qed.

Lemma sorted_lt_ext (l l' : list nat) :
  StronglySorted lt l -> StronglySorted lt l' -> (forall x, In x l <-> In x l') -> l = l'.
Proof.
  revert l'; induction l as [|x t IH]; intros l' Hs Hs' Hm.
  - destruct l' as [|y t']; [reflexivity|]. exfalso. apply (Hm y). simpl; auto.
  - destruct l' as [|y t'].
    + exfalso. apply (Hm x). simpl; auto.
    + inversion Hs as [|? ? Hs1 Hf]; subst. inversion Hs' as [|? ? Hs1' Hf']; subst.
      rewrite Forall_forall in Hf, Hf'.
      assert (x = y).
      { destruct (Nat.lt_trichotomy x y) as [L|[E|L]]; [|exact E|]; exfalso.
        - assert (In x (y :: t')) by (apply Hm; simpl; auto).
          destruct H as [->|H]; [lia|]. specialize (Hf' _ H). lia.
        - assert (In y (x :: t)) by (apply Hm; simpl; auto).
          destruct H as [->|H]; [lia|]. specialize (Hf _ H). lia. }
      subst y. f_equal. apply IH; [assumption|assumption|].
      intros z. split; intros Hz.
      * assert (In z (x :: t')) by (apply Hm; simpl; auto).
        destruct H as [<-|H]; [specialize (Hf _ Hz); lia|exact H].
      * assert (In z (x :: t)) by (apply Hm; simpl; auto).
        destruct H as [<-|H]; [specialize (Hf' _ Hz); lia|exact H].
Qed.

Lemma remove_step ops o :
  (alive ops o -> snd (step (run ops) (ORemove o)) = None) /\
  (~ alive ops o -> step (run ops) (ORemove o) = (run ops, Some EValue)).
Proof.
  destruct (run_elems ops) as [_ Hm]. destruct (run ops) as [h s] eqn:E. simpl in *.
  unfold remove_element. split; intros H.
  - apply Hm in H. apply list_remove_total in H as (l & ->). reflexivity.
  - rewrite <- Hm in H. destruct (list_remove o (elems s)) as [l|e] eqn:El.
    + exfalso. apply H. apply list_remove_ok in El as (b & a & -> & _). apply in_or_app; simpl; auto.
    + apply list_remove_err in El as [-> _]. reflexivity.
Qed.
