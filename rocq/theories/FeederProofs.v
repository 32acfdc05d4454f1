(** Lemmas about feeders. *)
From Verif Require Import Base BaseFacts StoreModel NetworkModel NetworkSpec NetworkProofs NetworkBfs NetworkQueries NetworkDown NetworkTop FeederModel FeederSpec.
From Coq Require Import Permutation.
Local Open Scope string_scope.
Local Open Scope nat_scope.
Local Open Scope list_scope.

Lemma nth_set_tags ts p t q : nth_error (set_tags ts p t) q = if Nat.eqb p q then match nth_error ts p with Some _ => Some t | None => None end else nth_error ts q.
Proof.
  revert p q. induction ts as [|x ts IH]; intros [|p] [|q]; cbn; try reflexivity; [|apply IH]. destruct (Nat.eqb p q); reflexivity.
Qed.
Lemma is_set_filled x : is_set x = true <-> filled (Some x).
Proof.
  unfold is_set, filled. destruct x as [s|]; [|split; [discriminate|intros (s & E & _); discriminate]]. destruct (String.eqb_spec s "") as [->|N]; cbn.
  - split; [discriminate|]. intros (s & E & N). injection E as <-. congruence.
  - split; [intros _; exists s; auto|reflexivity].
Qed.
Lemma is_set_blank x : is_set x = false <-> blank (Some x).
Proof.
  unfold is_set, blank. destruct x as [s|]; [|split; [auto|reflexivity]]. destruct (String.eqb_spec s "") as [->|N]; cbn; [split; auto|].
  split; [discriminate|]. intros [E|E]; congruence.
Qed.
Lemma blank_not_filled x : blank x -> ~ filled x.
Proof. intros [-> | ->] (s & E & N); [discriminate|]. injection E as <-. congruence. Qed.
Lemma flagged_spec ts p : is_substation ts p = true <-> flagged ts p.
Proof.
  unfold is_substation, flagged. destruct (nth_error ts p) as [t|]; [|split; [discriminate|intros (t & E & _); discriminate]].
  destruct (t_issub t) as [[[]|]|] eqn:E; (split; [|intros (t' & Q & F); injection Q as <-; rewrite E in F; congruence]); try discriminate. eauto.
Qed.

(** A step keeps flags and names that are set. *)
Definition keeps (t t' : tags) : Prop :=
  t_issub t' = t_issub t /\ (filled (t_sub t) -> t_sub t' = t_sub t) /\ (filled (t_feeder t) -> t_feeder t' = t_feeder t).
Definition kept (ts ts' : list tags) : Prop :=
  (forall p, nth_error ts' p = None <-> nth_error ts p = None) /\ forall p t t', nth_error ts p = Some t -> nth_error ts' p = Some t' -> keeps t t'.
Lemma kept_refl ts : kept ts ts.
Proof. split; [reflexivity|]. intros p t t' H H'. rewrite H in H'. injection H' as <-. repeat split; auto. Qed.
Lemma kept_trans a b c : kept a b -> kept b c -> kept a c.
Proof.
  intros [A1 A2] [B1 B2]. split; [intros p; rewrite B1; apply A1|]. intros p t t' H H'. destruct (nth_error b p) as [u|] eqn:E; [|apply A1 in E; congruence].
  destruct (A2 p t u H E) as (X1 & X2 & X3). destruct (B2 p u t' E H') as (Y1 & Y2 & Y3). split; [congruence|]. split; intros F.
  - rewrite Y2, X2; auto. rewrite X2; auto.
  - rewrite Y3, X3; auto. rewrite X3; auto.
Qed.
Lemma kept_flagged ts ts' p : kept ts ts' -> (flagged ts' p <-> flagged ts p).
Proof.
  intros [K1 K2]. unfold flagged. destruct (nth_error ts p) as [t|] eqn:E.
  - destruct (nth_error ts' p) as [t'|] eqn:E'; [|apply K1 in E'; congruence]. destruct (K2 p t t' E E') as (X & _). split; intros (u & Q & F); injection Q as <-; eexists; split; eauto; congruence.
  - apply K1 in E. rewrite E. split; intros (u & Q & _); discriminate.
Qed.

Lemma tag_one_spec name ts p ts' x : tag_one name ts p = (ts', x) ->
  kept ts ts' /\ (forall q, q <> p -> nth_error ts' q = nth_error ts q) /\
  (x = None -> exists nm t, name = Some nm /\ nth_error ts p = Some t /\ blank (t_sub t) /\ blank (t_feeder t) /\
     nth_error ts' p = Some (mkTags (t_issub t) (Some (Some nm)) (Some (Some ("Feeder_" ++ nm)%string)))) /\
  (forall nm t, name = Some nm -> nth_error ts p = Some t -> blank (t_sub t) -> blank (t_feeder t) -> x = None).
Proof.
  unfold tag_one. intros E. destruct (nth_error ts p) as [t|] eqn:Ht.
  2:{ injection E as <- <-. split; [apply kept_refl|]. split; [auto|]. split; [discriminate|]. congruence. }
  assert (W : forall u, (blank (t_sub t) -> blank (t_feeder t) \/ t_feeder u = t_feeder t -> t_issub u = t_issub t -> blank (t_sub t) -> kept ts (set_tags ts p u)) /\
                        (forall q, q <> p -> nth_error (set_tags ts p u) q = nth_error ts q)).
  { intros u. split.
    - intros Bs Bf Is _. split.
      + intros q. rewrite nth_set_tags. destruct (Nat.eqb_spec p q) as [<-|]; [rewrite Ht; split; discriminate|reflexivity].
      + intros q v v' Hv Hv'. rewrite nth_set_tags in Hv'. destruct (Nat.eqb_spec p q) as [<-|].
        * rewrite Ht in *. injection Hv as <-. injection Hv' as <-. split; [exact Is|]. split; [intros F; exfalso; exact (blank_not_filled _ Bs F)|].
          intros F. destruct Bf as [Bf|Bf]; [exfalso; exact (blank_not_filled _ Bf F)|exact Bf].
        * rewrite Hv in Hv'. injection Hv' as <-. repeat split; auto.
    - intros q N. rewrite nth_set_tags. destruct (Nat.eqb_spec p q); congruence. }
  destruct (t_sub t) as [s|] eqn:Es.
  2:{ injection E as <- <-. split; [apply kept_refl|]. split; [auto|]. split; [discriminate|]. intros nm t0 _ Q Bs. injection Q as <-. rewrite Es in Bs. destruct Bs; discriminate. }
  destruct (is_set s) eqn:Ss.
  { injection E as <- <-. split; [apply kept_refl|]. split; [auto|]. split; [discriminate|]. intros nm t0 _ Q Bs. injection Q as <-. rewrite Es in Bs. apply is_set_blank in Bs. congruence. }
  apply is_set_blank in Ss. destruct (t_feeder t) as [f|] eqn:Ef.
  2:{ injection E as <- <-. destruct (W (mkTags (t_issub t) (Some name) None)) as [W1 W2]. split; [apply W1; auto|]. split; [exact W2|]. split; [discriminate|].
      intros nm t0 _ Q _ Bf. injection Q as <-. rewrite Ef in Bf. destruct Bf; discriminate. }
  destruct (is_set f) eqn:Sf.
  { injection E as <- <-. destruct (W (mkTags (t_issub t) (Some name) (Some f))) as [W1 W2]. split; [apply W1; auto|]. split; [exact W2|]. split; [discriminate|].
    intros nm t0 _ Q _ Bf. injection Q as <-. rewrite Ef in Bf. apply is_set_blank in Bf. congruence. }
  apply is_set_blank in Sf. destruct name as [nm|].
  2:{ injection E as <- <-. destruct (W (mkTags (t_issub t) (Some None) (Some f))) as [W1 W2]. split; [apply W1; auto|]. split; [exact W2|]. split; [discriminate|]. discriminate. }
  injection E as <- <-. set (u := mkTags (t_issub t) (Some (Some nm)) (Some (Some ("Feeder_" ++ nm)%string))).
  assert (S2 : forall v, set_tags (set_tags ts p v) p u = set_tags ts p u).
  { intros v. clear. revert p. induction ts as [|y ts IH]; intros [|p]; cbn; try reflexivity. f_equal. apply IH. }
  rewrite S2. destruct (W u) as [W1 W2]. split; [apply W1; auto|]. split; [exact W2|]. split; [|reflexivity]. intros _. exists nm, t.
  split; [reflexivity|]. split; [reflexivity|]. split; [rewrite Es; exact Ss|]. split; [rewrite Ef; exact Sf|]. rewrite nth_set_tags, Nat.eqb_refl, Ht. reflexivity.
Qed.

Lemma tag_all_spec name l : forall ts ts' x, tag_all name ts l = (ts', x) ->
  kept ts ts' /\ (forall q, ~ In q l -> nth_error ts' q = nth_error ts q) /\
  (x = None -> NoDup l -> forall p, In p l -> exists nm t, name = Some nm /\ nth_error ts p = Some t /\ blank (t_sub t) /\ blank (t_feeder t) /\
     nth_error ts' p = Some (mkTags (t_issub t) (Some (Some nm)) (Some (Some ("Feeder_" ++ nm)%string)))) /\
  (forall nm, name = Some nm -> NoDup l -> (forall p, In p l -> exists t, nth_error ts p = Some t /\ blank (t_sub t) /\ blank (t_feeder t)) -> x = None).
Proof.
  induction l as [|p l IH]; intros ts ts' x E; cbn [tag_all] in E.
  - injection E as <- <-. split; [apply kept_refl|]. split; [auto|]. split; [intros _ _ p []|]. reflexivity.
  - destruct (tag_one name ts p) as [ts1 y] eqn:T. destruct (tag_one_spec _ _ _ _ _ T) as (K1 & O1 & N1 & S1). destruct y as [e|].
    + injection E as <- <-. split; [exact K1|]. split; [intros q Hq; apply O1; intros ->; apply Hq; left; reflexivity|]. split; [discriminate|].
      intros nm En _ Hb. destruct (Hb p (or_introl eq_refl)) as (t & Ht & B1 & B2). apply (S1 nm t); auto.
    + apply IH in E. destruct E as (K2 & O2 & N2 & S2). split; [eapply kept_trans; eauto|]. split.
      { intros q Hq. rewrite O2 by (intros H; apply Hq; right; exact H). apply O1. intros ->. apply Hq. left. reflexivity. }
      split.
      * intros Ex ND q Hq. apply NoDup_cons_iff in ND. destruct ND as [Np ND]. destruct Hq as [<-|Hq].
        { destruct (N1 eq_refl) as (nm & t & En & Ht & B1 & B2 & Ht'). exists nm, t. rewrite (O2 p Np). auto 6. }
        { destruct (N2 Ex ND q Hq) as (nm & t & En & Ht & H). rewrite O1 in Ht by (intros ->; contradiction). exists nm, t. auto. }
      * intros nm En ND Hb. apply NoDup_cons_iff in ND. destruct ND as [Np ND]. apply (S2 nm En ND). intros q Hq. rewrite O1 by (intros ->; contradiction). apply Hb. right. exact Hq.
Qed.

Section Cut.
Variable arrange : list nat -> list nat.
Hypothesis Arr : forall l, Permutation l (arrange l).
Variable es : list elem.
Variable s : string.
Variable n : network.
Hypothesis Bn : build es s = Ok n.
Hypothesis AN : all_named es.

Lemma below_spec e l : below arrange es n e = Ok l -> exists t, e_to e = Some t /\ NoDup l /\ forall p, In p l <-> under es n t p.
Proof.
  unfold below. destruct (e_to e) as [t|]; [|discriminate]. destruct (get_all_elements_downstream es n t) as [l0|] eqn:E; cbn [bind]; [|discriminate].
  intros Q. injection Q as <-. exists t. split; [reflexivity|]. destruct (proj1 (downstream_result es s n t Bn AN) l0 E) as (_ & ND & H & _).
  split; [eapply Permutation_NoDup; [apply Arr|exact ND]|]. intros p. unfold under. rewrite <- H. split; intros Hp.
  - eapply Permutation_in; [apply Permutation_sym, Arr|exact Hp].
  - eapply Permutation_in; [apply Arr|exact Hp].
Qed.
Lemma below_total e t : e_to e = Some t -> In t (d_nodes (net_di n)) -> (forall x, downstream_name es (net_di n) t x -> exists p, bears es x p) -> exists l, below arrange es n e = Ok l.
Proof.
  intros Et Ht Hb. unfold below. rewrite Et. destruct (get_all_elements_downstream es n t) as [l0|x] eqn:E; cbn [bind]; [eauto|]. exfalso.
  destruct (proj2 (downstream_result es s n t Bn AN) x E) as (_ & [H|(y & Hy & Hn)]); [contradiction|]. destruct (Hb y Hy) as [p Hp]. exact (Hn p Hp).
Qed.

(** A transformer that is cut: flagged, with nothing flagged below. *)
Definition cuts (ts : list tags) (i : nat) (e : elem) (t : string) : Prop :=
  nth_error es i = Some e /\ e_cls e = "PowerTransformer" /\ flagged ts i /\ e_to e = Some t /\ forall p, under es n t p -> ~ flagged ts p.

Lemma cuts_kept ts ts' i e t : kept ts ts' -> (cuts ts' i e t <-> cuts ts i e t).
Proof.
  intros K. unfold cuts. rewrite (kept_flagged _ _ _ K). split; intros (H1 & H2 & H3 & H4 & H5); repeat split; auto; intros p Hp; specialize (H5 p Hp); rewrite (kept_flagged _ _ _ K) in *; auto.
Qed.

Lemma cut_one_spec ts fs i e ts' fs' x : nth_error es i = Some e -> cut_one arrange es n ts fs i e = (ts', fs', x) ->
  (ts' = ts /\ fs' = fs /\ (x = None -> forall t nm, e_name e = Some nm -> ~ cuts ts i e t)) \/
  (exists t l nm, cuts ts i e t /\ e_name e = Some nm /\ NoDup l /\ (forall p, In p l <-> under es n t p) /\ fs' = fs ++ [l] /\ tag_all nm ts l = (ts', x)).
Proof.
  intros Hi. unfold cut_one. destruct (is_head ts i e) eqn:Hd.
  - unfold is_head in Hd. apply andb_prop in Hd. destruct Hd as [Hd Hn]. apply andb_prop in Hd. destruct Hd as [Hc Hf]. apply String.eqb_eq in Hc. apply flagged_spec in Hf.
    destruct (below arrange es n e) as [l|y] eqn:Bl.
    + destruct (below_spec _ _ Bl) as (t & Et & ND & Hl). destruct (existsb (is_substation ts) l) eqn:Ex.
      * intros E. injection E as <- <- <-. left. split; [reflexivity|]. split; [reflexivity|]. intros _ t' nm _ (_ & _ & _ & Et' & Hn').
        apply existsb_exists in Ex. destruct Ex as (p & Hp & Fp). apply flagged_spec in Fp. assert (t' = t) by congruence. subst t'. apply (Hn' p); [apply Hl; exact Hp|exact Fp].
      * destruct (e_name e) as [nm|] eqn:En; [|discriminate]. destruct (tag_all nm ts l) as [ts1 y] eqn:T. intros E. injection E as <- <- <-. right. exists t, l, nm.
        split; [|auto 6]. split; [exact Hi|]. split; [exact Hc|]. split; [exact Hf|]. split; [exact Et|]. intros p Hp Fp. apply Hl in Hp. apply flagged_spec in Fp.
        assert (Q : existsb (is_substation ts) l = true) by (apply existsb_exists; eauto). congruence.
    + intros E. injection E as <- <- <-. left. split; [reflexivity|]. split; [reflexivity|]. discriminate.
  - intros E. injection E as <- <- <-. left. split; [reflexivity|]. split; [reflexivity|]. intros _ t nm En (_ & Hc & Hf & _). apply flagged_spec in Hf.
    unfold is_head in Hd. rewrite Hc, String.eqb_refl, Hf, En in Hd. discriminate.
Qed.

(** Whatever the outcome. *)
Lemma cut_any l : forall ts fs i ts' fs' x, (forall k, nth_error l k = nth_error es (i + k)) -> cut arrange es n ts fs i l = (ts', fs', x) ->
  kept ts ts' /\ forall p, (forall k e t, cuts ts k e t -> ~ under es n t p) -> nth_error ts' p = nth_error ts p.
Proof.
  induction l as [|e l IH]; intros ts fs i ts' fs' x Hl E; cbn [cut] in E; [injection E as <- <- <-; split; [apply kept_refl|auto]|].
  destruct (cut_one arrange es n ts fs i e) as [[ts1 fs1] y] eqn:C. assert (Hi : nth_error es i = Some e) by (specialize (Hl 0); rewrite Nat.add_0_r in Hl; cbn in Hl; congruence).
  assert (S1 : kept ts ts1 /\ forall p, (forall k e t, cuts ts k e t -> ~ under es n t p) -> nth_error ts1 p = nth_error ts p).
  { destruct (cut_one_spec _ _ _ _ _ _ _ Hi C) as [(-> & -> & _)|(t & l' & nm & Cu & En & ND & Hu & -> & T)]; [split; [apply kept_refl|auto]|].
    destruct (tag_all_spec _ _ _ _ _ T) as (K & O & _). split; [exact K|]. intros p Hp. apply O. intros H. apply Hu in H. exact (Hp i e t Cu H). }
  destruct S1 as [K1 O1]. destruct y as [ex|]; [injection E as <- <- <-; auto|].
  apply IH in E; [|intros k; specialize (Hl (S k)); cbn in Hl; rewrite Hl; f_equal; lia]. destruct E as [K2 O2]. split; [eapply kept_trans; eauto|].
  intros p Hp. rewrite O2; [apply O1; exact Hp|]. intros k e' t Cu. apply (cuts_kept _ _ _ _ _ K1) in Cu. apply (Hp k e' t Cu).
Qed.

(** Success. *)
Lemma cut_ok l : forall ts fs i ts' fs', (forall k, nth_error l k = nth_error es (i + k)) ->
  (forall k e, nth_error es k = Some e -> e_cls e = "PowerTransformer" -> flagged ts k -> exists nm, e_name e = Some (Some nm) /\ nm <> "") ->
  cut arrange es n ts fs i l = (ts', fs', None) ->
  (forall p, (forall k e t, i <= k -> cuts ts k e t -> ~ under es n t p) -> nth_error ts' p = nth_error ts p) /\
  (forall k e t nm p, i <= k -> cuts ts k e t -> e_name e = Some (Some nm) -> under es n t p ->
     exists tg, nth_error ts p = Some tg /\ blank (t_sub tg) /\ blank (t_feeder tg) /\
       nth_error ts' p = Some (mkTags (t_issub tg) (Some (Some nm)) (Some (Some ("Feeder_" ++ nm)%string)))) /\
  (forall k k' e e' t t' p, i <= k -> i <= k' -> cuts ts k e t -> cuts ts k' e' t' -> under es n t p -> under es n t' p -> k = k') /\
  (exists added, fs' = fs ++ added /\
     (forall f, In f added -> exists k e t, i <= k /\ cuts ts k e t /\ forall p, In p f <-> under es n t p) /\
     (forall k e t, i <= k -> cuts ts k e t -> exists f, In f added /\ forall p, In p f <-> under es n t p)).
Proof.
  assert (Nth : forall k e t, nth_error es k = None -> forall ts, ~ cuts ts k e t) by (intros k e t H ts (H1 & _); congruence).
  induction l as [|e l IH]; intros ts fs i ts' fs' Hl Pr E; cbn [cut] in E.
  - injection E as <- <-. assert (No : forall k e t, i <= k -> ~ cuts ts k e t).
    { intros k e t Hk. apply Nth. specialize (Hl (k - i)). rewrite Nat.add_comm, Nat.sub_add in Hl by exact Hk. rewrite <- Hl. destruct (k - i); reflexivity. }
    split; [auto|]. split; [intros k e t nm p Hk C; exfalso; exact (No _ _ _ Hk C)|]. split; [intros k k' e e' t t' p Hk _ C; exfalso; exact (No _ _ _ Hk C)|].
    exists []. rewrite app_nil_r. split; [reflexivity|]. split; [intros f []|]. intros k e t Hk C. exfalso. exact (No _ _ _ Hk C).
  - destruct (cut_one arrange es n ts fs i e) as [[ts1 fs1] y] eqn:C. assert (Hi : nth_error es i = Some e) by (specialize (Hl 0); rewrite Nat.add_0_r in Hl; cbn in Hl; congruence).
    destruct y as [ex|]; [discriminate|].
    assert (Hl' : forall k, nth_error l k = nth_error es (S i + k)) by (intros k; specialize (Hl (S k)); cbn in Hl; rewrite Hl; f_equal; lia).
    destruct (cut_one_spec _ _ _ _ _ _ _ Hi C) as [(-> & -> & No)|(t0 & l0 & nm0 & Cu & En & ND & Hu & -> & T)].
    + destruct (IH _ _ _ _ _ Hl' Pr E) as (I1 & I2 & I3 & added & Ea & I4 & I5).
      assert (Ni : forall e' t, ~ cuts ts i e' t).
      { intros e' t Cu. assert (e' = e) by (destruct Cu; congruence). subst e'. destruct (Pr i e Hi) as (nm & En & _); [apply Cu|apply Cu|]. exact (No eq_refl t _ En Cu). }
      assert (Up : forall k e' t, i <= k -> cuts ts k e' t -> S i <= k). { intros k e' t Hk Cu. destruct (Nat.eq_dec i k) as [<-|]; [exfalso; exact (Ni _ _ Cu)|lia]. }
      split; [intros p Hp; apply I1; intros k e' t Hk; apply (Hp k e' t); lia|]. split; [intros k e' t nm p Hk Cu; apply (I2 k e' t nm p (Up _ _ _ Hk Cu) Cu)|].
      split; [intros k k' e1 e2 t t' p Hk Hk' C1 C2; apply (I3 k k' e1 e2 t t' p (Up _ _ _ Hk C1) (Up _ _ _ Hk' C2) C1 C2)|].
      exists added. split; [exact Ea|]. split.
      * intros f Hf. destruct (I4 f Hf) as (k & e' & t & Hk & H). exists k, e', t. split; [lia|exact H].
      * intros k e' t Hk Cu. apply (I5 k e' t (Up _ _ _ Hk Cu) Cu).
    + destruct (tag_all_spec _ _ _ _ _ T) as (K & O & Tn & _). specialize (Tn eq_refl ND).
      assert (Nm : exists nm, nm0 = Some nm /\ nm <> "") by (destruct (Pr i e Hi) as (nm & En' & Nn); [apply Cu|apply Cu|]; exists nm; split; [congruence|exact Nn]).
      destruct Nm as (nm1 & -> & Nn).
      assert (Pr' : forall k e, nth_error es k = Some e -> e_cls e = "PowerTransformer" -> flagged ts1 k -> exists nm, e_name e = Some (Some nm) /\ nm <> "").
      { intros k e' H1 H2 H3. apply (Pr k e' H1 H2). apply (kept_flagged _ _ _ K). exact H3. }
      destruct (IH _ _ _ _ _ Hl' Pr' E) as (I1 & I2 & I3 & added & Ea & I4 & I5).
      assert (CK : forall k e t, cuts ts1 k e t <-> cuts ts k e t) by (intros; apply cuts_kept; exact K).
      assert (Same : forall e' t, cuts ts i e' t -> e' = e /\ t = t0). { intros e' t Cu'. destruct Cu as (A1 & _ & _ & A2 & _). destruct Cu' as (B1 & _ & _ & B2 & _). split; congruence. }
      assert (Dis : forall k e' t p, S i <= k -> cuts ts k e' t -> under es n t p -> ~ under es n t0 p).
      { intros k e' t p Hk Ck Up U0. apply Hu in U0. destruct (Tn p U0) as (nm & tg & Q & Ht & B1 & B2 & Ht'). injection Q as <-.
        destruct (Pr k e') as (nm2 & En2 & _); [apply Ck|apply Ck|apply Ck|]. destruct (I2 k e' t nm2 p Hk (proj2 (CK _ _ _) Ck) En2 Up) as (tg' & Ht2 & B1' & _).
        rewrite Ht' in Ht2. injection Ht2 as <-. cbn in B1'. destruct B1' as [B|B]; [discriminate|]. injection B as B. contradiction. }
      split; [|split; [|split]].
      * intros p Hp. rewrite I1; [apply O; intros H; apply Hu in H; exact (Hp i e t0 (le_n i) Cu H)|]. intros k e' t Hk Ck. apply CK in Ck. apply (Hp k e' t); [lia|exact Ck].
      * intros k e' t nm p Hk Ck Enm Up. destruct (Nat.eq_dec i k) as [<-|Nk].
        { destruct (Same _ _ Ck) as [-> ->]. assert (nm1 = nm) by congruence. subst nm1. destruct (Tn p (proj2 (Hu p) Up)) as (nm' & tg & Q & Ht & B1 & B2 & Ht'). injection Q as <-.
          exists tg. split; [exact Ht|]. split; [exact B1|]. split; [exact B2|]. rewrite I1; [exact Ht'|]. intros k e' t Hk' Ck' Up'. apply CK in Ck'. exact (Dis k e' t p Hk' Ck' Up' Up). }
        { assert (Hk' : S i <= k) by lia. destruct (I2 k e' t nm p Hk' (proj2 (CK _ _ _) Ck) Enm Up) as (tg & Ht & B1 & B2 & Ht').
          rewrite O in Ht by (intros H; apply Hu in H; exact (Dis k e' t p Hk' Ck Up H)). exists tg. auto. }
      * intros k k' e1 e2 t t' p Hk Hk' C1 C2 U1 U2. destruct (Nat.eq_dec i k) as [<-|N1]; destruct (Nat.eq_dec i k') as [<-|N2]; [reflexivity| | |].
        { exfalso. destruct (Same _ _ C1) as [-> ->]. apply (Dis k' e2 t' p); [lia|exact C2|exact U2|exact U1]. }
        { exfalso. destruct (Same _ _ C2) as [-> ->]. apply (Dis k e1 t p); [lia|exact C1|exact U1|exact U2]. }
        { apply (I3 k k' e1 e2 t t' p); try lia; try (apply CK; assumption); assumption. }
      * exists (l0 :: added). rewrite Ea, <- app_assoc. split; [reflexivity|]. split.
        { intros f [<-|Hf]; [exists i, e, t0; auto|]. destruct (I4 f Hf) as (k & e' & t & Hk & Ck & H). exists k, e', t. split; [lia|]. split; [apply CK; exact Ck|exact H]. }
        { intros k e' t Hk Ck. destruct (Nat.eq_dec i k) as [<-|Nk]; [destruct (Same _ _ Ck) as [-> ->]; exists l0; split; [left; reflexivity|exact Hu]|].
          destruct (I5 k e' t) as (f & Hf & H); [lia|apply CK; exact Ck|]. exists f. split; [right; exact Hf|exact H]. }
Qed.

Lemma cut_total l : forall ts fs i, (forall k, nth_error l k = nth_error es (i + k)) -> proper es n ts ->
  (forall k e t p, i <= k -> cuts ts k e t -> under es n t p -> exists tg, nth_error ts p = Some tg /\ blank (t_sub tg) /\ blank (t_feeder tg)) ->
  (forall k k' e e' t t' p, i <= k -> i <= k' -> cuts ts k e t -> cuts ts k' e' t' -> under es n t p -> under es n t' p -> k = k') ->
  exists ts' fs', cut arrange es n ts fs i l = (ts', fs', None).
Proof.
  induction l as [|e l IH]; intros ts fs i Hl Pr Bl Di; cbn [cut]; [eauto|].
  assert (Hi : nth_error es i = Some e) by (specialize (Hl 0); rewrite Nat.add_0_r in Hl; cbn in Hl; congruence).
  assert (Hl' : forall k, nth_error l k = nth_error es (S i + k)) by (intros k; specialize (Hl (S k)); cbn in Hl; rewrite Hl; f_equal; lia).
  destruct (cut_one arrange es n ts fs i e) as [[ts1 fs1] y] eqn:C.
  assert (Y : y = None /\ kept ts ts1 /\ forall p, (forall t, cuts ts i e t -> ~ under es n t p) -> nth_error ts1 p = nth_error ts p).
  { assert (C' := C). unfold cut_one in C'. destruct (is_head ts i e) eqn:Hd; [|injection C' as <- <- <-; split; [reflexivity|]; split; [apply kept_refl|auto]].
    unfold is_head in Hd. apply andb_prop in Hd. destruct Hd as [Hd _]. apply andb_prop in Hd. destruct Hd as [Hc Hf]. apply String.eqb_eq in Hc. apply flagged_spec in Hf.
    destruct (Pr i e Hi Hc Hf) as ((nm & En & Nn) & t & Et & Ht & Hb). destruct (below_total e t Et Ht Hb) as [l0 El]. rewrite El in C'.
    destruct (cut_one_spec _ _ _ _ _ _ _ Hi C) as [(-> & -> & No)|(t0 & l1 & nm0 & Cu & En' & ND & Hu & -> & T)].
    - split; [|split; [apply kept_refl|auto]]. destruct (existsb (is_substation ts) l0) eqn:Ex; [congruence|]. exfalso.
      rewrite En in C'. destruct (tag_all (Some nm) ts l0) as [ts2 z]. assert (F : length fs = length (fs ++ [l0])) by (f_equal; congruence). rewrite app_length in F. cbn in F. lia.
    - destruct (tag_all_spec _ _ _ _ _ T) as (K & O & _ & Tt). assert (nm0 = Some nm) by congruence. subst nm0. split; [|split; [exact K|]].
      + apply (Tt nm eq_refl ND). intros p Hp. apply (Bl i e t0 p (le_n i) Cu). apply Hu. exact Hp.
      + intros p Hp. apply O. intros H. apply Hu in H. exact (Hp t0 Cu H). }
  destruct Y as (-> & K & O). assert (CK : forall k e t, cuts ts1 k e t <-> cuts ts k e t) by (intros; apply cuts_kept; exact K).
  apply IH; [exact Hl'| | |].
  - intros k e' H1 H2 H3. apply (Pr k e' H1 H2). apply (kept_flagged _ _ _ K). exact H3.
  - intros k e' t p Hk Ck Up. apply CK in Ck. rewrite O; [apply (Bl k e' t p); [lia|exact Ck|exact Up]|]. intros t' C' U'. assert (k = i) by (eapply (Di k i); eauto; lia). lia.
  - intros k k' e1 e2 t t' p Hk Hk' C1 C2. apply CK in C1, C2. apply (Di k k' e1 e2 t t' p); auto; lia.
Qed.

(** Against the specification. *)
Lemma lowest_cuts ts i nm t : lowest es n ts i nm t <-> exists e, cuts ts i e t /\ e_name e = Some (Some nm).
Proof.
  unfold lowest, substation, cuts. split.
  - intros ((Hf & e & He & Hc & Hn & Ht) & Hb). exists e. auto 8.
  - intros (e & (He & Hc & Hf & Ht & Hb) & Hn). split; [split; [exact Hf|exists e; auto]|exact Hb].
Qed.

Lemma feeder_spec ts ts' fs' : proper es n ts -> feeder_preprocessing arrange es n ts = (ts', fs', None) ->
  (forall i nm t p, lowest es n ts i nm t -> under es n t p ->
     exists tg, nth_error ts p = Some tg /\ blank (t_sub tg) /\ blank (t_feeder tg) /\
       nth_error ts' p = Some (mkTags (t_issub tg) (Some (Some nm)) (Some (Some ("Feeder_" ++ nm)%string)))) /\
  (forall p, (forall i nm t, lowest es n ts i nm t -> ~ under es n t p) -> nth_error ts' p = nth_error ts p) /\
  (forall i i' nm nm' t t' p, lowest es n ts i nm t -> lowest es n ts i' nm' t' -> under es n t p -> under es n t' p -> i = i') /\
  (forall f, In f fs' -> exists i nm t, lowest es n ts i nm t /\ forall p, In p f <-> under es n t p) /\
  (forall i nm t, lowest es n ts i nm t -> exists f, In f fs' /\ forall p, In p f <-> under es n t p).
Proof.
  intros Pr E. unfold feeder_preprocessing in E.
  assert (Pn : forall k e, nth_error es k = Some e -> e_cls e = "PowerTransformer" -> flagged ts k -> exists nm, e_name e = Some (Some nm) /\ nm <> "") by (intros k e H1 H2 H3; apply (Pr k e H1 H2 H3)).
  destruct (cut_ok es ts [] 0 ts' fs' (fun k => eq_refl) Pn E) as (I1 & I2 & I3 & added & -> & I4 & I5). cbn [app].
  assert (Low : forall k e t, cuts ts k e t -> exists nm, lowest es n ts k nm t).
  { intros k e t C. destruct (Pn k e) as (nm & En & _); [apply C|apply C|apply C|]. exists nm. apply lowest_cuts. eauto. }
  split; [|split; [|split; [|split]]].
  - intros i nm t p L U. apply lowest_cuts in L. destruct L as (e & C & En). apply (I2 i e t nm p (Nat.le_0_l i) C En U).
  - intros p Hp. apply I1. intros k e t _ C. destruct (Low k e t C) as [nm L]. exact (Hp k nm t L).
  - intros i i' nm nm' t t' p L L' U U'. apply lowest_cuts in L, L'. destruct L as (e & C & _), L' as (e' & C' & _). eapply (I3 i i'); eauto; lia.
  - intros f Hf. destruct (I4 f Hf) as (k & e & t & _ & C & H). destruct (Low k e t C) as [nm L]. eauto.
  - intros i nm t L. apply lowest_cuts in L. destruct L as (e & C & _). apply (I5 i e t (Nat.le_0_l i) C).
Qed.

Lemma feeder_any ts ts' fs' x : feeder_preprocessing arrange es n ts = (ts', fs', x) ->
  forall p tg, nth_error ts p = Some tg -> exists tg', nth_error ts' p = Some tg' /\ t_issub tg' = t_issub tg /\
    (filled (t_sub tg) -> t_sub tg' = t_sub tg) /\ (filled (t_feeder tg) -> t_feeder tg' = t_feeder tg).
Proof.
  intros E p tg Ht. destruct (cut_any es ts [] 0 ts' fs' x (fun k => eq_refl) E) as [[K1 K2] _]. destruct (nth_error ts' p) as [tg'|] eqn:E'; [|apply K1 in E'; congruence].
  exists tg'. split; [reflexivity|]. exact (K2 p tg tg' Ht E').
Qed.

Lemma feeder_total ts : proper es n ts ->
  (forall i nm t p, lowest es n ts i nm t -> under es n t p -> exists tg, nth_error ts p = Some tg /\ blank (t_sub tg) /\ blank (t_feeder tg)) ->
  (forall i i' nm nm' t t' p, lowest es n ts i nm t -> lowest es n ts i' nm' t' -> under es n t p -> under es n t' p -> i = i') ->
  exists ts' fs', feeder_preprocessing arrange es n ts = (ts', fs', None).
Proof.
  intros Pr Bl Di. assert (Low : forall k e t, cuts ts k e t -> exists nm, lowest es n ts k nm t).
  { intros k e t C. destruct (Pr k e) as ((nm & En & _) & _); [apply C|apply C|apply C|]. exists nm. apply lowest_cuts. eauto. }
  apply cut_total; auto.
  - intros k e t p _ C U. destruct (Low k e t C) as [nm L]. eapply Bl; eauto.
  - intros k k' e e' t t' p _ _ C C' U U'. destruct (Low _ _ _ C) as [nm L]. destruct (Low _ _ _ C') as [nm' L']. eapply (Di k k'); eauto.
Qed.
End Cut.

Lemma feeder_raises arrange es s n ts ts' fs' x i nm t p tg : (forall l, Permutation l (arrange l)) -> build es s = Ok n -> all_named es ->
  proper es n ts -> lowest es n ts i nm t -> under es n t p -> nth_error ts p = Some tg -> filled (t_sub tg) \/ filled (t_feeder tg) ->
  feeder_preprocessing arrange es n ts = (ts', fs', x) -> x <> None.
Proof.
  intros Ar Bn AN Pr L U Ht F E ->. destruct (feeder_spec arrange Ar es s n Bn AN ts ts' fs' Pr E) as (H & _). destruct (H i nm t p L U) as (tg' & Ht' & B1 & B2 & _).
  assert (tg' = tg) by congruence. subst tg'. destruct F as [F|F]; [exact (blank_not_filled _ B1 F)|exact (blank_not_filled _ B2 F)].
Qed.

Definition xtags : list tags :=
  map (fun p => mkTags (Some (Some (Nat.eqb p 7))) (if Nat.eqb p 4 then Some (Some "") else Some None) (Some None)) (seq 0 12).
