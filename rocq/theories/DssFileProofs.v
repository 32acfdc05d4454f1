From Verif Require Import Base BaseFacts DssNameModel DssNameProps DssCodeModel DssFileModel DssFileSpec.
From Coq Require Import Permutation.
Local Open Scope string_scope.
Local Open Scope nat_scope.
Local Open Scope list_scope.

Lemma dget_set' {V} (d : dict V) k k' v : dget (dset d k v) k' = if String.eqb k' k then Some v else dget d k'.
Proof. rewrite dget_dset, String.eqb_sym. reflexivity. Qed.

Lemma home_group sepf seps o s f : home sepf seps o s f <-> group sepf seps (o_fee o) (o_sub o) = (s, f).
Proof.
  unfold home, group. destruct sepf, seps, (o_sub o) as [a|], (o_fee o) as [b|]; split; intros H;
  repeat match goal with
  | H : _ /\ _ |- _ => destruct H
  | H : _ \/ _ |- _ => destruct H
  end; try (injection H; intros); subst; try congruence; intuition congruence.
Qed.

(** *** Paths *)
Fixpoint noslash (s : string) : Prop := match s with EmptyString => True | String c t => c <> "/"%char /\ noslash t end.
Lemma sub_from_noslash : forall s b, noslash (sub_from b s).
Proof.
  induction s as [|c s IH]; intros b; cbn; [exact I|]. destruct (alnum c) eqn:A.
  - cbn. split; [|apply IH]. intros ->. discriminate A.
  - destruct b; [apply IH|]. cbn. split; [intros Q; discriminate Q | apply IH].
Qed.
Lemma bus_noslash s : noslash (bus_name s).
Proof. apply sub_from_noslash. Qed.
Lemma noslash_ends s : noslash s -> ends_slash s = false.
Proof.
  induction s as [|c s IH]; cbn; [reflexivity|]. intros [H K]. destruct s; [|apply IH; exact K].
  destruct (Ascii.eqb_spec c "/"); [contradiction | reflexivity].
Qed.
Lemma pjoin_plain a b : noslash a -> a <> "" -> pjoin a b = (a ++ "/" ++ b)%string.
Proof.
  intros H K. unfold pjoin. destruct (String.eqb_spec a ""); [contradiction|]. rewrite (noslash_ends a H). reflexivity.
Qed.
Lemma ends_slash_app a : ends_slash (a ++ "/")%string = true.
Proof. induction a as [|c a IH]; cbn; [reflexivity|]. destruct (a ++ "/")%string eqn:E; [destruct a; discriminate E | exact IH]. Qed.
Lemma noslash_ends_app a b : noslash b -> b <> "" -> ends_slash (a ++ "/" ++ b)%string = false.
Proof.
  intros H K. induction a as [|c a IH]; cbn.
  - destruct b; [contradiction|]. exact (noslash_ends _ H).
  - change ("/" ++ b)%string with (String "/" b) in IH. destruct (a ++ String "/" b)%string eqn:E; [destruct a; discriminate E | exact IH].
Qed.
Lemma sapp_assoc' (a b c : string) : (a ++ (b ++ c) = (a ++ b) ++ c)%string.
Proof. induction a as [|x a IH]; cbn; [reflexivity | now rewrite IH]. Qed.
Lemma sapp_nil (a : string) : (a ++ "")%string = a.
Proof. induction a as [|x a IH]; cbn; [reflexivity | now rewrite IH]. Qed.

Lemma path_place sepf seps file s f : path sepf seps file (bus_name s) (bus_name f) = place sepf seps file s f.
Proof.
  pose proof (bus_noslash s) as Hs. pose proof (bus_noslash f) as Hf. unfold path, place.
  destruct seps, sepf; cbn [app filter].
  - destruct (String.eqb_spec (bus_name s) "") as [Es|Ns]; cbn [negb].
    + rewrite Es. replace (pjoin "" (bus_name f)) with (bus_name f) by reflexivity.
      destruct (String.eqb_spec (bus_name f) "") as [Ef|Nf]; cbn [negb app].
      * rewrite Ef. reflexivity.
      * rewrite pjoin_plain by assumption. reflexivity.
    + rewrite (pjoin_plain (bus_name s)) by assumption.
      destruct (String.eqb_spec (bus_name f) "") as [Ef|Nf]; cbn [negb app].
      * rewrite Ef. unfold pjoin.
        destruct (String.eqb_spec (bus_name s ++ "/" ++ "")%string "") as [Q|_]; [destruct (bus_name s); discriminate Q|].
        change ("/" ++ "")%string with "/". rewrite ends_slash_app. cbn [String.concat]. now rewrite <- sapp_assoc'.
      * unfold pjoin.
        destruct (String.eqb_spec (bus_name s ++ "/" ++ bus_name f)%string "") as [Q|_]; [destruct (bus_name s); discriminate Q|].
        rewrite noslash_ends_app by assumption. cbn [String.concat]. now rewrite <- !sapp_assoc'.
  - destruct (String.eqb_spec (bus_name s) "") as [Es|Ns]; cbn [negb app].
    + rewrite Es. reflexivity.
    + rewrite pjoin_plain by assumption. reflexivity.
  - replace (pjoin "" (bus_name f)) with (bus_name f) by reflexivity.
    destruct (String.eqb_spec (bus_name f) "") as [Ef|Nf]; cbn [negb app].
    + rewrite Ef. reflexivity.
    + rewrite pjoin_plain by assumption. reflexivity.
  - reflexivity.
Qed.

Section Files.
Variables sepf seps : bool.
Variable file : string.
Variable order : list string -> list string.
Hypothesis order_perm : forall l, Permutation (order l) l.
Notation grp o := (group sepf seps (o_fee o) (o_sub o)).

(** *** The collected texts *)
Definition ktext1 (k : string) (a : option string) (o : obj) : option string :=
  if String.eqb (group_key (grp o)) k then
    match o_txt o with Some t => Some (match a with Some u => u | None => "" end ++ t)%string | None => a end
  else a.
Lemma collect_text k : forall objs st,
  dget (snd (fold_left (collect1 sepf seps) objs st)) k = fold_left (ktext1 k) objs (dget (snd st) k).
Proof.
  induction objs as [|o r IH]; intros st; cbn [fold_left]; [reflexivity|]. rewrite IH. f_equal.
  destruct st as [stm ftm]. unfold collect1, ktext1. cbn [snd]. destruct (o_txt o) as [t|]; cbn [snd].
  - rewrite dget_set'. destruct (String.eqb_spec (group_key (grp o)) k) as [<-|N].
    + rewrite String.eqb_refl. reflexivity.
    + destruct (String.eqb_spec k (group_key (grp o))) as [->|]; [contradiction | reflexivity].
  - destruct (String.eqb _ _); reflexivity.
Qed.

Definition keyed (objs : list obj) (s f : string) : Prop :=
  forall o, In o objs -> group_key (grp o) = group_key (s, f) -> grp o = (s, f).

Lemma ktext_content s f : forall objs a, keyed objs s f ->
  exists t, content sepf seps s f objs t /\
    fold_left (ktext1 (group_key (s, f))) objs a =
      match a with
      | Some u => Some (u ++ t)%string
      | None => if existsb (fun o => String.eqb (group_key (grp o)) (group_key (s, f)) && match o_txt o with Some _ => true | None => false end)%bool objs then Some t else None
      end.
Proof.
  induction objs as [|o r IH]; intros a K.
  - exists "". split; [constructor|]. cbn. destruct a as [u|]; [now rewrite sapp_nil | reflexivity].
  - assert (K' : keyed r s f) by (intros x I; apply K; right; exact I).
    cbn [fold_left existsb]. unfold ktext1 at 2.
    destruct (String.eqb_spec (group_key (grp o)) (group_key (s, f))) as [E|N].
    + pose proof (K o (or_introl eq_refl) E) as G. destruct (o_txt o) as [x|] eqn:T; cbn [andb].
      * destruct (IH (Some (match a with Some u => u | None => "" end ++ x)%string) K') as (t & C & Q).
        exists (x ++ t)%string. split; [apply c_here; [apply home_group; exact G | exact T | exact C]|].
        rewrite Q. destruct a; cbn [orb]; now rewrite ?sapp_assoc'.
      * destruct (IH a K') as (t & C & Q). exists t. split; [apply c_skip; assumption|]. cbn [orb]. exact Q.
    + destruct (IH a K') as (t & C & Q). exists t. split; [|cbn [andb orb]; exact Q].
      apply c_there; [|exact C]. intros H. apply home_group in H. apply N. now rewrite H.
Qed.

Lemma content_fun s f : forall objs t t', content sepf seps s f objs t -> content sepf seps s f objs t' -> t = t'.
Proof.
  induction objs as [|o r IH]; intros t t' A B; inversion A; subst; inversion B; subst; try congruence; try contradiction; try reflexivity.
  - f_equal; [congruence | eapply IH; eassumption].
  - eapply IH; eassumption.
  - eapply IH; eassumption.
  - eapply IH; eassumption.
  - eapply IH; eassumption.
Qed.

Lemma content_nonempty s f : forall objs t o x, content sepf seps s f objs t -> In o objs -> home sepf seps o s f -> o_txt o = Some x -> x <> "" -> t <> "".
Proof.
  induction objs as [|y r IH]; intros t o x C I H T N; [destruct I|].
  assert (G : forall u, content sepf seps s f r u -> In o r -> u <> "") by (intros u Cu Iu; eapply IH; eassumption).
  destruct I as [->|I].
  - inversion C; subst; try congruence; try contradiction. assert (t0 = x) by congruence. subst.
    destruct x; [contradiction | intros Q; discriminate Q].
  - inversion C; subst; auto. destruct t0; [apply G; assumption | intros Q; discriminate Q].
Qed.

(** *** The sets of feeders *)
Definition Sets (stm : dict (list string)) (done : list obj) : Prop :=
  NoDup (dkeys stm) /\ (forall s fs, dget stm s = Some fs -> NoDup fs) /\
  (forall s f, (exists fs, dget stm s = Some fs /\ In f fs) <-> exists o, In o done /\ grp o = (s, f)).

Lemma collect_sets : forall objs st done, Sets (fst st) done -> Sets (fst (fold_left (collect1 sepf seps) objs st)) (done ++ objs).
Proof.
  induction objs as [|o r IH]; intros st done S; cbn [fold_left]; [rewrite app_nil_r; exact S|].
  replace (done ++ o :: r) with ((done ++ [o]) ++ r) by (rewrite <- app_assoc; reflexivity). apply IH. clear IH.
  destruct st as [stm ftm]. destruct S as (N & D & M). cbn [fst] in *.
  assert (E : exists fs', fst (collect1 sepf seps (stm, ftm) o) = dset stm (fst (grp o)) fs' /\ NoDup fs' /\
              forall f, In f fs' <-> f = snd (grp o) \/ exists fs, dget stm (fst (grp o)) = Some fs /\ In f fs).
  { unfold collect1. destruct (dget stm (fst (grp o))) as [fs|] eqn:G.
    - exists (if smem (snd (grp o)) fs then fs else fs ++ [snd (grp o)]).
      split; [destruct (o_txt o); reflexivity|]. destruct (smem (snd (grp o)) fs) eqn:Sm.
      + split; [exact (D _ _ G)|]. apply smem_In in Sm. intros f. split.
        * intros I. right. exists fs. split; [reflexivity | exact I].
        * intros [->|(fs0 & Q & I)]; [exact Sm | congruence].
      + split.
        * assert (P : Permutation (snd (grp o) :: fs) (fs ++ [snd (grp o)])) by apply Permutation_cons_append.
          apply (Permutation_NoDup P). constructor; [|exact (D _ _ G)]. intros I. apply smem_In in I. congruence.
        * intros f. rewrite in_app_iff. split.
          -- intros [I|[<-|[]]]; [right; exists fs; split; [reflexivity | exact I] | left; reflexivity].
          -- intros [->|(fs0 & Q & I)]; [right; left; reflexivity | left; congruence].
    - exists [snd (grp o)]. split; [destruct (o_txt o); reflexivity|]. split; [constructor; [intros [] | constructor]|].
      intros f. split; [intros [<-|[]]; left; reflexivity|]. intros [->|(fs0 & Q & _)]; [left; reflexivity | discriminate Q]. }
  destruct E as (fs' & -> & Nf & If). repeat apply conj.
  - apply dset_NoDup. exact N.
  - intros s fs. rewrite dget_set'. destruct (String.eqb s (fst (grp o))); [intros Q; injection Q as <-; exact Nf | apply D].
  - intros s f. split.
    + intros (fs & G & I). rewrite dget_set' in G. destruct (String.eqb_spec s (fst (grp o))) as [->|Ns].
      * injection G as <-. apply If in I. destruct I as [->|I].
        -- exists o. split; [apply in_or_app; right; left; reflexivity | destruct (grp o); reflexivity].
        -- apply M in I. destruct I as (x & Ix & Gx). exists x. split; [apply in_or_app; left; exact Ix | exact Gx].
      * assert (X : exists fs, dget stm s = Some fs /\ In f fs) by (exists fs; split; assumption). apply M in X.
        destruct X as (x & Ix & Gx). exists x. split; [apply in_or_app; left; exact Ix | exact Gx].
    + intros (x & Ix & Gx). apply in_app_iff in Ix.
      assert (X : x = o \/ exists fs, dget stm s = Some fs /\ In f fs).
      { destruct Ix as [Ix|[<-|[]]]; [right; apply M; exists x; split; assumption | left; reflexivity]. }
      destruct (String.eqb_spec s (fst (grp o))) as [->|Ns].
      * exists fs'. rewrite dget_set', String.eqb_refl. split; [reflexivity|]. apply If.
        destruct X as [->|X]; [left; rewrite Gx; reflexivity | right; exact X].
      * destruct X as [->|(fs & G & I)]; [rewrite Gx in Ns; cbn in Ns; contradiction|].
        exists fs. rewrite dget_set'. destruct (String.eqb_spec s (fst (grp o))); [contradiction | split; assumption].
Qed.

(** *** Writing *)
Definition put3 (txt : string -> string -> string) (o : out) (g : string * string) : out :=
  put sepf seps file o (bus_name (fst g)) (bus_name (snd g)) (txt (fst g) (snd g)).
Definition flat (stm : dict (list string)) : list (string * string) := flat_map (fun e => map (pair (fst e)) (order (snd e))) stm.

Lemma emit_feeders_eq ftm txt s : forall fs o,
  (forall f, In f fs -> dget ftm (group_key (s, f)) = Some (txt s f) /\ txt s f <> "") ->
  length fs <= 1 \/ bus_name s = s ->
  emit_feeders sepf seps file ftm s o fs = Ok (fold_left (put3 txt) (map (pair s) fs) o).
Proof.
  induction fs as [|f fs IH]; intros o H K; [reflexivity|].
  destruct (H f (or_introl eq_refl)) as [G N]. cbn [emit_feeders map fold_left]. rewrite G. cbn [of_opt bind].
  destruct (String.eqb_spec (txt s f) ""); [contradiction|]. destruct K as [K|K].
  - destruct fs; [reflexivity | cbn in K; lia].
  - rewrite K. rewrite IH; [|intros x I; apply H; right; exact I | right; exact K].
    replace (put3 txt o (s, f)) with (put sepf seps file o s (bus_name f) (txt s f)); [reflexivity|].
    unfold put3. cbn [fst snd]. rewrite K. reflexivity.
Qed.

Lemma emit_eq ftm txt : forall stm o,
  (forall s f fs, In (s, fs) stm -> In f fs -> dget ftm (group_key (s, f)) = Some (txt s f) /\ txt s f <> "") ->
  (forall s fs, In (s, fs) stm -> length fs <= 1 \/ bus_name s = s) ->
  emit sepf seps file order stm ftm o = Ok (fold_left (put3 txt) (flat stm) o).
Proof.
  induction stm as [|[s fs] r IH]; intros o H K; [reflexivity|].
  unfold emit. cbn [foldM flat flat_map fst snd].
  rewrite (emit_feeders_eq ftm txt).
  - cbn [bind]. rewrite fold_left_app. apply IH; [intros s0 f0 fs0 I; apply (H s0 f0 fs0); right; exact I | intros s0 fs0 I; apply K; right; exact I].
  - intros f I. apply (H s f fs); [left; reflexivity|]. apply (Permutation_in _ (order_perm fs)); exact I.
  - destruct (K s fs (or_introl eq_refl)) as [L|E]; [left; rewrite (Permutation_length (order_perm fs)); exact L | right; exact E].
Qed.

Lemma dget_of_In {A} (d : dict A) k v : NoDup (dkeys d) -> In (k, v) d -> dget d k = Some v.
Proof. intros N I. apply dget_NoDup; assumption. Qed.

Lemma flat_In stm done : Sets stm done -> forall s f, In (s, f) (flat stm) <-> exists o, In o done /\ grp o = (s, f).
Proof.
  intros (N & D & M) s f. rewrite <- M. unfold flat. rewrite in_flat_map. split.
  - intros ([s0 fs] & I & J). apply in_map_iff in J. destruct J as (f0 & Q & J). cbn in Q, J. injection Q as -> ->.
    exists fs. split; [apply dget_of_In; assumption | apply (Permutation_in _ (order_perm fs)); exact J].
  - intros (fs & G & I). exists (s, fs). split; [apply dget_In; exact G|]. apply in_map_iff. exists f. split; [reflexivity|].
    apply (Permutation_in _ (Permutation_sym (order_perm fs))). exact I.
Qed.
Lemma flat_NoDup : forall stm, NoDup (dkeys stm) -> (forall s fs, In (s, fs) stm -> NoDup fs) -> NoDup (flat stm).
Proof.
  induction stm as [|[s fs] r IH]; intros N D; [constructor|]. cbn [flat flat_map fst snd].
  apply NoDup_cons_iff in N. destruct N as [Ns N].
  assert (A : NoDup (map (pair s) (order fs))).
  { apply FinFun.Injective_map_NoDup; [intros x y Q; injection Q; auto|].
    apply (Permutation_NoDup (Permutation_sym (order_perm fs))). apply (D s). left; reflexivity. }
  assert (B : NoDup (flat r)) by (apply IH; [exact N | intros s0 fs0 I; apply (D s0); right; exact I]).
  clear IH. change (flat_map (fun e => map (pair (fst e)) (order (snd e))) r) with (flat r).
  assert (X : forall g, In g (map (pair s) (order fs)) -> ~ In g (flat r)).
  { intros g I J. apply in_map_iff in I. destruct I as (f & <- & _). unfold flat in J. apply in_flat_map in J.
    destruct J as ([s0 fs0] & I & J). apply in_map_iff in J. destruct J as (f0 & Q & _). cbn in Q. injection Q as -> _.
    apply Ns. apply in_map_iff. exists (s, fs0). split; [reflexivity | exact I]. }
  induction (map (pair s) (order fs)) as [|g l IHl]; [exact B|]. cbn [app].
  apply NoDup_cons_iff in A. destruct A as [Ng A]. constructor.
  - rewrite in_app_iff. intros [I|I]; [contradiction | exact (X g (or_introl eq_refl) I)].
  - apply IHl; [exact A | intros y I; apply X; right; exact I].
Qed.

Section Put.
Variable txt : string -> string -> string.
Notation pl g := (place sepf seps file (fst g) (snd g)).

Lemma puts_redirects : forall L o, redirects (fold_left (put3 txt) L o) = redirects o ++ map (fun g => pl g) L.
Proof.
  induction L as [|g L IH]; intros o; cbn [fold_left map]; [rewrite app_nil_r; reflexivity|].
  rewrite IH. unfold put3. cbn [put redirects]. rewrite path_place, <- app_assoc. reflexivity.
Qed.
Lemma puts_other : forall L o p, ~ In p (map (fun g => pl g) L) -> dget (files (fold_left (put3 txt) L o)) p = dget (files o) p.
Proof.
  induction L as [|g L IH]; intros o p N; [reflexivity|]. cbn [fold_left]. rewrite IH by (intros I; apply N; right; exact I).
  unfold put3. cbn [put files]. rewrite dget_set', path_place.
  destruct (String.eqb_spec p (pl g)) as [->|]; [exfalso; apply N; left; reflexivity | reflexivity].
Qed.
Lemma puts_file : forall L o g, NoDup (map (fun g => pl g) L) -> In g L -> dget (files (fold_left (put3 txt) L o)) (pl g) = Some (txt (fst g) (snd g)).
Proof.
  induction L as [|x L IH]; intros o g N I; [destruct I|]. cbn [map] in N. apply NoDup_cons_iff in N. destruct N as [Nx N].
  cbn [fold_left]. destruct I as [->|I]; [|apply IH; assumption].
  rewrite puts_other by exact Nx. unfold put3. cbn [put files]. rewrite dget_set', path_place, String.eqb_refl. reflexivity.
Qed.
Definition olist (d : dict (list string)) (k : string) : list string := match dget d k with Some l => l | None => [] end.
Lemma olist_append d k x k' : olist (append_to d k x) k' = if String.eqb k' k then olist d k ++ [x] else olist d k'.
Proof. unfold olist, append_to. rewrite dget_set'. destruct (String.eqb_spec k' k); reflexivity. Qed.
Lemma puts_fee : sepf = true -> forall L o k,
  olist (fee_redirects (fold_left (put3 txt) L o)) k =
  olist (fee_redirects o) k ++ map (fun _ => file) (filter (fun g => String.eqb k (pjoin (bus_name (fst g)) (bus_name (snd g)))) L).
Proof.
  intros SF. induction L as [|g L IH]; intros o k; cbn [fold_left filter]; [cbn; rewrite app_nil_r; reflexivity|].
  rewrite IH. unfold put3. cbn [put fee_redirects]. rewrite SF, olist_append.
  destruct (String.eqb_spec k (pjoin (bus_name (fst g)) (bus_name (snd g)))) as [->|]; [cbn [map]; rewrite <- app_assoc; reflexivity | reflexivity].
Qed.
Lemma puts_sub : seps = true -> forall L o k,
  olist (sub_redirects (fold_left (put3 txt) L o)) k =
  olist (sub_redirects o) k ++ map (fun g => if sepf then pjoin (bus_name (snd g)) file else file) (filter (fun g => String.eqb k (bus_name (fst g))) L).
Proof.
  intros SS. induction L as [|g L IH]; intros o k; cbn [fold_left filter]; [cbn; rewrite app_nil_r; reflexivity|].
  rewrite IH. unfold put3. cbn [put sub_redirects]. rewrite SS, olist_append.
  destruct (String.eqb_spec k (bus_name (fst g))) as [->|]; [cbn [map]; rewrite <- app_assoc; reflexivity | reflexivity].
Qed.
End Put.

(** *** The section as a whole *)
Lemma collected objs : something sepf seps objs -> told_apart sepf seps file objs -> plain_substations sepf seps objs ->
  exists stm ftm txt, collect sepf seps objs = (stm, ftm) /\ Sets stm objs /\
    (forall s f fs, In (s, fs) stm -> In f fs -> dget ftm (group_key (s, f)) = Some (txt s f) /\ txt s f <> "") /\
    (forall s fs, In (s, fs) stm -> length fs <= 1 \/ bus_name s = s) /\
    NoDup (flat stm) /\ (forall s f, In (s, f) (flat stm) <-> used sepf seps objs s f) /\
    (forall s f, used sepf seps objs s f -> content sepf seps s f objs (txt s f)) /\
    NoDup (map (fun g => place sepf seps file (fst g) (snd g)) (flat stm)).
Proof.
  intros HS HT HP. unfold collect.
  destruct (fold_left (collect1 sepf seps) objs ([], [])) as [stm ftm] eqn:E.
  assert (S : Sets stm objs).
  { pose proof (collect_sets objs ([], []) []) as C. rewrite E in C. cbn [fst app] in C. apply C.
    repeat apply conj; [constructor | intros s fs Q; discriminate Q|]. intros s f. split; [intros (fs & Q & _); discriminate Q | intros (o & [] & _)]. }
  assert (U : forall s f, used sepf seps objs s f <-> exists o, In o objs /\ grp o = (s, f)).
  { intros s f. split; intros (o & I & H); exists o; (split; [exact I|]); apply home_group; exact H. }
  set (txt := fun s f => match dget ftm (group_key (s, f)) with Some t => t | None => "" end).
  assert (T : forall s f, used sepf seps objs s f -> dget ftm (group_key (s, f)) = Some (txt s f) /\ txt s f <> "" /\ content sepf seps s f objs (txt s f)).
  { intros s f Us. assert (K : keyed objs s f).
    { intros o I Q. destruct (grp o) as [s' f'] eqn:G. assert (X : s' = s /\ f' = f).
      { apply HT; [apply U; exists o; split; assumption | exact Us | left; exact Q]. }
      destruct X as [-> ->]. reflexivity. }
    destruct (ktext_content s f objs None K) as (t & C & Q).
    destruct (HS s f Us) as (o & x & I & H & Tx & Nx).
    assert (X : existsb (fun o => String.eqb (group_key (grp o)) (group_key (s, f)) && match o_txt o with Some _ => true | None => false end)%bool objs = true).
    { apply existsb_exists. exists o. split; [exact I|]. apply home_group in H. rewrite H, String.eqb_refl, Tx. reflexivity. }
    rewrite X in Q. pose proof (collect_text (group_key (s, f)) objs ([], [])) as CT. rewrite E in CT. cbn [snd] in CT.
    change (dget [] (group_key (s, f))) with (@None string) in CT. rewrite Q in CT.
    unfold txt. rewrite CT. split; [reflexivity|]. split; [|exact C]. eapply content_nonempty; eassumption. }
  exists stm, ftm, txt. split; [reflexivity|]. split; [exact S|]. pose proof S as (Nk & D & M). repeat apply conj.
  - intros s f fs I J. assert (Us : used sepf seps objs s f) by (apply U; apply M; exists fs; split; [apply dget_of_In; assumption | exact J]).
    destruct (T s f Us) as (A & B & _). split; assumption.
  - intros s fs I. destruct fs as [|a [|b fs]]; [left; cbn; lia | left; cbn; lia | right].
    pose proof (dget_of_In _ _ _ Nk I) as G. pose proof (D s _ G) as Nf.
    apply (HP s a b).
    + apply U, M. exists (a :: b :: fs). split; [exact G | left; reflexivity].
    + apply U, M. exists (a :: b :: fs). split; [exact G | right; left; reflexivity].
    + intros ->. apply NoDup_cons_iff in Nf. apply (proj1 Nf). left; reflexivity.
  - apply flat_NoDup; [exact Nk|]. intros s fs I. apply (D s). apply dget_of_In; assumption.
  - intros s f. rewrite U. apply (flat_In stm objs S).
  - intros s f Us. apply T. exact Us.
  - assert (N : NoDup (flat stm)) by (apply flat_NoDup; [exact Nk|]; intros s fs I; apply (D s); apply dget_of_In; assumption).
    assert (Uf : forall g, In g (flat stm) -> used sepf seps objs (fst g) (snd g)) by (intros [s f] I; apply U; apply (flat_In stm objs S); exact I).
    clear - N Uf HT. induction (flat stm) as [|g l IH]; [constructor|]. cbn [map]. apply NoDup_cons_iff in N. destruct N as [Ng N].
    constructor; [|apply IH; [exact N | intros x I; apply Uf; right; exact I]].
    intros I. apply in_map_iff in I. destruct I as ([s' f'] & Q & I). destruct g as [s f]. cbn [fst snd] in Q.
    assert (X : s' = s /\ f' = f).
    { apply HT; [apply (Uf (s', f')); right; exact I | apply (Uf (s, f)); left; reflexivity | right; exact Q]. }
    destruct X as [-> ->]. contradiction.
Qed.

Lemma write_section_eq objs : something sepf seps objs -> told_apart sepf seps file objs -> plain_substations sepf seps objs ->
  exists L txt, NoDup L /\ (forall s f, In (s, f) L <-> used sepf seps objs s f) /\
    (forall s f, used sepf seps objs s f -> content sepf seps s f objs (txt s f)) /\
    NoDup (map (fun g => place sepf seps file (fst g) (snd g)) L) /\
    forall o, write_section sepf seps file order o objs = Ok (fold_left (put3 txt) L o).
Proof.
  intros HS HT HP. destruct (collected objs HS HT HP) as (stm & ftm & txt & E & S & A & B & N & I & C & NP).
  exists (flat stm), txt. split; [exact N|]. split; [exact I|]. split; [exact C|]. split; [exact NP|].
  intros o. unfold write_section. rewrite E. apply emit_eq; assumption.
Qed.
End Files.
