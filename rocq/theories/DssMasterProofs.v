From Verif Require Import Base BaseFacts DssNameModel DssNameProps DssCodeModel DssFileModel DssFileSpec DssFileProofs DssFileProps DssMasterModel DssMasterSpec.
From Coq Require Import Permutation.
Local Open Scope string_scope.
Local Open Scope nat_scope.
Local Open Scope list_scope.

(** *** The last component of a path *)
Fixpoint hasslash (s : string) : bool := match s with EmptyString => false | String c t => (Ascii.eqb c "/" || hasslash t)%bool end.
Fixpoint base (s : string) : string :=
  match s with
  | EmptyString => EmptyString
  | String c t => if (Ascii.eqb c "/" || hasslash t)%bool then base t else String c t
  end.
Lemma hasslash_app a b : hasslash (a ++ b)%string = (hasslash a || hasslash b)%bool.
Proof. induction a as [|c a IH]; cbn; [reflexivity|]. rewrite IH, Bool.orb_assoc. reflexivity. Qed.
Lemma noslash_has s : noslash s -> hasslash s = false.
Proof.
  induction s as [|c s IH]; cbn; [reflexivity|]. intros [H K]. rewrite (IH K). destruct (Ascii.eqb_spec c "/"); [contradiction | reflexivity].
Qed.
Lemma base_app q b : noslash b -> base (q ++ b)%string = (base q ++ b)%string.
Proof.
  intros H. pose proof (noslash_has b H) as Hb. induction q as [|c q IH].
  - cbn. clear - Hb. destruct b as [|c b]; [reflexivity|]. cbn in *. rewrite Hb. reflexivity.
  - cbn [append base]. rewrite hasslash_app, Hb, Bool.orb_false_r. destruct (Ascii.eqb c "/" || hasslash q)%bool; [exact IH | reflexivity].
Qed.
Lemma base_no b : noslash b -> base b = b.
Proof. intros H. exact (base_app "" b H). Qed.
Lemma base_after a b : base (a ++ String "/" b)%string = base b.
Proof.
  induction a as [|c a IH]; [reflexivity|]. cbn [append base]. rewrite hasslash_app. cbn [hasslash].
  rewrite Ascii.eqb_refl, Bool.orb_true_l, !Bool.orb_true_r. exact IH.
Qed.
Lemma base_place sepf seps file s f : noslash file -> base (place sepf seps file s f) = file.
Proof.
  intros H. unfold place. set (l := filter _ _). clearbody l. induction l as [|x l IH]; [exact (base_no _ H)|].
  destruct l as [|y l]; cbn [app String.concat] in *.
  - change ("/" ++ file)%string with (String "/" file). rewrite base_after. exact IH.
  - match goal with |- base (x ++ "/" ++ ?r)%string = _ => change ("/" ++ r)%string with (String "/" r) end. rewrite base_after. exact IH.
Qed.
Definition Bus := "Buscoords.dss".
Lemma noslash_bus : noslash Bus.
Proof. cbn. repeat (split; [intros Q; discriminate Q|]). exact I. Qed.

Lemma substring_split : forall (s : string) n, n <= String.length s -> s = (substring 0 n s ++ substring n (String.length s - n) s)%string.
Proof.
  induction s as [|c s IH]; intros n H; cbn in *; [destruct n; [reflexivity | lia]|].
  destruct n as [|n]; cbn.
  - f_equal. clear. induction s as [|c s IH]; cbn; [reflexivity | now f_equal].
  - f_equal. apply IH. lia.
Qed.
Lemma substring_all : forall s n, String.length s <= n -> substring 0 n s = s.
Proof.
  induction s as [|c s IH]; intros n H; cbn in *; [destruct n; reflexivity|]. destruct n; [lia|]. f_equal. apply IH. lia.
Qed.
Lemma length_app (a b : string) : String.length (a ++ b)%string = String.length a + String.length b.
Proof. induction a; cbn; [reflexivity | now rewrite IHa]. Qed.
Lemma substring_app (a b : string) : substring (String.length a) (String.length b) (a ++ b)%string = b.
Proof. induction a as [|c a IH]; cbn; [apply substring_all; lia | exact IH]. Qed.
Lemma suffix_is_spec b p : suffix_is b p = true <-> exists q, p = (q ++ b)%string.
Proof.
  unfold suffix_is. rewrite String.eqb_eq. split.
  - intros H. destruct (Nat.le_gt_cases (String.length b) (String.length p)) as [L|L].
    + exists (substring 0 (String.length p - String.length b) p).
      rewrite <- H at 2. rewrite (substring_split p (String.length p - String.length b)) at 1 by lia.
      replace (String.length p - (String.length p - String.length b)) with (String.length b) by lia. reflexivity.
    + replace (String.length p - String.length b) with 0 in H by lia. rewrite substring_all in H by lia. subst. lia.
  - intros (q & ->). rewrite length_app. replace (String.length q + String.length b - String.length b) with (String.length q) by lia.
    apply substring_app.
Qed.

(** *** Before *)
Lemma before_app_l {A} (a b : A) l m : before a b l -> before a b (l ++ m).
Proof. intros (x & y & z & ->). exists x, y, (z ++ m). rewrite <- app_assoc. cbn. rewrite <- app_assoc. reflexivity. Qed.
Lemma before_app_r {A} (a b : A) l m : before a b m -> before a b (l ++ m).
Proof. intros (x & y & z & ->). exists (l ++ x), y, z. rewrite <- app_assoc. reflexivity. Qed.
Lemma before_app {A} (a b : A) l m : In a l -> In b m -> before a b (l ++ m).
Proof.
  intros I J. apply in_split in I. apply in_split in J. destruct I as (x & y & ->). destruct J as (z & w & ->).
  exists x, (y ++ z), w. rewrite <- !app_assoc. reflexivity.
Qed.
Lemma before_filter {A} (p : A -> bool) (a b : A) l : before a b l -> p a = true -> p b = true -> before a b (filter p l).
Proof.
  intros (x & y & z & ->) Ha Hb. rewrite filter_app. cbn [filter]. rewrite Ha, filter_app. cbn [filter]. rewrite Hb.
  exists (filter p x), (filter p y), (filter p z). reflexivity.
Qed.
Lemma before_In_l {A} (a b : A) l : before a b l -> In a l.
Proof. intros (x & y & z & ->). apply in_or_app. right. left. reflexivity. Qed.
Lemma before_In_r {A} (a b : A) l : before a b l -> In b l.
Proof. intros (x & y & z & ->). apply in_or_app. right. right. apply in_or_app. right. left. reflexivity. Qed.

(** *** Lists of files by name *)
Definition Named (name : string) (ps : list string) : Prop := NoDup ps /\ forall p, In p ps -> base p = name.
Lemma NoDup_app' {A} (l m : list A) : NoDup l -> NoDup m -> (forall x, In x l -> ~ In x m) -> NoDup (l ++ m).
Proof.
  induction l as [|x l IH]; intros N M D; [exact M|]. apply NoDup_cons_iff in N. destruct N as [Nx N]. cbn. constructor.
  - rewrite in_app_iff. intros [I|I]; [contradiction | exact (D x (or_introl eq_refl) I)].
  - apply IH; [exact N | exact M | intros y I; apply D; right; exact I].
Qed.
Lemma named_concat_base names pss : Forall2 Named names pss -> forall p, In p (concat pss) -> In (base p) names.
Proof.
  induction 1 as [|n ps names pss [N H] F IH]; intros p I; [destruct I|]. cbn in I. apply in_app_iff in I.
  destruct I as [I|I]; [left; symmetry; apply H; exact I | right; apply IH; exact I].
Qed.
Lemma named_NoDup names pss : Forall2 Named names pss -> NoDup names -> NoDup (concat pss).
Proof.
  induction 1 as [|n ps names pss [N H] F IH]; intros D; [constructor|]. apply NoDup_cons_iff in D. destruct D as [Dn D]. cbn.
  apply NoDup_app'; [exact N | apply IH; exact D|]. intros p I J. apply Dn. rewrite <- (H p I). eapply named_concat_base; eassumption.
Qed.
Lemma named_before names pss a b p q : Forall2 Named names pss -> NoDup names -> before a b names ->
  base p = a -> base q = b -> In p (concat pss) -> In q (concat pss) -> before p q (concat pss).
Proof.
  intros F. revert a b. induction F as [|n ps names pss [N H] F IH]; intros a b D B Ea Eb Ip Iq; [destruct Ip|].
  apply NoDup_cons_iff in D. destruct D as [Dn D]. cbn in *. apply in_app_iff in Ip. apply in_app_iff in Iq.
  destruct B as (x & y & z & Q). destruct x as [|w x]; cbn in Q; injection Q as -> ->.
  - (* a is the first name *)
    assert (Nb : b <> a) by (intros ->; apply Dn; apply in_or_app; right; left; reflexivity).
    destruct Iq as [Iq|Iq]; [exfalso; apply Nb; rewrite <- Eb; symmetry; rewrite (H q Iq); reflexivity|].
    destruct Ip as [Ip|Ip]; [apply before_app; assumption|].
    exfalso. apply Dn. rewrite <- Ea. eapply named_concat_base; eassumption.
  - assert (Ba : before a b (x ++ a :: y ++ b :: z)) by (exists x, y, z; reflexivity).
    apply before_app_r. apply (IH a b); try assumption.
    + destruct Ip as [Ip|Ip]; [|exact Ip]. exfalso. apply Dn. rewrite <- (H p Ip), Ea. eapply before_In_l; exact Ba.
    + destruct Iq as [Iq|Iq]; [|exact Iq]. exfalso. apply Dn. rewrite <- (H q Iq), Eb. eapply before_In_r; exact Ba.
Qed.

(** *** The master file *)
Lemma remove1_filter x l : NoDup l -> remove1 x l = filter (fun y => negb (String.eqb y x)) l.
Proof.
  induction l as [|y l IH]; intros N; [reflexivity|]. apply NoDup_cons_iff in N. destruct N as [Ny N]. cbn.
  destruct (String.eqb_spec y x) as [->|Ne]; cbn [negb].
  - clear - Ny. induction l as [|z l IH]; [reflexivity|]. cbn. destruct (String.eqb_spec z x) as [->|].
    + exfalso. apply Ny. left; reflexivity.
    + cbn. f_equal. apply IH. intros I. apply Ny. right; exact I.
  - f_equal. apply IH. exact N.
Qed.
Lemma NoDup_filter' {A} (p : A -> bool) l : NoDup l -> NoDup (filter p l).
Proof. apply NoDup_filter. Qed.
Lemma smem_iff x l : smem x l = true <-> In x l.
Proof. apply smem_In. Qed.
Lemma take_all : forall fs d todo, NoDup fs -> NoDup todo ->
  fold_left (fun st x => take1 x st) fs (d, todo) = (d ++ filter (fun x => smem x todo) fs, filter (fun y => negb (smem y fs)) todo).
Proof.
  induction fs as [|x fs IH]; intros d todo N M; cbn [fold_left filter].
  - rewrite app_nil_r. f_equal. clear. induction todo as [|y r IH]; [reflexivity|]. cbn. f_equal. exact IH.
  - apply NoDup_cons_iff in N. destruct N as [Nx N]. unfold take1 at 2. destruct (smem x todo) eqn:S.
    + rewrite (remove1_filter x todo M), IH; [|exact N | apply NoDup_filter; exact M]. f_equal.
      * rewrite <- app_assoc. f_equal. cbn. f_equal. apply filter_ext_in. intros z Iz. apply Bool.eq_iff_eq_true.
        rewrite !smem_iff, filter_In. split; [tauto|]. intros J. split; [exact J|].
        destruct (String.eqb_spec z x) as [->|]; [contradiction | reflexivity].
      * clear - M. induction todo as [|y r IHr]; [reflexivity|]. apply NoDup_cons_iff in M. destruct M as [My M].
        cbn [filter]. rewrite <- IHr by exact M. cbn [smem]. 
        replace (smem y (x :: fs)) with (String.eqb y x || smem y fs)%bool; [destruct (String.eqb y x); [reflexivity | cbn [negb orb filter]; reflexivity]|].
        apply Bool.eq_iff_eq_true. rewrite Bool.orb_true_iff, !smem_iff, String.eqb_eq. cbn. split; intros [Q|Q]; auto.
    + rewrite IH by assumption. f_equal. apply filter_ext_in. intros z Iz. f_equal. apply Bool.eq_iff_eq_true.
      rewrite !smem_iff. cbn. split; [auto|]. intros [->|Q]; [|exact Q]. apply smem_iff in Iz. congruence.
Qed.
Lemma first_NoDup : NoDup first_files.
Proof. unfold first_files. repeat (apply NoDup_cons; [cbn; intros Q; repeat (destruct Q as [Q|Q]; [discriminate Q|]); destruct Q|]). constructor. Qed.
Lemma master_eq todo : NoDup todo -> exists l b, master todo = (l, b) /\
  l = filter (fun x => smem x todo) first_files ++ filter (fun f => negb (suffix_is Bus f)) (filter (fun y => negb (smem y first_files)) todo) /\
  (b = true <-> In Bus todo) /\ snd (fold_left (fun st x => take1 x st) first_files ([], todo)) = filter (fun y => negb (smem y first_files)) todo.
Proof.
  intros N. unfold master. rewrite (take_all first_files [] todo first_NoDup N). cbn [app snd]. eexists. eexists. split; [reflexivity|].
  split; [reflexivity|]. split; [|reflexivity]. rewrite smem_iff, filter_In. split; [tauto|]. intros I. split; [exact I|]. reflexivity.
Qed.
Lemma master_In todo l b : NoDup todo -> master todo = (l, b) -> NoDup l /\ forall p, In p l <-> In p todo /\ ~ bus_file p.
Proof.
  intros N E. destruct (master_eq todo N) as (l' & b' & E' & L & _ & _). rewrite E in E'. injection E' as <- <-.
  assert (F : forall x, In x first_files -> ~ bus_file x).
  { intros x I Q. apply suffix_is_spec in Q. unfold first_files in I. repeat (destruct I as [<-|I]; [discriminate Q|]). destruct I. }
  split.
  - rewrite L. apply NoDup_app'; [apply NoDup_filter, first_NoDup | apply NoDup_filter, NoDup_filter, N|].
    intros x I J. apply filter_In in I. apply filter_In in J. destruct J as [J _]. apply filter_In in J. destruct J as [_ J].
    destruct I as [I _]. apply smem_iff in I. rewrite I in J. discriminate J.
  - intros p. rewrite L, in_app_iff, !filter_In, smem_iff. split.
    + intros [[I J]|[[I J] K]]; [split; [exact J | exact (F p I)] | split; [exact I|]].
      intros Q. apply suffix_is_spec in Q. unfold Bus in K. rewrite Q in K. discriminate K.
    + intros [I K]. destruct (smem p first_files) eqn:S; [left; split; [apply smem_iff; exact S | exact I]|].
      right. split; [split; [exact I | reflexivity]|]. destruct (suffix_is Bus p) eqn:Q; [|reflexivity].
      exfalso. apply K. apply suffix_is_spec. exact Q.
Qed.
Lemma master_before todo l b p q : NoDup todo -> master todo = (l, b) -> before p q todo -> ~ bus_file p -> ~ bus_file q ->
  (In p first_files -> In q first_files -> before p q first_files) -> (In q first_files -> In p first_files) -> before p q l.
Proof.
  intros N E B Np Nq H1 H2. destruct (master_eq todo N) as (l' & b' & E' & L & _ & _). rewrite E in E'. injection E' as <- <-.
  rewrite L. pose proof (before_In_l _ _ _ B) as Ip. pose proof (before_In_r _ _ _ B) as Iq.
  assert (S : forall x, ~ bus_file x -> negb (suffix_is Bus x) = true).
  { intros x Nx. destruct (suffix_is Bus x) eqn:Q; [|reflexivity]. exfalso. apply Nx, suffix_is_spec. exact Q. }
  destruct (smem p first_files) eqn:Sp; destruct (smem q first_files) eqn:Sq.
  - apply before_app_l. apply before_filter; [apply H1; apply smem_iff; assumption | apply smem_iff; exact Ip | apply smem_iff; exact Iq].
  - apply before_app; [apply filter_In; split; [apply smem_iff; exact Sp | apply smem_iff; exact Ip]|].
    apply filter_In. split; [apply filter_In; split; [exact Iq | rewrite Sq; reflexivity] | apply S; exact Nq].
  - apply smem_iff in Sq. apply H2 in Sq. apply smem_iff in Sq. congruence.
  - apply before_app_r. apply before_filter; [apply before_filter; [exact B | rewrite Sp; reflexivity | rewrite Sq; reflexivity] | apply S; exact Np | apply S; exact Nq].
Qed.

(** *** One section after the other *)
Definition Step (name : string) (A : string -> string -> Prop) (ps : list string) (o o' : out) : Prop :=
  redirects o' = redirects o ++ ps /\ Named name ps /\
  (forall p, base p <> name -> dget (files o') p = dget (files o) p) /\
  (forall p, In p ps <-> exists t, A p t) /\
  (forall p, In p ps -> exists t, A p t /\ dget (files o') p = Some t) /\
  (name <> Bus -> forall p, ~ In p ps -> dget (files o') p = dget (files o) p).
Inductive Run : list (string * (string -> string -> Prop)) -> list (list string) -> out -> out -> Prop :=
| r_nil : forall o, Run [] [] o o
| r_cons : forall n A l ps pss o o1 o2, Step n A ps o o1 -> Run l pss o1 o2 -> Run ((n, A) :: l) (ps :: pss) o o2.
Lemma Run_app l l' pss pss' o o1 o2 : Run l pss o o1 -> Run l' pss' o1 o2 -> Run (l ++ l') (pss ++ pss') o o2.
Proof. induction 1 as [|n A l ps pss a b c S R IH]; intros H; [exact H|]. cbn. eapply r_cons; [exact S | apply IH; exact H]. Qed.
Lemma Run_redirects l pss o o' : Run l pss o o' -> redirects o' = redirects o ++ concat pss.
Proof.
  induction 1 as [|n A l ps pss a b c S R IH]; [cbn; now rewrite app_nil_r|]. destruct S as (S & _). rewrite IH, S, <- app_assoc. reflexivity.
Qed.
Lemma Run_named l pss o o' : Run l pss o o' -> Forall2 Named (map fst l) pss.
Proof. induction 1 as [|n A l ps pss a b c S R IH]; [constructor|]. cbn. constructor; [destruct S as (_ & S & _); exact S | exact IH]. Qed.
Lemma Run_other l pss o o' : Run l pss o o' -> forall p, ~ In (base p) (map fst l) -> dget (files o') p = dget (files o) p.
Proof.
  induction 1 as [|n A l ps pss a b c S R IH]; intros p H; [reflexivity|]. cbn in H.
  rewrite IH by (intros I; apply H; right; exact I). destruct S as (_ & _ & S & _). apply S. intros Q. apply H. left. symmetry. exact Q.
Qed.
Lemma Run_content l pss o o' : Run l pss o o' -> NoDup (map fst l) -> forall n A p t0, In (n, A) l -> A p t0 ->
  exists t, A p t /\ dget (files o') p = Some t /\ In p (concat pss).
Proof.
  induction 1 as [|n A l ps pss a b c S R IH]; intros N n' A' p t0 I HA; [destruct I|]. cbn in N. apply NoDup_cons_iff in N. destruct N as [Nn N].
  destruct I as [Q|I].
  - injection Q as -> ->. destruct S as (S1 & [S2 S2'] & S3 & S4 & S5 & S6).
    assert (Ip : In p ps) by (apply S4; exists t0; exact HA). destruct (S5 p Ip) as (t & At & G).
    exists t. split; [exact At|]. split; [|cbn; apply in_or_app; left; exact Ip].
    rewrite (Run_other _ _ _ _ R); [exact G|]. rewrite (S2' p Ip). exact Nn.
  - destruct (IH N n' A' p t0 I HA) as (t & At & G & Ip). exists t. split; [exact At|]. split; [exact G|]. cbn. apply in_or_app. right. exact Ip.
Qed.
Lemma Run_todo l pss o o' : Run l pss o o' -> forall p, In p (concat pss) -> exists n A t, In (n, A) l /\ A p t.
Proof.
  induction 1 as [|n A l ps pss a b c S R IH]; intros p I; [destruct I|]. cbn in I. apply in_app_iff in I. destruct I as [I|I].
  - destruct S as (_ & _ & _ & S & _). apply S in I. destruct I as (t & At). exists n, A, t. split; [left; reflexivity | exact At].
  - destruct (IH p I) as (n' & A' & t & J & At). exists n', A', t. split; [right; exact J | exact At].
Qed.
Lemma Run_back l pss o o' : Run l pss o o' -> forall p, base p <> Bus -> ~ In p (concat pss) -> dget (files o') p = dget (files o) p.
Proof.
  induction 1 as [|n A l ps pss a b c S R IH]; intros p Nb H; [reflexivity|]. cbn in H.
  rewrite IH; [|exact Nb | intros I; apply H; apply in_or_app; right; exact I].
  destruct S as (S1 & S2 & S3 & S4 & S5 & S6). destruct (string_dec (base p) n) as [E|Nn].
  - apply S6; [congruence|]. intros I. apply H. apply in_or_app. left. exact I.
  - apply S3. exact Nn.
Qed.

Section Net.
Variables sepf seps : bool.
Variable order : list string -> list string.
Hypothesis OP : forall l, Permutation (order l) l.

Definition Asec (file : string) (objs : list obj) (p t : string) : Prop :=
  exists s f, used sepf seps objs s f /\ p = place sepf seps file s f /\ content sepf seps s f objs t.
Definition ok_sec (sec : string * list obj) : Prop :=
  noslash (fst sec) /\ something sepf seps (snd sec) /\ told_apart sepf seps (fst sec) (snd sec) /\ plain_substations sepf seps (snd sec).
Lemma content_ex s f : forall objs, exists t, content sepf seps s f objs t.
Proof.
  induction objs as [|o r (t & C)]; [exists ""; constructor|]. destruct (o_txt o) as [x|] eqn:T; [|exists t; apply c_skip; assumption].
  destruct (group sepf seps (o_fee o) (o_sub o)) as [s' f'] eqn:G.
  assert (D : {(s', f') = (s, f)} + {(s', f') <> (s, f)}).
  { destruct (string_dec s' s); [subst|right; congruence]. destruct (string_dec f' f); [left; congruence | right; congruence]. }
  destruct D as [Q|Q].
  - exists (x ++ t)%string. apply c_here; [apply home_group; congruence | exact T | exact C].
  - exists t. apply c_there; [|exact C]. intros H. apply home_group in H. congruence.
Qed.
Lemma sec_step file objs o : ok_sec (file, objs) ->
  exists ps o', write_section sepf seps file order o objs = Ok o' /\ Step file (Asec file objs) ps o o'.
Proof.
  intros (NS & H1 & H2 & H3). cbn [fst snd] in *.
  destruct (C67_files sepf seps file order o objs OP H1 H2 H3) as (o' & E & F1 & F2 & ps & R & N & I).
  exists ps, o'. split; [exact E|].
  assert (Ia : forall p, In p ps <-> exists t, Asec file objs p t).
  { intros p. rewrite I. split.
    - intros (s & f & U & ->). destruct (content_ex s f objs) as (t & C). exists t, s, f. repeat split; assumption.
    - intros (t & s & f & U & -> & _). exists s, f. split; [exact U | reflexivity]. }
  assert (Bp : forall p, In p ps -> base p = file).
  { intros p J. apply I in J. destruct J as (s & f & _ & ->). apply base_place. exact NS. }
  repeat apply conj.
  - exact R.
  - exact N.
  - exact Bp.
  - intros p Nb. apply F2. intros s f U ->. apply Nb. apply base_place. exact NS.
  - exact Ia.
  - intros p J. apply I in J. destruct J as (s & f & U & ->). destruct (F1 s f U) as (t & C & G). exists t. split; [|exact G].
    exists s, f. repeat split; assumption.
  - intros _ p Np. apply F2. intros s f U ->. apply Np. apply I. exists s, f. split; [exact U | reflexivity].
Qed.
Lemma secs_run : forall secs o, Forall ok_sec secs ->
  exists pss o', write_sections sepf seps order secs o = Ok o' /\ Run (map (fun sec => (fst sec, Asec (fst sec) (snd sec))) secs) pss o o'.
Proof.
  induction secs as [|[file objs] r IH]; intros o F; [exists [], o; split; [reflexivity | constructor]|].
  inversion F as [|x y H F']; subst. destruct (sec_step file objs o H) as (ps & o1 & E & S).
  destruct (IH o1 F') as (pss & o2 & E2 & R). exists (ps :: pss), o2. unfold write_sections. cbn [foldM fst snd]. rewrite E. cbn [bind].
  split; [exact E2|]. cbn [map fst snd]. eapply r_cons; eassumption.
Qed.

Definition Abase (file txt : string) (p t : string) : Prop := p = file /\ t = txt /\ txt <> "".
Lemma base_step file txt o : noslash file -> exists ps, Step file (Abase file txt) ps o (write_base file txt o).
Proof.
  intros NS. unfold write_base. destruct (String.eqb_spec txt "") as [->|N].
  - exists []. repeat apply conj.
    + rewrite app_nil_r. reflexivity.
    + constructor.
    + intros p [].
    + reflexivity.
    + intros p. split; [intros [] | intros (t & _ & _ & Q); contradiction].
    + intros p [].
    + reflexivity.
  - exists [file]. repeat apply conj.
    + reflexivity.
    + constructor; [intros [] | constructor].
    + intros p [<-|[]]. apply base_no. exact NS.
    + intros p H. cbn. rewrite dget_set'. destruct (String.eqb_spec p file) as [->|]; [exfalso; apply H; apply base_no; exact NS | reflexivity].
    + intros p. split; [intros [<-|[]]; exists txt; repeat split; exact N | intros (t & -> & _); left; reflexivity].
    + intros p [<-|[]]. exists txt. split; [repeat split; exact N|]. cbn. rewrite dget_set', String.eqb_refl. reflexivity.
    + intros _ p H. cbn. rewrite dget_set'. destruct (String.eqb_spec p file) as [->|]; [exfalso; apply H; left; reflexivity | reflexivity].
Qed.

(** *** Bus coordinates *)
Definition but_bus (o o' : out) : Prop :=
  redirects o' = redirects o /\ fee_redirects o' = fee_redirects o /\ forall p, base p <> Bus -> dget (files o') p = dget (files o) p.
Lemma but_refl o : but_bus o o.
Proof. repeat split. Qed.
Lemma but_trans a b c : but_bus a b -> but_bus b c -> but_bus a c.
Proof. intros (A1 & A2 & A3) (B1 & B2 & B3). split; [congruence|]. split; [congruence|]. intros p H. rewrite B3, A3 by exact H. reflexivity. Qed.
Lemma but_set o p t : base p = Bus -> but_bus o (set_file o p t).
Proof.
  intros B. repeat split. intros q H. cbn. rewrite dget_set'. destruct (String.eqb_spec q p) as [->|]; [contradiction | reflexivity].
Qed.
Lemma base_pjoin a : base (pjoin a Bus) = Bus.
Proof.
  unfold pjoin. destruct (String.eqb a ""); [exact (base_no _ noslash_bus)|]. destruct (ends_slash a) eqn:E.
  - rewrite base_app by exact noslash_bus. replace (base a) with ""; [reflexivity|]. clear -E.
    induction a as [|c a IH]; [discriminate E|]. cbn [base]. destruct a as [|d a].
    + cbn in E. rewrite E. reflexivity.
    + change (ends_slash (String c (String d a))) with (ends_slash (String d a)) in E.
      assert (Hh : hasslash (String d a) = true).
      { clear -E. generalize dependent d. induction a as [|e a IH]; intros d E; [cbn in *; rewrite E; reflexivity|].
        change (ends_slash (String d (String e a))) with (ends_slash (String e a)) in E. cbn [hasslash] in *. rewrite (IH e E). apply Bool.orb_true_r. }
      rewrite Hh, Bool.orb_true_r. apply IH. exact E.
  - change ("/" ++ Bus)%string with (String "/" Bus). rewrite base_after. exact (base_no _ noslash_bus).
Qed.
Lemma base_path a b s f : base (path a b Bus s f) = Bus.
Proof. apply base_pjoin. Qed.
Lemma bus_feeders_eq ftm txt s : forall fs o acc,
  (forall f, In f fs -> dget ftm (group_key (s, f)) = Some (txt s f) /\ txt s f <> "") ->
  length fs <= 1 \/ bus_name s = s ->
  exists o' s', bus_feeders sepf seps ftm s o acc fs = Ok (o', acc ++ map (txt s) fs, s') /\ but_bus o o' /\ (s' = s \/ s' = bus_name s).
Proof.
  induction fs as [|f fs IH]; intros o acc H K.
  - exists o, s. cbn. rewrite app_nil_r. repeat split; auto.
  - destruct (H f (or_introl eq_refl)) as [G N]. cbn [bus_feeders]. rewrite G. cbn [of_opt bind].
    destruct (String.eqb_spec (txt s f) ""); [contradiction|].
    set (o1 := if sepf then _ else o).
    assert (B : but_bus o o1).
    { unfold o1. destruct sepf; [|apply but_refl]. apply but_set. apply base_path. }
    clearbody o1. destruct K as [K|K].
    + destruct fs; [|cbn in K; lia]. exists o1, (bus_name s). split; [reflexivity|]. split; [exact B | right; reflexivity].
    + rewrite K. destruct (IH o1 (acc ++ [txt s f])) as (o' & s' & E & B' & S'); [intros x I; apply H; right; exact I | right; exact K|].
      exists o', s'. rewrite E, <- app_assoc. split; [reflexivity|]. split; [eapply but_trans; eassumption|]. rewrite K in S'. left. destruct S'; assumption.
Qed.
Lemma bus_all ftm txt : forall stm o all,
  (forall s f fs, In (s, fs) stm -> In f fs -> dget ftm (group_key (s, f)) = Some (txt s f) /\ txt s f <> "") ->
  (forall s fs, In (s, fs) stm -> length fs <= 1 \/ bus_name s = s) ->
  exists o', foldM (bus_substation sepf seps order ftm) stm (o, all) = Ok (o', all ++ map (fun g => txt (fst g) (snd g)) (flat order stm)) /\ but_bus o o'.
Proof.
  induction stm as [|[s fs] r IH]; intros o all H K.
  - exists o. cbn. rewrite app_nil_r. split; [reflexivity | apply but_refl].
  - cbn [foldM]. unfold bus_substation at 1. cbn [fst snd].
    destruct (bus_feeders_eq ftm txt s (order fs) o []) as (o1 & s' & E & B & _).
    + intros f I. apply (H s f fs); [left; reflexivity|]. apply (Permutation_in _ (OP fs)). exact I.
    + destruct (K s fs (or_introl eq_refl)) as [L|Q]; [left; rewrite (Permutation_length (OP fs)); exact L | right; exact Q].
    + rewrite E. cbn [bind app]. set (o2 := if seps then _ else o1).
      assert (B2 : but_bus o o2).
      { unfold o2. destruct seps; [|exact B]. eapply but_trans; [exact B|]. apply but_set. apply base_pjoin. }
      clearbody o2. destruct (IH o2 (all ++ map (txt s) (order fs))) as (o' & E' & B').
      * intros s0 f0 fs0 I. apply (H s0 f0 fs0). right; exact I.
      * intros s0 fs0 I. apply K. right; exact I.
      * exists o'. rewrite E'. split; [|eapply but_trans; eassumption]. cbn [flat flat_map fst snd]. rewrite map_app, map_map, <- app_assoc. reflexivity.
Qed.

(** The text of all buses: those of every group, group after group. *)
Definition Abus (nodes : list obj) (p t : string) : Prop :=
  nodes <> [] /\ p = Bus /\ exists L, NoDup L /\ (forall s f, In (s, f) (map fst L) <-> used sepf seps nodes s f) /\
    (forall s f u, In (s, f, u) L -> content sepf seps s f nodes u) /\ t = String.concat "" (map snd L).
Lemma bus_step nodes o : (let ns := filter named nodes in something sepf seps ns /\ told_apart sepf seps Bus ns /\ plain_substations sepf seps ns) ->
  exists ps o', write_buses sepf seps order o nodes = Ok o' /\ Step Bus (Abus (filter named nodes)) ps o o' /\ fee_redirects o' = fee_redirects o.
Proof.
  cbn zeta. set (ns := filter named nodes). intros (H1 & H2 & H3).
  destruct (collected sepf seps Bus order OP ns H1 H2 H3) as (stm & ftm & txt & E & S & A & B & N & I & C & NP).
  unfold write_buses. fold ns. rewrite E. destruct (bus_all ftm txt stm o [] A B) as (o1 & F & BB). rewrite F. cbn [bind app].
  destruct BB as (B1 & B2 & B3).
  assert (Em : flat order stm = [] <-> ns = []).
  { split.
    - intros Q. destruct ns as [|x r] eqn:En; [reflexivity|]. exfalso.
      destruct (group sepf seps (o_fee x) (o_sub x)) as [s f] eqn:G.
      assert (U : used sepf seps (x :: r) s f) by (exists x; split; [left; reflexivity | apply home_group; exact G]).
      apply I in U. rewrite Q in U. destruct U.
    - intros Q. destruct (flat order stm) as [|[s f] l] eqn:En; [reflexivity|]. exfalso.
      assert (U : used sepf seps ns s f) by (apply I; left; reflexivity). destruct U as (x & J & _). rewrite Q in J. destruct J. }
  destruct (map (fun g => txt (fst g) (snd g)) (flat order stm)) as [|t0 ts] eqn:Em'.
  - assert (Q : ns = []) by (apply Em; destruct (flat order stm); [reflexivity | discriminate Em']).
    exists [], o1. split; [reflexivity|]. split; [|exact B2]. repeat apply conj.
    + rewrite app_nil_r. exact B1.
    + constructor.
    + intros p [].
    + exact B3.
    + intros p. split; [intros [] | intros (t & Q' & _); contradiction].
    + intros p [].
    + intros Nb. contradiction.
  - set (T := String.concat "" (t0 :: ts)).
    assert (Nn : ns <> []) by (intros Q; apply Em in Q; rewrite Q in Em'; discriminate Em').
    assert (AT : Abus ns Bus T).
    { split; [exact Nn|]. split; [reflexivity|]. exists (map (fun g => (g, txt (fst g) (snd g))) (flat order stm)). repeat apply conj.
      - apply FinFun.Injective_map_NoDup; [intros x y Q; injection Q; auto | exact N].
      - intros s f. rewrite map_map. cbn. rewrite map_id. apply I.
      - intros s f u J. apply in_map_iff in J. destruct J as ([s' f'] & Q & J). injection Q as -> -> <-. cbn. apply C. apply I. exact J.
      - rewrite map_map. cbn [snd]. unfold T. rewrite <- Em'. reflexivity. }
    exists [Bus]. eexists. split; [reflexivity|]. split; [|exact B2]. repeat apply conj.
    + cbn. rewrite B1. reflexivity.
    + constructor; [intros [] | constructor].
    + intros p [<-|[]]. exact (base_no _ noslash_bus).
    + intros p Hp. cbn [redirect set_file files]. rewrite dget_set'. destruct (String.eqb_spec p "Buscoords.dss") as [->|]; [exfalso; apply Hp; reflexivity | apply B3; exact Hp].
    + intros p. split; [intros [<-|[]]; exists T; exact AT | intros (t & _ & -> & _); left; reflexivity].
    + intros p [<-|[]]. exists T. split; [exact AT|]. cbn [redirect set_file files]. rewrite dget_set'. reflexivity.
    + intros Nb. exfalso. apply Nb. reflexivity.
Qed.

(** *** The whole network *)
Definition names : list string := [Bus; "Transformers.dss"; "Regulators.dss"; "LoadShapes.dss"; "Loads.dss"; "WireData.dss"; "CNData.dss"; "LineGeometry.dss";
  "LineCodes.dss"; "Lines.dss"; "Capacitors.dss"; "Storage.dss"; "PVSystems.dss"].
Lemma names_NoDup : NoDup names.
Proof. unfold names. repeat (apply NoDup_cons; [cbn; intros Q; repeat (destruct Q as [Q|Q]; [discriminate Q|]); destruct Q|]). constructor. Qed.
Ltac nosl := cbn; repeat (split; [let Q := fresh in intros Q; discriminate Q|]); exact I.
Definition tasks (net : network) : list (string * (string -> string -> Prop)) :=
  (Bus, Abus (filter named (n_nodes net))) ::
  map (fun sec => (fst sec, Asec (fst sec) (snd sec))) (sections1 net) ++
  [("WireData.dss", Abase "WireData.dss" (n_wires net)); ("CNData.dss", Abase "CNData.dss" (n_cables net)); ("LineGeometry.dss", Abase "LineGeometry.dss" (n_geoms net))] ++
  map (fun sec => (fst sec, Asec (fst sec) (snd sec))) (sections2 net).
Lemma tasks_names net : map fst (tasks net) = names.
Proof. reflexivity. Qed.
Lemma sections_split net sec : In sec (sections net) <-> In sec (sections1 net ++ sections2 net).
Proof. reflexivity. Qed.
Lemma sections_noslash net sec : In sec (sections net) -> noslash (fst sec).
Proof. intros H. unfold sections in H. repeat (destruct H as [<-|H]; [nosl|]). destruct H. Qed.

Lemma network_run net o : writable sepf seps net -> writable_nodes sepf seps net ->
  exists o1 pss o', write_network sepf seps order o net = Ok (o', master (redirects o1)) /\ Run (tasks net) pss o o1 /\
    files o' = files o1 /\ fee_redirects o' = fee_redirects o1 /\ redirects o' = snd (fold_left (fun st x => take1 x st) first_files ([], redirects o1)).
Proof.
  intros W Wn. destruct (bus_step (n_nodes net) o (Wn _ eq_refl)) as (ps0 & oa & Ea & Sa & _).
  assert (K : forall secs, (forall sec, In sec secs -> In sec (sections net)) -> Forall ok_sec secs).
  { intros secs H. apply Forall_forall. intros [file objs] I. pose proof (H _ I) as J. split; [exact (sections_noslash net _ J)|]. exact (W file objs J). }
  destruct (secs_run (sections1 net) oa) as (pss1 & ob & Eb & Rb); [apply K; intros sec I; apply sections_split, in_or_app; left; exact I|].
  destruct (base_step "WireData.dss" (n_wires net) ob) as (w1 & S1); [nosl|]. set (oc := write_base _ _ ob) in *.
  destruct (base_step "CNData.dss" (n_cables net) oc) as (w2 & S2); [nosl|]. set (od := write_base _ _ oc) in *.
  destruct (base_step "LineGeometry.dss" (n_geoms net) od) as (w3 & S3); [nosl|]. set (oe := write_base _ _ od) in *.
  destruct (secs_run (sections2 net) oe) as (pss2 & of & Ef & Rf); [apply K; intros sec I; apply sections_split, in_or_app; right; exact I|].
  exists of, (ps0 :: pss1 ++ [w1; w2; w3] ++ pss2). eexists.
  split; [unfold write_network; rewrite Ea; cbn [bind]; rewrite Eb; cbn [bind]; fold oc; fold od; fold oe; rewrite Ef; reflexivity|].
  split; [|repeat split]. unfold tasks. eapply r_cons; [exact Sa|]. eapply Run_app; [exact Rb|].
  apply (Run_app _ _ [w1; w2; w3] pss2 ob oe of); [|exact Rf].
  eapply r_cons; [exact S1|]. eapply r_cons; [exact S2|]. eapply r_cons; [exact S3|]. constructor.
Qed.
End Net.

(** *** The lists of the feeders *)
Lemma pjoin_folder s f : pjoin (bus_name s) (bus_name f) = folder s f.
Proof.
  unfold folder. destruct (String.eqb_spec (bus_name s) "") as [->|N]; [reflexivity|]. apply pjoin_plain; [apply bus_noslash | exact N].
Qed.
Section Fee.
Variable seps : bool.
Variable order : list string -> list string.
Hypothesis OP : forall l, Permutation (order l) l.
Variable k : string.
Definition keep (sec : string * list obj) : bool :=
  existsb (fun o => let g := group true seps (o_fee o) (o_sub o) in String.eqb k (folder (fst g) (snd g))) (snd sec).
Lemma keep_spec sec : keep sec = true <-> exists s f, used true seps (snd sec) s f /\ k = folder s f.
Proof.
  unfold keep. rewrite existsb_exists. split.
  - intros (o & I & Q). apply String.eqb_eq in Q. destruct (group true seps (o_fee o) (o_sub o)) as [s f] eqn:G. exists s, f.
    split; [exists o; split; [exact I | apply home_group; exact G] | exact Q].
  - intros (s & f & (o & I & H) & Q). exists o. split; [exact I|]. apply home_group in H. rewrite H. apply String.eqb_eq. exact Q.
Qed.
Lemma same_folder file objs s f s' f' : told_apart true seps file objs -> used true seps objs s f -> used true seps objs s' f' ->
  folder s f = folder s' f' -> s = s' /\ f = f'.
Proof.
  intros HT U U' Q. apply HT; [exact U | exact U'|]. right. rewrite <- !path_place. unfold path.
  destruct seps; [rewrite !pjoin_folder, Q; reflexivity|].
  assert (D : forall g h, used true false objs g h -> g = "DEFAULT").
  { intros g h (x & _ & [[[Y _]|[_ Y]] _]); [discriminate Y | exact Y]. }
  rewrite (D _ _ U), (D _ _ U') in Q. unfold folder in Q. change (bus_name "DEFAULT") with "default" in Q. cbn [String.eqb] in Q.
  apply (app_inj_l "default/") in Q. rewrite Q. reflexivity.
Qed.
Lemma sec_fee file objs o o' : ok_sec true seps (file, objs) -> write_section true seps file order o objs = Ok o' ->
  olist (fee_redirects o') k = olist (fee_redirects o) k ++ (if keep (file, objs) then [file] else []).
Proof.
  intros (NS & H1 & H2 & H3) E. cbn [fst snd] in *.
  destruct (write_section_eq true seps file order OP objs H1 H2 H3) as (L & txt & N & I & C & NP & W).
  rewrite W in E. injection E as <-. rewrite (puts_fee true seps file txt eq_refl). f_equal.
  destruct (keep (file, objs)) eqn:Kp.
  - apply keep_spec in Kp. destruct Kp as (s & f & U & Q). cbn [snd] in U. rewrite (filter_one _ (s, f)); [reflexivity | exact N | apply I; exact U|].
    intros [s' f'] J. cbn [fst snd]. rewrite pjoin_folder, String.eqb_eq. split.
    + intros Q'. apply I in J. destruct (same_folder file objs s f s' f' H2 U J) as [-> ->]; [congruence | reflexivity].
    + intros Z. injection Z as -> ->. exact Q.
  - assert (Z : filter (fun g => String.eqb k (pjoin (bus_name (fst g)) (bus_name (snd g)))) L = []).
    { assert (G : forall g, In g L -> String.eqb k (pjoin (bus_name (fst g)) (bus_name (snd g))) = false).
      { intros [s f] J. cbn [fst snd]. rewrite pjoin_folder. destruct (String.eqb_spec k (folder s f)) as [Q|]; [|reflexivity].
        assert (X : keep (file, objs) = true) by (apply keep_spec; exists s, f; split; [apply I; exact J | exact Q]). congruence. }
      clear -G. induction L as [|g L IH]; [reflexivity|]. cbn [filter]. rewrite G by (left; reflexivity). apply IH. intros x J. apply G. right; exact J. }
    rewrite Z. reflexivity.
Qed.
Lemma secs_fee : forall secs o o', Forall (ok_sec true seps) secs -> write_sections true seps order secs o = Ok o' ->
  olist (fee_redirects o') k = olist (fee_redirects o) k ++ map fst (filter keep secs).
Proof.
  induction secs as [|[file objs] r IH]; intros o o' F E.
  - injection E as <-. cbn. rewrite app_nil_r. reflexivity.
  - inversion F as [|x y H F']; subst. unfold write_sections in E. cbn [foldM fst snd] in E.
    destruct (write_section true seps file order o objs) as [o1|] eqn:E1; [|discriminate E]. cbn [bind] in E.
    rewrite (IH o1 o' F' E), (sec_fee file objs o o1 H E1). rewrite <- app_assoc. f_equal. cbn [filter].
    destruct (keep (file, objs)); reflexivity.
Qed.
Lemma base_fee file txt o : fee_redirects (write_base file txt o) = fee_redirects o.
Proof. unfold write_base. destruct (String.eqb txt ""); reflexivity. Qed.
Lemma network_fee net o o' m : writable true seps net -> writable_nodes true seps net -> write_network true seps order o net = Ok (o', m) ->
  olist (fee_redirects o') k = olist (fee_redirects o) k ++ map fst (filter keep (sections net)).
Proof.
  intros W Wn. destruct (bus_step true seps order OP (n_nodes net) o (Wn _ eq_refl)) as (ps0 & oa & Ea & _ & Fa).
  assert (K : forall secs, (forall sec, In sec secs -> In sec (sections net)) -> Forall (ok_sec true seps) secs).
  { intros secs H. apply Forall_forall. intros [file objs] I. pose proof (H _ I) as J. split; [exact (sections_noslash net _ J)|]. exact (W file objs J). }
  unfold write_network. rewrite Ea. cbn [bind].
  destruct (write_sections true seps order (sections1 net) oa) as [ob|] eqn:Eb; [|intros Q; discriminate Q]. cbn [bind].
  match goal with |- context[write_sections _ _ _ (sections2 net) ?x] => set (oe := x) end.
  destruct (write_sections true seps order (sections2 net) oe) as [of|] eqn:Ef; [|intros Q; discriminate Q]. cbn [bind].
  intros Q. injection Q as <- _. cbn [fee_redirects].
  rewrite (secs_fee (sections2 net) oe of (K _ (fun sec I => proj2 (sections_split net sec) (in_or_app _ _ _ (or_intror I)))) Ef).
  unfold oe. rewrite !base_fee.
  rewrite (secs_fee (sections1 net) oa ob (K _ (fun sec I => proj2 (sections_split net sec) (in_or_app _ _ _ (or_introl I)))) Eb).
  rewrite Fa, <- app_assoc. f_equal. change (sections net) with (sections1 net ++ sections2 net). rewrite filter_app, map_app. reflexivity.
Qed.
End Fee.
