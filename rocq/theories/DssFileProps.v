From Verif Require Import Base BaseFacts DssNameModel DssNameProps DssCodeModel DssFileModel DssFileSpec DssFileProofs.
From Coq Require Import Permutation.
Local Open Scope string_scope.
Local Open Scope nat_scope.
Local Open Scope list_scope.

(** C67: a section of the OpenDSS output has one file per feeder of a substation that has objects, in the folders of the
    two, with the texts of its objects and of no others, in order; every such file is redirected once; other files
    are not touched.  In whatever order Python goes through sets. *)
Theorem C67_files : forall sepf seps file order o objs,
  (forall l, Permutation (order l) l) -> something sepf seps objs -> told_apart sepf seps file objs -> plain_substations sepf seps objs ->
  exists o', write_section sepf seps file order o objs = Ok o' /\
    (forall s f, used sepf seps objs s f -> exists t, content sepf seps s f objs t /\ dget (files o') (place sepf seps file s f) = Some t) /\
    (forall p, (forall s f, used sepf seps objs s f -> p <> place sepf seps file s f) -> dget (files o') p = dget (files o) p) /\
    exists ps, redirects o' = redirects o ++ ps /\ NoDup ps /\
      forall p, In p ps <-> exists s f, used sepf seps objs s f /\ p = place sepf seps file s f.
Proof.
  intros sepf seps file order o objs OP HS HT HP.
  destruct (write_section_eq sepf seps file order OP objs HS HT HP) as (L & txt & N & I & C & NP & E).
  exists (fold_left (put3 sepf seps file txt) L o). split; [apply E|].
  assert (IP : forall p, In p (map (fun g => place sepf seps file (fst g) (snd g)) L) <-> exists s f, used sepf seps objs s f /\ p = place sepf seps file s f).
  { intros p. rewrite in_map_iff. split.
    - intros ([s f] & <- & J). exists s, f. split; [apply I; exact J | reflexivity].
    - intros (s & f & U & ->). exists (s, f). split; [reflexivity | apply I; exact U]. }
  split; [|split].
  - intros s f U. exists (txt s f). split; [apply C; exact U|]. apply (puts_file sepf seps file txt L o (s, f) NP). apply I. exact U.
  - intros p H. apply puts_other. intros J. apply IP in J. destruct J as (s & f & U & ->). exact (H s f U eq_refl).
  - exists (map (fun g => place sepf seps file (fst g) (snd g)) L). split; [apply puts_redirects|]. split; [exact NP | exact IP].
Qed.
Print Assumptions C67_files.

Lemma bus_nil s : bus_name s = "" -> s = "".
Proof.
  destruct s as [|c s]; [reflexivity|]. unfold bus_name, re_sub. cbn. destruct (alnum _); intros Q; discriminate Q.
Qed.
Lemma filter_one {A} (p : A -> bool) (x : A) : forall l, NoDup l -> In x l -> (forall y, In y l -> p y = true <-> y = x) -> filter p l = [x].
Proof.
  induction l as [|y l IH]; intros N I H; [destruct I|]. apply NoDup_cons_iff in N. destruct N as [Ny N]. cbn [filter].
  assert (Z : forall l', (forall z, In z l' -> p z = true <-> z = x) -> ~ In x l' -> filter p l' = []).
  { induction l' as [|z l' IHz]; intros Hz Nz; [reflexivity|]. cbn [filter]. destruct (p z) eqn:P.
    - apply Hz in P; [|left; reflexivity]. subst. exfalso. apply Nz. left; reflexivity.
    - apply IHz; [intros w Iw; apply Hz; right; exact Iw | intros J; apply Nz; right; exact J]. }
  destruct (p y) eqn:P.
  - apply H in P; [|left; reflexivity]. subst y. f_equal. apply Z; [intros z J; apply H; right; exact J | exact Ny].
  - destruct I as [->|I]; [rewrite (proj2 (H x (or_introl eq_refl)) eq_refl) in P; discriminate P|].
    apply IH; [exact N | exact I | intros z J; apply H; right; exact J].
Qed.
Lemma app_inj_l (a b c : string) : (a ++ b)%string = (a ++ c)%string -> b = c.
Proof. induction a as [|x a IH]; cbn; intros Q; [exact Q | injection Q as Q; auto]. Qed.

(** The master file of a feeder gets the section's file exactly once. *)
Theorem C67_feeder_redirect : forall seps file order o o' objs s f,
  (forall l, Permutation (order l) l) -> something true seps objs -> told_apart true seps file objs -> plain_substations true seps objs ->
  write_section true seps file order o objs = Ok o' -> used true seps objs s f -> s <> "" ->
  let k := (bus_name s ++ "/" ++ bus_name f)%string in
  dget (fee_redirects o') k = Some (match dget (fee_redirects o) k with Some l => l | None => [] end ++ [file]).
Proof.
  intros seps file order o o' objs s f OP HS HT HP R U Ns k.
  destruct (write_section_eq true seps file order OP objs HS HT HP) as (L & txt & N & I & C & NP & E).
  rewrite E in R. injection R as <-.
  assert (K : k = pjoin (bus_name s) (bus_name f)).
  { symmetry. apply pjoin_plain; [apply bus_noslash|]. intros Q. apply Ns, bus_nil. exact Q. }
  pose proof (puts_fee true seps file txt eq_refl L o k) as P.
  rewrite (filter_one _ (s, f)) in P.
  - unfold olist in P. cbn [map] in P. destruct (dget (fee_redirects (fold_left _ _ _)) k) as [l|]; [now rewrite P|].
    destruct (dget (fee_redirects o) k) as [[|]|]; discriminate P.
  - exact N.
  - apply I. exact U.
  - intros [s' f'] J. cbn [fst snd]. rewrite String.eqb_eq. split; [|intros Q; injection Q as -> ->; exact K].
    intros Q. rewrite K in Q. apply I in J. assert (X : s' = s /\ f' = f); [|destruct X as [-> ->]; reflexivity].
    apply HT; [exact J | exact U|]. right. rewrite <- !path_place. unfold path.
    destruct seps; [f_equal; symmetry; exact Q|].
    assert (D : forall g h, used true false objs g h -> g = "DEFAULT").
    { intros g h (x & _ & [[[Y _]|[_ Y]] _]); [discriminate Y | exact Y]. }
    rewrite (D _ _ J), (D _ _ U) in Q.
    rewrite !pjoin_plain in Q; try apply bus_noslash; try (cbn; intros Y; discriminate Y).
    apply app_inj_l in Q. apply (app_inj_l "/") in Q. rewrite Q. reflexivity.
Qed.
Print Assumptions C67_feeder_redirect.

(** With feeders separated but not substations, every network with two feeders fails: the second feeder of the substation
    "DEFAULT" is looked up under the name "default". *)
Theorem C67_feeders_only_fails : forall file order o objs f f',
  (forall l, Permutation (order l) l) -> used true false objs "DEFAULT" f -> used true false objs "DEFAULT" f' -> f <> f' ->
  write_section true false file order o objs = Err EKey.
Proof.
  intros file order o objs f f' OP U U' Nf. unfold write_section, collect.
  destruct (fold_left (collect1 true false) objs ([], [])) as [stm ftm] eqn:E.
  assert (S : Sets true false stm objs).
  { pose proof (collect_sets true false objs ([], []) []) as C. rewrite E in C. cbn [fst app] in C. apply C.
    repeat apply conj; [constructor | intros s fs Q; discriminate Q|]. intros s g. split; [intros (fs & Q & _); discriminate Q | intros (x & [] & _)]. }
  assert (K : forall g, dget ftm (group_key ("default", g)) = None).
  { intros g. pose proof (collect_text true false (group_key ("default", g)) objs ([], [])) as CT. rewrite E in CT. cbn [snd] in CT. rewrite CT.
    change (dget [] (group_key ("default", g))) with (@None string). clear.
    induction objs as [|x r IH]; [reflexivity|]. cbn [fold_left]. rewrite <- IH at 2. f_equal. unfold ktext1.
    destruct (String.eqb_spec (group_key (group true false (o_fee x) (o_sub x))) (group_key ("default", g))) as [Q|]; [|reflexivity].
    exfalso. unfold group in Q. destruct (o_sub x); cbn in Q; discriminate Q. }
  destruct S as (Nk & D & M).
  assert (A : exists fs, dget stm "DEFAULT" = Some fs /\ In f fs).
  { apply M. destruct U as (x & I & H). exists x. split; [exact I | apply home_group; exact H]. }
  assert (A' : exists fs, dget stm "DEFAULT" = Some fs /\ In f' fs).
  { apply M. destruct U' as (x & I & H). exists x. split; [exact I | apply home_group; exact H]. }
  destruct A as (fs & G & I1). destruct A' as (fs2 & G' & I2). rewrite G in G'. injection G' as <-.
  assert (Only : forall s l, dget stm s = Some l -> l <> [] -> s = "DEFAULT").
  { intros s l Gl Nl. destruct l as [|g l]; [contradiction|].
    assert (X : exists x, In x objs /\ group true false (o_fee x) (o_sub x) = (s, g)) by (apply M; exists (g :: l); split; [exact Gl | left; reflexivity]).
    destruct X as (x & _ & Q). unfold group in Q. destruct (o_sub x); injection Q as <- _; reflexivity. }
  assert (F : forall o, emit_feeders true false file ftm "DEFAULT" o (order fs) = Err EKey).
  { pose proof (OP fs) as P. intros o0. destruct (order fs) as [|a [|b r]].
    - apply Permutation_nil in P. subst. destruct I1.
    - apply Permutation_length_1_inv in P. subst. destruct I1 as [<-|[]]. destruct I2 as [<-|[]]. contradiction.
    - cbn [emit_feeders]. destruct (dget ftm (group_key ("DEFAULT", a))); [|reflexivity]. cbn [of_opt bind].
      change (bus_name "DEFAULT") with "default". rewrite K. reflexivity. }
  assert (Pre : forall st o, (forall s l, In (s, l) st -> s = "DEFAULT" -> l = fs) -> (forall s l, In (s, l) st -> l <> [] -> s = "DEFAULT") ->
                In ("DEFAULT", fs) st -> emit true false file order st ftm o = Err EKey).
  { intros st. induction st as [|[s l] r IH]; intros o0 H1 H2 I; [destruct I|].
    unfold emit. cbn [foldM fst snd]. destruct (string_dec s "DEFAULT") as [->|Ns].
    - rewrite (H1 "DEFAULT" l (or_introl eq_refl) eq_refl), F. reflexivity.
    - destruct l as [|x l]; [|exfalso; apply Ns; apply (H2 s (x :: l) (or_introl eq_refl)); intros Q; discriminate Q].
      pose proof (OP []) as P. apply Permutation_sym, Permutation_nil in P. rewrite P. cbn [emit_feeders bind].
      apply IH; [intros s0 l0 J; apply H1; right; exact J | intros s0 l0 J; apply H2; right; exact J|].
      destruct I as [Q|I]; [injection Q as Q _; contradiction | exact I]. }
  apply Pre.
  - intros s l J ->. pose proof (dget_NoDup _ _ _ Nk J). congruence.
  - intros s l J Nl. apply (Only s l); [exact (dget_NoDup _ _ _ Nk J) | exact Nl].
  - apply dget_In. exact G.
Qed.
Print Assumptions C67_feeders_only_fails.

Definition out0 := mkOut [] [] [] [].

(** Not every section can be written: the second feeder of a substation whose name has a capital. *)
Theorem C67_capital_refuted : exists objs,
  something true true objs /\ told_apart true true "Loads.dss" objs /\
  forall order, (forall l, Permutation (order l) l) -> write_section true true "Loads.dss" order out0 objs = Err EKey.
Proof.
  exists [mkObj (Some "SubA") (Some "f1") (Some "x"); mkObj (Some "SubA") (Some "f2") (Some "y")].
  split; [|split].
  - intros s f (o & [<-|[<-|[]]] & H); (eexists; eexists; split; [|split; [exact H|split; [reflexivity | intros Q; discriminate Q]]]); cbn; auto.
  - intros s f s' f' (o & I & H) (o' & I' & H') Q. apply home_group in H. apply home_group in H'.
    destruct I as [<-|[<-|[]]]; destruct I' as [<-|[<-|[]]]; injection H as <- <-; injection H' as <- <-;
      try (split; reflexivity); destruct Q as [Q|Q]; vm_compute in Q; discriminate Q.
  - intros order OP. pose proof (OP ["f1"; "f2"]) as P. apply Permutation_sym, Permutation_length_2_inv in P.
    match goal with |- write_section _ _ ?fi _ ?o ?l = _ =>
      change (emit true true fi order [("SubA", ["f1"; "f2"])] [("SubA_f1", "x"); ("SubA_f2", "y")] o = Err EKey) end.
    unfold emit. cbn [foldM fst snd]. destruct P as [-> | ->]; reflexivity.
Qed.
Print Assumptions C67_capital_refuted.

(** Files do not only hold the objects of their feeder: "a_b" and "c", "a" and "b_c" share their texts. *)
Theorem C67_key_refuted : exists objs o',
  something true true objs /\ plain_substations true true objs /\
  write_section true true "Loads.dss" (fun l => l) out0 objs = Ok o' /\
  used true true objs "a" "b_c" /\ content true true "a" "b_c" objs "y" /\ dget (files o') (place true true "Loads.dss" "a" "b_c") = Some "xy".
Proof.
  exists [mkObj (Some "a_b") (Some "c") (Some "x"); mkObj (Some "a") (Some "b_c") (Some "y")]. eexists.
  split; [|split; [|split; [vm_compute; reflexivity|split; [|split; [|reflexivity]]]]].
  - intros s f (o & [<-|[<-|[]]] & H); (eexists; eexists; split; [|split; [exact H|split; [reflexivity | intros Q; discriminate Q]]]); cbn; auto.
  - intros s f f' (o & I & H) (o' & I' & H') N. apply home_group in H. apply home_group in H'.
    destruct I as [<-|[<-|[]]]; destruct I' as [<-|[<-|[]]]; injection H as <- <-; injection H'; intros; subst; try contradiction; try reflexivity; discriminate.
  - exists (mkObj (Some "a") (Some "b_c") (Some "y")). split; [cbn; auto|]. apply home_group. reflexivity.
  - apply c_there; [intros H; apply home_group in H; discriminate H|].
    apply (c_here true true "a" "b_c" _ "y" [] ""); [apply home_group; reflexivity | reflexivity | constructor].
Qed.
Print Assumptions C67_key_refuted.

(** Objects are lost when two names are written alike; the remaining file is redirected twice. *)
Theorem C67_folder_refuted : exists objs o',
  something true true objs /\ plain_substations true true objs /\
  write_section true true "Loads.dss" (fun l => l) out0 objs = Ok o' /\
  used true true objs "S 1" "f" /\ content true true "S 1" "f" objs "x" /\ dget (files o') (place true true "Loads.dss" "S 1" "f") = Some "y" /\
  redirects o' = ["s_1/f/Loads.dss"; "s_1/f/Loads.dss"].
Proof.
  exists [mkObj (Some "S 1") (Some "f") (Some "x"); mkObj (Some "s_1") (Some "f") (Some "y")]. eexists.
  split; [|split; [|split; [vm_compute; reflexivity|split; [|split; [|split; reflexivity]]]]].
  - intros s f (o & [<-|[<-|[]]] & H); (eexists; eexists; split; [|split; [exact H|split; [reflexivity | intros Q; discriminate Q]]]); cbn; auto.
  - intros s f f' (o & I & H) (o' & I' & H') N. apply home_group in H. apply home_group in H'.
    destruct I as [<-|[<-|[]]]; destruct I' as [<-|[<-|[]]]; injection H as <- <-; injection H'; intros; subst; try contradiction; try reflexivity; discriminate.
  - exists (mkObj (Some "S 1") (Some "f") (Some "x")). split; [cbn; auto|]. apply home_group. reflexivity.
  - apply (c_here true true "S 1" "f" _ "x" _ ""); [apply home_group; reflexivity | reflexivity |].
    apply c_there; [intros H; apply home_group in H; discriminate H | constructor].
Qed.
Print Assumptions C67_folder_refuted.

(** A feeder whose only object of the section has no name stops the writer, whatever the rest of the network. *)
Theorem C67_unnamed_refuted : exists objs, told_apart true true "Loads.dss" objs /\ plain_substations true true objs /\
  write_section true true "Loads.dss" (fun l => l) out0 objs = Err EKey.
Proof.
  exists [mkObj (Some "a") (Some "f") (Some "x"); mkObj (Some "a") (Some "g") None].
  split; [|split; [|reflexivity]].
  - intros s f s' f' (o & I & H) (o' & I' & H') Q. apply home_group in H. apply home_group in H'.
    destruct I as [<-|[<-|[]]]; destruct I' as [<-|[<-|[]]]; injection H as <- <-; injection H' as <- <-;
      try (split; reflexivity); destruct Q as [Q|Q]; vm_compute in Q; discriminate Q.
  - intros s f f' (o & I & H) (o' & I' & H') N. apply home_group in H.
    destruct I as [<-|[<-|[]]]; injection H as <- <-; reflexivity.
Qed.
Print Assumptions C67_unnamed_refuted.

(** No file is written without contents. *)
Theorem C67_no_empty : forall sepf seps file order o o' objs p t,
  write_section sepf seps file order o objs = Ok o' -> dget (files o') p = Some t -> dget (files o) p = Some t \/ t <> "".
Proof.
  intros sepf seps file order o o' objs p t. unfold write_section, emit. destruct (collect sepf seps objs) as [stm ftm].
  assert (F : forall fs s a b, emit_feeders sepf seps file ftm s a fs = Ok b -> dget (files b) p = Some t -> dget (files a) p = Some t \/ t <> "").
  { induction fs as [|f fs IH]; intros s a b E H; cbn [emit_feeders] in E; [injection E as <-; now left|].
    destruct (dget ftm (group_key (s, f))) as [txt|]; cbn [of_opt bind] in E; [|discriminate]. destruct (IH _ _ _ E H) as [G|G]; [|now right].
    destruct (String.eqb txt "") eqn:N; [now left|]. cbn [put files] in G. rewrite dget_dset in G.
    destruct (String.eqb _ _) in G; [|now left]. injection G as <-. right. now apply String.eqb_neq. }
  revert o. induction stm as [|e stm IH]; intros o E H; cbn [foldM] in E; [injection E as <-; now left|].
  destruct (emit_feeders sepf seps file ftm (fst e) o (order (snd e))) as [o1|] eqn:E1; [|discriminate].
  destruct (IH o1 E H) as [G|G]; [exact (F _ _ _ _ E1 G)|now right].
Qed.
Print Assumptions C67_no_empty.

(** The hypotheses are met by two feeders of one substation, an object of no feeder and one of no substation. *)
Definition ex_objs := [mkObj (Some "sub1") (Some "F 1") (Some "a"); mkObj (Some "sub1") (Some "f2") (Some "b"); mkObj (Some "sub1") (Some "F 1") None;
  mkObj (Some "sub1") (Some "F 1") (Some "c"); mkObj (Some "sub1") None (Some "d"); mkObj None None (Some "e")].
Example C67_hypotheses_met :
  something true true ex_objs /\ told_apart true true "Loads.dss" ex_objs /\ plain_substations true true ex_objs /\
  exists o', write_section true true "Loads.dss" (@rev string) out0 ex_objs = Ok o' /\
    redirects o' = ["sub1/default/Loads.dss"; "sub1/f2/Loads.dss"; "sub1/f_1/Loads.dss"; "default/default/Loads.dss"] /\
    dget (files o') "sub1/f_1/Loads.dss" = Some "ac".
Proof.
  split; [|split; [|split]].
  - intros s f (o & I & H). apply home_group in H. unfold ex_objs in I.
    repeat (destruct I as [<-|I]; [injection H as <- <-|]); [exists (mkObj (Some "sub1") (Some "F 1") (Some "a")), "a"
      | exists (mkObj (Some "sub1") (Some "f2") (Some "b")), "b" | exists (mkObj (Some "sub1") (Some "F 1") (Some "a")), "a"
      | exists (mkObj (Some "sub1") (Some "F 1") (Some "a")), "a" | exists (mkObj (Some "sub1") None (Some "d")), "d"
      | exists (mkObj None None (Some "e")), "e" | destruct I];
    (split; [cbn; auto 10 | split; [apply home_group; reflexivity | split; [reflexivity | intros Q; discriminate Q]]]).
  - intros s f s' f' (o & I & H) (o' & I' & H') Q. apply home_group in H. apply home_group in H'. unfold ex_objs in I, I'.
    repeat (destruct I as [<-|I]; [injection H as <- <-|]); try destruct I;
    repeat (destruct I' as [<-|I']; [injection H' as <- <-|]); try destruct I';
      try (split; reflexivity); exfalso; destruct Q as [Q|Q]; vm_compute in Q; discriminate Q.
  - intros s f f' (o & I & H) (o' & I' & H') N. apply home_group in H. apply home_group in H'. unfold ex_objs in I, I'.
    repeat (destruct I as [<-|I]; [injection H as <- <-; try reflexivity|]); try destruct I.
    repeat (destruct I' as [<-|I']; [injection H'; intros; subst; try discriminate; try contradiction|]); destruct I'.
  - eexists. split; [vm_compute; reflexivity|]. split; reflexivity.
Qed.
