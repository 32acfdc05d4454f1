(** C66: the OpenDSS writer defines the line codes that its lines refer to. *)
From Verif Require Import Base BaseFacts CsvModel CsvProofs DssNameModel DssCodeModel DssCodeSpec DssCodeProofs DssLineCodeSpec DssLineCodeProofs DssCodeProps.
From Coq Require Import QArith Lia.
Local Open Scope string_scope.
Local Open Scope nat_scope.
Local Open Scope list_scope.

(** The line [l] has become [l'], and the file of its substation and feeder defines its line code with its data. *)
Definition coded (sepf seps : bool) (m : dict (dict (list (string * dval)))) (l l' : line) : Prop :=
  exists c s f t d, l' = set_lclass l (Some c) /\ goes_to sepf seps l s f /\ dget m (s ++ "_" ++ f)%string = Some t /\ dget t c = Some d /\ describes_code d l.

Lemma F2_impl {A B} (P Q : A -> B -> Prop) : (forall a b, P a b -> Q a b) -> forall a b, Forall2 P a b -> Forall2 Q a b.
Proof. intros H a b F. induction F; constructor; auto. Qed.
Lemma goes_key sepf seps l : exists s f, goes_to sepf seps l s f /\ key_of sepf seps l = (s ++ "_" ++ f)%string.
Proof.
  unfold key_of, group_key, group, goes_to. cbn [fst snd]. do 2 eexists. split; [|reflexivity].
  split; [destruct (l_sub l); [destruct seps|]|destruct (l_feeder l); [destruct sepf|]]; auto.
Qed.
Lemma coded_of sepf seps m l c v : dget (txt_of m (key_of sepf seps l)) c = Some v -> same_data v (parse_line l) -> coded sepf seps m l (set_lclass l (Some c)).
Proof.
  intros H S. destruct (goes_key sepf seps l) as (s & f & G & E). rewrite E in H. unfold txt_of in H. destruct (dget m (s ++ "_" ++ f)%string) as [t|] eqn:Em; [|discriminate H].
  exists c, s, f, t, v. split; [reflexivity|]. split; [exact G|]. split; [exact Em|]. split; [exact H|]. eapply describes_code_same; [exact S|apply parse_line_states].
Qed.

(** One file for the whole network: if there are at most two variants of the data of a class (for each number of phases)
    and the classes do not look like numbered variants of each other, every line gets a line code with its own data. *)
Theorem C66_single : forall ls a m ls',
  (forall l1 l2 s1 s2 j, In l1 ls -> In l2 ls -> class_name l1 s1 -> class_name l2 s2 -> variant s1 j <> s2) ->
  (forall l1 l2 l3, In l1 ls -> In l2 ls -> In l3 ls -> same_class l1 l2 -> same_class l1 l3 -> alike_code l1 l2 \/ alike_code l1 l3 \/ alike_code l2 l3) ->
  write_linecodes false false [] [] 0 ls = (a, m, ls') -> Forall2 (coded false false m) ls ls'.
Proof.
  intros ls a m ls' Cl Two E. assert (K : forall l, key_of false false l = "DEFAULT_DEFAULT") by (intros l; unfold key_of, group_key, group; destruct (l_sub l), (l_feeder l); reflexivity).
  assert (Cn : forall l c, l_class l = Some c -> class_name l (class_np c l)) by (intros l c Hc; exists c, (np l); split; [exact Hc|]; split; [apply np_spec|]; reflexivity).
  apply (write_single ls) with (K := "DEFAULT_DEFAULT") in E; [| | |apply incl_refl|split; [constructor|intros k v Q; discriminate Q]|intros l _; apply K|reflexivity].
  2: { intros l1 l2 c1 c2 j H1 H2 C1 C2. apply (Cl l1 l2 _ _ j H1 H2); apply Cn; assumption. }
  - destruct E as (T & _ & F). revert F. apply F2_impl. intros l l' (c & v & -> & Hv & Sv). apply (coded_of false false m l c v); [rewrite K, T; exact Hv|exact Sv].
  - intros l1 l2 l3 c I1 I2 I3 C1 C2 C3 N2 N3. assert (S : forall l l', l_class l = Some c -> l_class l' = Some c -> np l = np l' -> same_class l l') by (intros l l' H1 H2 H3; split; [congruence|]; split; [congruence|apply np_same, H3]).
    destruct (Two l1 l2 l3 I1 I2 I3 (S _ _ C1 C2 N2) (S _ _ C1 C3 N3)) as [H|[H|H]]; apply alike_code_same in H; auto.
Qed.
Print Assumptions C66_single.

(** Any separation into files: if every line has a class, and lines of the same class with the same number of phases have
    the same data, every line's code is defined in the file of the line, under the name of the class. *)
Theorem C66_files : forall sepf seps ls a m ls',
  (forall l, In l ls -> l_class l <> None) ->
  (forall l1 l2, In l1 ls -> In l2 ls -> same_class l1 l2 -> alike_code l1 l2) ->
  write_linecodes sepf seps [] [] 0 ls = (a, m, ls') ->
  Forall2 (fun l l' => coded sepf seps m l l' /\ exists c, l_class l' = Some c /\ class_name l c) ls ls'.
Proof.
  intros sepf seps ls a m ls' Nm Uni E. apply (write_many sepf seps ls) in E; [|exact Nm| |apply incl_refl|intros k v Q; discriminate Q|intros g k v Q; discriminate Q].
  - destruct E as (_ & _ & F). revert F. apply F2_impl. intros l l' (c & v & -> & Hc & Hv & Sv). split; [apply (coded_of sepf seps m l _ v); auto|].
    eexists. split; [reflexivity|]. exists c, (np l). split; [exact Hc|]. split; [apply np_spec|]; reflexivity.
  - intros l1 l2 c I1 I2 C1 C2 N. apply alike_code_same, Uni; auto. split; [congruence|]. split; [congruence|apply np_same, N].
Qed.
Print Assumptions C66_files.

Definition cl (c : option string) (z : Q) (f : option string) : line := mkLine (Some "overhead") c [wr None 1] (Some 1%Q) [[(z, 2%Q)]] [] false f None.
Definition cls : list line := [cl (Some "k") 1 None; cl None 5 None; cl (Some "k") 2 None; cl (Some "k") 2 None; cl None 2 None; mkLine None (Some "k") [] None [] [[(7%Q, 0%Q)]] true None None].
Example C66_hypotheses_met :
  (forall l1 l2 s1 s2 j, In l1 cls -> In l2 cls -> class_name l1 s1 -> class_name l2 s2 -> variant s1 j <> s2) /\
  (forall l1 l2 l3, In l1 cls -> In l2 cls -> In l3 cls -> same_class l1 l2 -> same_class l1 l3 -> alike_code l1 l2 \/ alike_code l1 l3 \/ alike_code l2 l3) /\
  exists a m ls', write_linecodes false false [] [] 0 cls = (a, m, ls') /\ map l_class ls' = [Some "k_1"; Some "1P_OH_Code0"; Some "k_1_1"; Some "k_1_1"; Some "k_1_1"; Some "k_0"] /\ dkeys a = ["k_1"; "1P_OH_Code0"; "k_1_1"; "k_0"].
Proof.
  split; [|split; [|do 3 eexists; split; [vm_compute; reflexivity|]; split; vm_compute; reflexivity]].
  - intros l1 l2 s1 s2 j H1 H2 (c1 & n1 & C1 & _ & ->) (c2 & n2 & C2 & _ & ->) E.
    assert (K : forall l c, In l cls -> l_class l = Some c -> c = "k") by (intros l c Hl Hc; unfold cls in Hl; cbn [In] in Hl; repeat (destruct Hl as [<-|Hl]; [cbn in Hc; congruence|]); destruct Hl).
    apply K in C1; [|exact H1]. apply K in C2; [|exact H2]. subst. assert (Q := f_equal (split_on "_") E). rewrite !variant_split in Q. cbn in Q. discriminate Q.
  - assert (R : forall l l', l = l' -> alike_code l l').
    { intros l l' <-. split; [reflexivity|]. assert (O : forall x, oeq x x) by (intros [x|]; cbn; reflexivity || exact I). split; [apply O|]. split; [apply O|]. split; [apply O|].
      split; [apply F2_refl; intros r; apply F2_refl; intros x; split; reflexivity|]. split; [reflexivity|]. apply F2_refl; intros r; apply F2_refl; intros x; split; reflexivity. }
    intros l1 l2 l3 H1 H2 H3 (N1 & C2 & P2) (_ & C3 & P3). apply np_same in P2, P3. unfold cls in H1, H2, H3. cbn [In] in H1, H2, H3.
    assert (D : forall l, In l cls -> l_class l <> None -> (np l = 0 /\ l = nth 5 cls l) \/ (np l = 1 /\ (l = cl (Some "k") 1 None \/ l = cl (Some "k") 2 None))).
    { intros l Hl Nl. unfold cls in Hl. cbn [In] in Hl. repeat (destruct Hl as [<-|Hl]; [|]); try (exfalso; apply Nl; reflexivity); try destruct Hl; auto. }
    destruct (D l1 H1 N1) as [[A1 B1]|[A1 B1]]; destruct (D l2 H2 ltac:(congruence)) as [[A2 B2]|[A2 B2]]; try lia; destruct (D l3 H3 ltac:(congruence)) as [[A3 B3]|[A3 B3]]; try lia.
    + left. apply R. rewrite B1, B2. reflexivity.
    + destruct B1 as [->| ->], B2 as [->| ->], B3 as [->| ->]; auto.
Qed.

Example C66_files_hypotheses_met : let ls := [cl (Some "k") 1 (Some "f"); cl (Some "j") 2 None; cl (Some "k") 1 (Some "g")] in
  (forall l, In l ls -> l_class l <> None) /\ (forall l1 l2, In l1 ls -> In l2 ls -> same_class l1 l2 -> alike_code l1 l2) /\
  exists a m ls', write_linecodes true false [] [] 0 ls = (a, m, ls') /\ map l_class ls' = [Some "k_1"; Some "j_1"; Some "k_1"] /\ dkeys m = ["DEFAULT_f"; "DEFAULT_DEFAULT"; "DEFAULT_g"].
Proof.
  cbv zeta. split; [intros l Hl; cbn [In] in Hl; repeat (destruct Hl as [<-|Hl]; [intros Q; discriminate Q|]); destruct Hl|]. split; [|do 3 eexists; split; [vm_compute; reflexivity|]; split; vm_compute; reflexivity].
  intros l1 l2 H1 H2 (_ & C & P). cbn [In] in H1, H2. repeat (destruct H1 as [<-|H1]; [|]); try destruct H1; repeat (destruct H2 as [<-|H2]; [|]); try destruct H2; try discriminate C.
  all: split; [exact P|]; split; [cbn; reflexivity|]; split; [cbn; reflexivity|]; split; [exact I|]; split; [repeat constructor; reflexivity|]; split; [reflexivity|constructor].
Qed.

(** The full statement fails: the third variant of a class gets the line code of the second variant. *)
Theorem C66_third_refuted : exists ls a m ls' l l' t d, write_linecodes false false [] [] 0 ls = (a, m, ls') /\ nth_error ls 2 = Some l /\ nth_error ls' 2 = Some l' /\
  dget m "DEFAULT_DEFAULT" = Some t /\ l_class l' = Some "k_1_0" /\ dget t "k_1_0" = Some d /\ ~ describes_code d l.
Proof.
  exists [cl (Some "k") 1 None; cl (Some "k") 2 None; cl (Some "k") 3 None]. do 7 eexists. split; [vm_compute; reflexivity|]. split; [reflexivity|]. split; [reflexivity|]. split; [reflexivity|]. split; [reflexivity|]. split; [vm_compute; reflexivity|].
  intros (_ & _ & H & _). destruct H as (R & X & HR & _ & G & _); [intros Q; discriminate Q|]. destruct G as [_ G]. specialize (G _ (or_intror (or_intror (or_intror (or_introl eq_refl))))).
  cbn in HR. inversion HR as [|? r ? ? Hr]; subst. inversion Hr as [|? x ? ? Hx]; subst. inversion G as [|? ? ? ? Gr]; subst. inversion Gr as [|? ? ? ? Gx]; subst. cbn in Gx. discriminate Gx.
Qed.
Print Assumptions C66_third_refuted.

(** A line without a class, in the second of two feeders, refers to a line code that is defined in the file of the first feeder only. *)
Theorem C66_other_feeder_refuted : exists ls a m ls' l' t, write_linecodes true false [] [] 0 ls = (a, m, ls') /\ map l_feeder ls = [Some "f"; Some "g"] /\ nth_error ls' 1 = Some l' /\
  l_class l' = Some "1P_OH_Code0" /\ dget m "DEFAULT_g" = Some t /\ dget t "1P_OH_Code0" = None.
Proof. exists [cl None 1 (Some "f"); cl None 1 (Some "g")]. do 5 eexists. split; [vm_compute; reflexivity|]. repeat split; reflexivity. Qed.
Print Assumptions C66_other_feeder_refuted.

(** Two feeders have files that define the same line code with different data. *)
Theorem C66_two_definitions_refuted : exists ls a m ls' t1 t2 d1 d2, write_linecodes true false [] [] 0 ls = (a, m, ls') /\ map l_feeder ls = [Some "f"; Some "g"] /\
  dget m "DEFAULT_f" = Some t1 /\ dget m "DEFAULT_g" = Some t2 /\ dget t1 "k_1" = Some d1 /\ dget t2 "k_1" = Some d2 /\ ~ same_data d1 d2.
Proof.
  exists [cl (Some "k") 1 (Some "f"); cl (Some "k") 2 (Some "g")]. do 7 eexists. split; [vm_compute; reflexivity|]. split; [reflexivity|]. split; [reflexivity|]. split; [reflexivity|]. split; [vm_compute; reflexivity|]. split; [vm_compute; reflexivity|].
  intros H. apply data_eqb_spec in H. vm_compute in H. discriminate H.
Qed.
Print Assumptions C66_two_definitions_refuted.
