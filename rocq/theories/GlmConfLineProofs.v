(** Proofs about the configurations of lines and regulators of the GridLAB-D writer. *)
From Verif Require Import Base BaseFacts NetworkModel GlmWriteModel GlmWriteSpec GlmWriteProofs GlmConfProofs.
From Coq Require Import QArith Lia Permutation DecimalString DecimalNat.
Local Open Scope string_scope.
Local Open Scope nat_scope.
Local Open Scope list_scope.

(** ** Texts of impedances *)
Lemma digit_np c : is_digit c = true -> is_paren c = false.
Proof. unfold is_digit. cbn. intros H. repeat (apply orb_prop in H; destruct H as [H|H]; [apply Ascii.eqb_eq in H; subst c; reflexivity|]). discriminate H. Qed.
Lemma lstrip_keep c s : is_paren c = false -> lstrip_p (String c s) = String c s.
Proof. cbn. intros ->. reflexivity. Qed.
Lemma rstrip_keep s c : is_paren c = false -> rstrip_p (s ++ String c "")%string = (s ++ String c "")%string.
Proof. intros H. induction s as [|x s IH]; cbn; [now rewrite H|]. rewrite IH. destruct s; reflexivity. Qed.
Lemma rstrip_drop s c : is_paren c = false -> rstrip_p (s ++ String c ")")%string = (s ++ String c "")%string.
Proof. intros H. induction s as [|x s IH]; cbn; [now rewrite H|]. rewrite IH. destruct s; reflexivity. Qed.
Lemma has_plus_app a b : has_plus (a ++ b) = (has_plus a || has_plus b)%bool.
Proof. induction a as [|c a IH]; cbn; [reflexivity|]. rewrite IH. apply orb_assoc. Qed.
Lemma has_minus_app s c r : Ascii.eqb c "e" = false -> has_minus (s ++ String c (String "-" r)) = true.
Proof. intros H. induction s as [|x s IH]; cbn; [now rewrite H|]. cbn in IH. rewrite IH. apply orb_true_r. Qed.
Lemma digit_ne c : is_digit c = true -> Ascii.eqb c "e" = false.
Proof. unfold is_digit. cbn. intros H. repeat (apply orb_prop in H; destruct H as [H|H]; [apply Ascii.eqb_eq in H; subst c; reflexivity|]). discriminate H. Qed.

Lemma has_plus_in s : has_plus s = true -> exists a b, s = (a ++ "+" ++ b)%string.
Proof. induction s as [|c s IH]; [discriminate|]. cbn. intros H. apply orb_prop in H. destruct H as [H|H]; [apply Ascii.eqb_eq in H; subst c; exists "", s; reflexivity|]. destruct (IH H) as (a & b & ->). exists (String c a), b. reflexivity. Qed.
Lemma has_minus_in s : has_minus s = true -> exists a c b, s = (a ++ String c (String "-" b))%string /\ c <> "e"%char.
Proof.
  induction s as [|c s IH]; [discriminate|]. cbn. intros H. apply orb_prop in H. destruct H as [H|H].
  - apply andb_prop in H. destruct H as (Hc & H). destruct s as [|d s]; [discriminate H|]. apply Ascii.eqb_eq in H. subst d. exists "", c, s. split; [reflexivity|]. intros ->. discriminate Hc.
  - destruct (IH H) as (a & d & b & -> & N). exists (String c a), d, b. auto.
Qed.
Lemma snoc_split n a c b : (n ++ "j")%string = (a ++ String c (String "-" b))%string -> exists b', n = (a ++ String c (String "-" b'))%string.
Proof.
  revert a. induction n as [|x n IH]; intros [|y a] H; cbn in H; try discriminate H.
  - injection H as _ H. destruct a; discriminate H.
  - injection H as -> H. destruct n as [|z n]; [discriminate H|]. injection H as -> H. exists n. reflexivity.
  - injection H as -> H. destruct (IH a H) as (b' & ->). exists b'. reflexivity.
Qed.
Lemma snoc_eq a a' (c d : ascii) : (a ++ String c "")%string = (a' ++ String d "")%string -> c = d.
Proof.
  revert a'. induction a as [|x a IH]; intros [|y a'] H; cbn in H.
  - now injection H.
  - injection H as _ H. destruct a'; discriminate H.
  - injection H as _ H. destruct a; discriminate H.
  - injection H as _ H. exact (IH a' H).
Qed.
Lemma impedance_ok num cplx re im : number_texts num cplx -> (~ re == 0 \/ 0 <= im)%Q -> complex_text num re im (impedance_text cplx (re, im)).
Proof.
  intros (Hl & Hf & Hm & Hn & Hc) S. unfold impedance_text. cbn [fst snd]. rewrite Hc. destruct (Qeq_bool re 0) eqn:Z.
  - apply Qeq_bool_iff in Z. destruct S as [S|S]; [contradiction|]. destruct (Hf im) as (c & s & E & Hcs).
    assert (P : is_paren c = false) by (destruct Hcs as [Hd| ->]; [now apply digit_np|reflexivity]).
    assert (strip_p (num im ++ "j") = (num im ++ "j")%string) as ->.
    { unfold strip_p. rewrite E. cbn [append]. rewrite lstrip_keep by exact P. exact (rstrip_keep (String c s) "j" eq_refl). }
    unfold complex_text. right; right; right. split; [exact Z|]. split; [exact S|]. destruct (has_plus (num im ++ "j")) eqn:Hp.
    + right. split; [|reflexivity]. rewrite has_plus_app in Hp. apply orb_prop in Hp. destruct Hp as [Hp|Hp]; [exact (has_plus_in _ Hp)|discriminate Hp].
    + destruct (has_minus (num im ++ "j")) eqn:Hmi; [|left; reflexivity]. exfalso. destruct (has_minus_in _ Hmi) as (a & d & b & E1 & Nd). destruct (snoc_split _ _ _ _ E1) as (b' & E2).
      destruct (Hn im (a ++ String d "")%string b' S) as (a' & E3); [rewrite E2, sapp_assoc; reflexivity|]. apply snoc_eq in E3. congruence.
  - assert (N : strip_p ("(" ++ num re ++ (if Qle_bool 0 im then "+" else "") ++ num im ++ "j)") = (num re ++ (if Qle_bool 0 im then "+" else "") ++ num im ++ "j")%string).
    { destruct (Hf re) as (c & s & E & Hcs). assert (P : is_paren c = false) by (destruct Hcs as [Hd| ->]; [now apply digit_np|reflexivity]).
      unfold strip_p. rewrite E. cbn [append]. change (lstrip_p (String "(" (String c (s ++ (if Qle_bool 0 im then "+" else "") ++ num im ++ "j)")))) with (lstrip_p (String c (s ++ (if Qle_bool 0 im then "+" else "") ++ num im ++ "j)"))).
      rewrite lstrip_keep by exact P. 
      assert (T : forall e, String c (s ++ (if Qle_bool 0 im then "+" else "") ++ num im ++ e) = ((String c s ++ (if Qle_bool 0 im then "+" else "") ++ num im) ++ e)%string).
      { intros e. rewrite !sapp_assoc. reflexivity. }
      rewrite !T. apply rstrip_drop. reflexivity. }
    rewrite N. unfold complex_text. destruct (Qle_bool 0 im) eqn:L.
    + assert (has_plus (num re ++ "+" ++ num im ++ "j") = true) as -> by (rewrite has_plus_app; cbn; apply orb_true_r). cbn [negb andb]. left. split; [now apply Qle_bool_iff|reflexivity].
    + assert (Lt : (im < 0)%Q) by (apply Qnot_le_lt; intros H; apply Qle_bool_iff in H; congruence).
      destruct (Hl re) as (s & c & E & Hd). destruct (Hm im Lt) as (r & Er).
      assert (has_minus (num re ++ "" ++ num im ++ "j") = true) as ->.
      { rewrite E, Er. cbn [append]. rewrite sapp_assoc. cbn [append]. apply has_minus_app, digit_ne, Hd. }
      rewrite andb_false_r. right. left. split; [exact Lt|reflexivity].
Qed.

(** ** Configurations of lines *)
Lemma line_phases_spec l : line_phases l = conductors l.
Proof.
  unfold line_phases, conductors. f_equal. destruct (l_wires l) as [ws|]; [|reflexivity]. cbn [olist]. induction ws as [|w ws IH]; [reflexivity|].
  cbn [map some flat_map]. destruct (wi_phase w) as [p|]; cbn [app filter]; [|exact IH]. destruct (String.eqb p "N"); cbn [negb app]; [exact IH|]. f_equal. exact IH.
Qed.
Lemma digit_no p : phase_digit p = option_map nat_str (phase_no p).
Proof.
  unfold phase_digit, phase_no, smem. cbn [existsb]. destruct (String.eqb p "A") eqn:A; [reflexivity|]. destruct (String.eqb p "B") eqn:B.
  { apply String.eqb_eq in B. subst p. reflexivity. } destruct (String.eqb p "C") eqn:C; [apply String.eqb_eq in C; subst p; reflexivity|].
  destruct (String.eqb p "1"); [reflexivity|]. destruct (String.eqb p "2"); reflexivity.
Qed.
Lemma digit_row_no p a : phase_no p = Some a -> digit_row (nat_str a) = a - 1.
Proof.
  unfold phase_no. repeat (match goal with |- context [String.eqb p ?s] => destruct (String.eqb p s) end; [intros E; injection E as <-; reflexivity|]). discriminate.
Qed.
Definition mkey (ph : list string) (ij : nat * nat) : option string :=
  match phase_no (nth (fst ij) ph ""), phase_no (nth (snd ij) ph "") with Some a, Some b => Some ("z" ++ nat_str a ++ nat_str b)%string | _, _ => None end.
Definition ment (lc : list (list (Q * Q))) (ph : list string) (ij : nat * nat) : option (Q * Q) :=
  match phase_no (nth (fst ij) ph ""), phase_no (nth (snd ij) ph "") with
  | Some a, Some b =>
    match nth_error lc (if Nat.ltb (length lc) 3 then fst ij else a - 1) with
    | Some row => nth_error row (if Nat.ltb (length lc) 3 then snd ij else b - 1)
    | None => None end
  | _, _ => None end.
Lemma mkey_name ph ij k : mkey ph ij = Some k -> okb k = true /\ k <> "name".
Proof.
  unfold mkey. assert (P : forall s a, phase_no s = Some a -> nob (nat_str a) = true).
  { intros s a. unfold phase_no. repeat (match goal with |- context [String.eqb s ?x] => destruct (String.eqb s x) end; [intros E; injection E as <-; reflexivity|]). discriminate. }
  destruct (phase_no (nth (fst ij) ph "")) as [a|] eqn:A; [|discriminate]. destruct (phase_no (nth (snd ij) ph "")) as [b|] eqn:B; [|discriminate].
  intros E. injection E as <-. split; [|discriminate]. cbn. rewrite nob_app, (P _ _ A), (P _ _ B). reflexivity.
Qed.
Section Lines.
Variable cplx : Q -> Q -> string.
Lemma z_entry_inv lc ph d ij d' : z_entry cplx lc ph d ij = Ok d' -> exists k z, mkey ph ij = Some k /\ ment lc ph ij = Some z /\ d' = dset d k (VS (impedance_text cplx z)).
Proof.
  destruct ij as [i j]. unfold z_entry, mkey, ment. cbn [fst snd]. destruct (phase_no (nth i ph "")) as [a|]; [|discriminate]. destruct (phase_no (nth j ph "")) as [b|]; [|discriminate].
  cbn [of_opt bind]. cbv zeta. destruct (nth_error lc _) as [row|]; [|discriminate]. cbn [of_opt bind]. destruct (nth_error row _) as [z|]; [|discriminate]. cbn [of_opt bind].
  intros E. injection E as <-. eauto.
Qed.
Lemma z_fold lc ph : forall L d0 d, foldM (z_entry cplx lc ph) L d0 = Ok d ->
  (uniq d0 -> uniq d) /\
  (forall k, In k (map fst d) -> In k (map fst d0) \/ exists ij, In ij L /\ mkey ph ij = Some k) /\
  (forall k, ~ (exists ij, In ij L /\ mkey ph ij = Some k) -> dget d k = dget d0 k) /\
  (forall ij, In ij L -> exists k z, mkey ph ij = Some k /\ ment lc ph ij = Some z /\
     ((forall ij', In ij' L -> mkey ph ij' = Some k -> ij' = ij) -> dget d k = Some (VS (impedance_text cplx z)))).
Proof.
  induction L as [|x L IH]; intros d0 d E; cbn [foldM] in E.
  - injection E as <-. split; [auto|]. split; [auto|]. split; [auto|]. intros ij [].
  - destruct (z_entry cplx lc ph d0 x) as [d1|] eqn:Ez; [|discriminate]. destruct (z_entry_inv _ _ _ _ _ Ez) as (k & z & K & M & ->).
    destruct (IH _ _ E) as (I1 & I2 & I3 & I4). split; [intros U; apply I1; now apply dset_uniq|]. split; [|split].
    + intros k' H. destruct (I2 k' H) as [H'|(ij & Hij & Hk)]; [|right; exists ij; split; [now right|exact Hk]].
      apply dset_fst in H'. destruct H' as [->|H']; [right; exists x; split; [now left|exact K]|now left].
    + intros k' H. rewrite I3 by (intros (ij & Hij & Hk); apply H; exists ij; split; [now right|exact Hk]). rewrite dget_dset.
      destruct (String.eqb k k') eqn:Eq; [|reflexivity]. apply String.eqb_eq in Eq. subst k'. exfalso. apply H. exists x. split; [now left|exact K].
    + intros ij [<-|Hij].
      * exists k, z. split; [exact K|]. split; [exact M|]. intros In1.
        assert (D : {In x L} + {~ In x L}) by (apply in_dec; decide equality; apply Nat.eq_dec). destruct D as [D|D].
        -- destruct (I4 x D) as (k' & z' & K' & M' & G). rewrite K in K'. injection K' as <-. rewrite M in M'. injection M' as <-. apply G. intros ij' H. apply In1. now right.
        -- rewrite I3, dget_dset, String.eqb_refl; [reflexivity|]. intros (ij & Hij & Hk). apply D. rewrite <- (In1 ij (or_intror Hij) Hk). exact Hij.
      * destruct (I4 ij Hij) as (k' & z' & K' & M' & G). exists k', z'. split; [exact K'|]. split; [exact M'|]. intros H. apply G. intros ij' H'. apply H. now right.
Qed.

Definition pairs (l : gline) : list (nat * nat) := list_prod (seq 0 (length (conductors l))) (seq 0 (length (conductors l))).
Lemma pairs_in l i j : In (i, j) (pairs l) <-> i < length (conductors l) /\ j < length (conductors l).
Proof. unfold pairs. rewrite in_prod_iff, !in_seq. lia. Qed.
Lemma nth_error_nth' (l : list string) i p : nth_error l i = Some p -> nth i l "" = p /\ i < length l.
Proof. intros H. split; [now apply nth_error_nth|]. apply nth_error_Some. congruence. Qed.
Lemma z_key_pairs l i j k : z_key l i j = Some k <-> In (i, j) (pairs l) /\ mkey (conductors l) (i, j) = Some k.
Proof.
  unfold z_key, mkey. cbn [fst snd]. rewrite pairs_in. split.
  - destruct (nth_error (conductors l) i) as [p|] eqn:Ei; [|discriminate]. destruct (nth_error (conductors l) j) as [q|] eqn:Ej; [|discriminate].
    destruct (nth_error_nth' _ _ _ Ei) as [-> Li]. destruct (nth_error_nth' _ _ _ Ej) as [-> Lj]. rewrite !digit_no. intros H. split; [auto|].
    destruct (phase_no p); [|discriminate]. destruct (phase_no q); [|discriminate]. exact H.
  - intros [[Li Lj] H]. destruct (nth_error (conductors l) i) as [p|] eqn:Ei; [|apply nth_error_None in Ei; lia]. destruct (nth_error (conductors l) j) as [q|] eqn:Ej; [|apply nth_error_None in Ej; lia].
    destruct (nth_error_nth' _ _ _ Ei) as [Hp _]. destruct (nth_error_nth' _ _ _ Ej) as [Hq _]. rewrite Hp, Hq in H. rewrite !digit_no.
    destruct (phase_no p); [|discriminate]. destruct (phase_no q); [|discriminate]. exact H.
Qed.
Lemma entry_ment l m i j k : l_z l = Some m -> z_key l i j = Some k -> entry l i j = ment m (conductors l) (i, j).
Proof.
  intros Hm Hk. unfold entry, ment, z_key in *. cbn [fst snd] in *. rewrite Hm. destruct (nth_error (conductors l) i) as [p|] eqn:Ei; [|discriminate]. destruct (nth_error (conductors l) j) as [q|] eqn:Ej; [|discriminate].
  destruct (nth_error_nth' _ _ _ Ei) as [-> _]. destruct (nth_error_nth' _ _ _ Ej) as [-> _]. rewrite !digit_no in *.
  destruct (phase_no p) as [a|] eqn:A; [|discriminate]. destruct (phase_no q) as [b|] eqn:B; [|discriminate]. cbn [option_map]. rewrite (digit_row_no _ _ A), (digit_row_no _ _ B). reflexivity.
Qed.
(** different pairs of phases have different keys *)
Lemma phase_no_len p a : phase_no p = Some a -> exists c, nat_str a = String c "".
Proof. unfold phase_no. repeat (match goal with |- context [String.eqb p ?x] => destruct (String.eqb p x) end; [intros E; injection E as <-; eexists; reflexivity|]). discriminate. Qed.
Lemma z_key_inj l i j i' j' k : distinct_phases l -> z_key l i j = Some k -> z_key l i' j' = Some k -> i = i' /\ j = j'.
Proof.
  intros D. assert (Inj : forall i i' p p' a, nth_error (conductors l) i = Some p -> nth_error (conductors l) i' = Some p' -> phase_digit p = Some a -> phase_digit p' = Some a -> i = i').
  { clear i j i' j' k. intros i i' p p' a H H' A A'. assert (E : nth_error (map phase_digit (conductors l)) i = Some (Some a)) by now rewrite nth_error_map, H, <- A.
    assert (E' : nth_error (map phase_digit (conductors l)) i' = Some (Some a)) by now rewrite nth_error_map, H', <- A'. unfold distinct_phases in D. rewrite NoDup_nth_error in D.
    apply D; [apply nth_error_Some; congruence|congruence]. }
  unfold z_key. destruct (nth_error (conductors l) i) as [p|] eqn:Ei; [|discriminate]. destruct (nth_error (conductors l) j) as [q|] eqn:Ej; [|discriminate].
  destruct (nth_error (conductors l) i') as [p'|] eqn:Ei'; [|intros _; discriminate]. destruct (nth_error (conductors l) j') as [q'|] eqn:Ej'; [|intros _; discriminate].
  destruct (phase_digit p) as [a|] eqn:A; [|discriminate]. destruct (phase_digit q) as [b|] eqn:B; [|discriminate]. destruct (phase_digit p') as [a'|] eqn:A'; [|intros _; discriminate]. destruct (phase_digit q') as [b'|] eqn:B'; [|intros _; discriminate].
  intros E1 E2. injection E1 as <-. injection E2 as E2.
  assert (a' = a /\ b' = b) as [-> ->].
  { rewrite digit_no in A, B, A', B'. destruct (phase_no p) as [n1|] eqn:N1; [|discriminate]. destruct (phase_no q) as [n2|] eqn:N2; [|discriminate]. destruct (phase_no p') as [n3|] eqn:N3; [|discriminate]. destruct (phase_no q') as [n4|] eqn:N4; [|discriminate].
    apply phase_no_len in N1, N2, N3, N4. destruct N1 as (c1 & X1), N2 as (c2 & X2), N3 as (c3 & X3), N4 as (c4 & X4). cbn in A, B, A', B'. rewrite X1 in A. rewrite X2 in B. rewrite X3 in A'. rewrite X4 in B'.
    injection A as <-. injection B as <-. injection A' as <-. injection B' as <-. cbn in E2. injection E2 as -> ->. auto. }
  split; eapply Inj; eauto.
Qed.
Lemma line_dic_spec l d : line_dic cplx l = Ok d -> good_dic d /\
  (forall k, In k (map fst d) -> exists i j, z_key l i j = Some k) /\
  (distinct_phases l -> forall i j k z, z_key l i j = Some k -> entry l i j = Some z -> dget d k = Some (VS (impedance_text cplx z))).
Proof.
  unfold line_dic. rewrite line_phases_spec. destruct (l_z l) as [m|] eqn:Hm.
  - intros E. fold (pairs l) in E. destruct (z_fold _ _ _ _ _ E) as (F1 & F2 & F3 & F4).
    assert (K : forall k, In k (map fst d) -> exists ij, In ij (pairs l) /\ mkey (conductors l) ij = Some k) by (intros k H; destruct (F2 k H) as [[]|H']; exact H').
    split; [|split].
    + split; [apply F1; constructor|]. split.
      * apply dget_none. intros H. destruct (K _ H) as (ij & _ & H'). apply mkey_name in H'. now destruct H'.
      * intros k H. destruct (K _ H) as (ij & _ & H'). now apply mkey_name in H'.
    + intros k H. destruct (K _ H) as ([i j] & Hi & H'). exists i, j. apply z_key_pairs. auto.
    + intros D i j k z Hk Hz. pose proof Hk as Hk'. apply z_key_pairs in Hk'. destruct Hk' as [Hi Mk]. destruct (F4 _ Hi) as (k' & z' & Mk' & Mz & G). rewrite Mk in Mk'. injection Mk' as <-.
      rewrite (entry_ment l m i j k Hm Hk), Mz in Hz. injection Hz as <-. apply G. intros [i' j'] Hi' Mk'. assert (Hk2 : z_key l i' j' = Some k) by (apply z_key_pairs; auto).
      destruct (z_key_inj l i j i' j' k D Hk Hk2) as [-> ->]. reflexivity.
  - intros E. injection E as <-. split; [|split].
    + split; [constructor|]. split; [reflexivity|]. intros k [].
    + intros k [].
    + intros D i j k z Hk Hz. unfold entry in Hz. rewrite Hm in Hz. discriminate Hz.
Qed.
End Lines.

Lemma line_conf_ok num cplx cls l d d' c : number_texts num cplx -> distinct_phases l -> positive_entries l -> line_dic cplx l = Ok d -> good_dic d' -> same_set d' d = true ->
  line_conf_says num l (conf_b num cplx cls (d', c)).
Proof.
  intros T D P E G' S. destruct (line_dic_spec cplx l d E) as (G & K & V). split.
  - intros i j k z Hk Hz. pose proof (V D i j k z Hk Hz) as Hv.
    assert (Nk : k <> "name") by (apply z_key_pairs in Hk; destruct Hk as [_ Hk]; now apply mkey_name in Hk).
    pose proof (conf_fits num cplx cls d' c d k G' G S Nk) as F. rewrite Hv in F. cbn in F. exists (impedance_text cplx z). split; [exact F|]. destruct z as [re im]. apply impedance_ok; [exact T|]. exact (P i j (re, im) Hz).
  - intros k H. destruct (String.eqb_spec k "name") as [->|Nk]; [now left|right]. apply K. 
    assert (Hd' : dget d' k <> None).
    { intros N. unfold keys in H. destruct G' as (U' & N' & _).
      pose proof (conf_b_val num cplx cls d' c k U' N' Nk) as Hv. rewrite N in Hv. unfold values in Hv. apply in_map_iff in H. destruct H as ([k0 v0] & Ek & Hi). cbn in Ek. subst k0.
      assert (In v0 (map snd (filter (fun p => String.eqb (fst p) k) (snd (conf_b num cplx cls (d', c)))))) by (apply in_map_iff; exists (k, v0); split; [reflexivity|]; apply filter_In; split; [exact Hi|cbn; apply String.eqb_refl]).
      rewrite Hv in H. destruct H. }
    pose proof (same_get d' d k (proj1 G') (proj1 G) S) as Sg. destruct (dget d' k); [|congruence]. destruct (dget d k) as [y|] eqn:Ed; [|destruct Sg].
    apply (dget_in d k y (proj1 G)) in Ed. apply (in_map fst) in Ed. exact Ed.
Qed.
