From Coq Require Import List String Ascii Bool Arith Lia.
From Verif Require Import Base BaseFacts TextModel CsvModel CsvSpec CsvProofs CymeMapModel ReaderModel ReaderProofs CymeParseModel CymeParseSpec.
Import ListNotations.
Local Open Scope string_scope.
Local Open Scope nat_scope.
Local Open Scope list_scope.

(** ** Splitting and joining *)

Lemma split_cons_free c x s : free c x -> split_on c (x ++ String c s)%string = x :: split_on c s.
Proof.
  induction x as [|a x IH]; intros F; cbn.
  - rewrite Ascii.eqb_refl. reflexivity.
  - destruct F as [N F]. destruct (Ascii.eqb_spec a c); [contradiction|]. rewrite IH by exact F. reflexivity.
Qed.
Lemma split_concat cs : cs <> [] -> Forall (free ",") cs -> split_on "," (String.concat "," cs) = cs.
Proof.
  induction cs as [|x cs IH]; intros N F; [congruence|]. inversion F; subst. destruct cs as [|y cs].
  - cbn. apply split_free. assumption.
  - change (String.concat "," (x :: y :: cs)) with (x ++ String "," (String.concat "," (y :: cs)))%string.
    rewrite split_cons_free by assumption. f_equal. apply IH; [discriminate|assumption].
Qed.
Lemma split_ne c s : split_on c s <> [].
Proof. destruct s as [|a s]; cbn; [discriminate|]. destruct (Ascii.eqb a c); [discriminate|]. destruct (split_on c s); discriminate. Qed.
Lemma split_cells s : cells s (split_on "," s).
Proof.
  split; [apply split_ne|]. induction s as [|a s [IH1 IH2]]; cbn.
  - split; [reflexivity|repeat constructor].
  - destruct (Ascii.eqb_spec a ",") as [->|N].
    + pose proof (split_ne "," s) as NE. split.
      * destruct (split_on "," s) as [|y l]; [congruence|]. change (String.concat "," ("" :: y :: l)) with (String "," (String.concat "," (y :: l))).
        rewrite <- IH1. reflexivity.
      * constructor; [exact I|exact IH2].
    + destruct (split_on "," s) as [|y l] eqn:E; [exfalso; exact (split_ne _ _ E)|]. apply Forall_cons_iff in IH2. destruct IH2 as [F1 F2]. split.
      * rewrite IH1. destruct l; reflexivity.
      * constructor; [split; assumption|assumption].
Qed.
Lemma cells_split s cs : cells s cs -> cs = split_on "," s.
Proof. intros (N & -> & F). symmetry. apply split_concat; assumption. Qed.

Lemma prefix_char c a s : String.prefix (String c "") (String a s) = Ascii.eqb c a.
Proof. cbn. destruct (Ascii.ascii_dec c a) as [->|N]; [rewrite Ascii.eqb_refl; destruct s; reflexivity|]. symmetry. apply Ascii.eqb_neq. exact N. Qed.
Lemma substr_char c : forall s, substr_in (String c "") s = false <-> free c s.
Proof.
  induction s as [|a s IH]; [cbn; tauto|].
  change (substr_in (String c "") (String a s)) with (if String.prefix (String c "") (String a s) then true else substr_in (String c "") s).
  rewrite prefix_char. cbn [free]. destruct (Ascii.eqb_spec c a) as [->|N]; [intuition congruence|]. rewrite IH. intuition congruence.
Qed.
Lemma free_split c s : free c s <-> length (split_on c s) = 1.
Proof.
  split; [intros F; rewrite split_free by exact F; reflexivity|].
  induction s as [|a s IH]; intros H; [exact I|]. cbn in H. destruct (Ascii.eqb_spec a c) as [->|N].
  - cbn in H. pose proof (split_ne c s). destruct (split_on c s); [congruence|discriminate].
  - split; [exact N|]. apply IH. pose proof (split_ne c s). destruct (split_on c s); [congruence|exact H].
Qed.
Lemma row_split l : substr_in "," l = Nat.ltb 1 (length (split_on "," l)).
Proof.
  destruct (substr_in "," l) eqn:E.
  - symmetry. apply Nat.ltb_lt. pose proof (split_ne "," l). destruct (split_on "," l) as [|x [|y r]] eqn:S; [congruence| |cbn; lia].
    assert (F : free "," l) by (apply free_split; rewrite S; reflexivity). apply substr_char in F. congruence.
  - apply substr_char in E. rewrite split_free by exact E. reflexivity.
Qed.

(** ** Format lines *)

Lemma split_concat_end e cs x : free "," e -> Forall (free ",") (cs ++ [x]) ->
  split_on "," (String.concat "," (cs ++ [x]) ++ e)%string = cs ++ [(x ++ e)%string].
Proof.
  intros Fe. induction cs as [|y cs IH]; intros F.
  - cbn. inversion F; subst. apply split_free. apply free_app; assumption.
  - cbn [app] in F. inversion F; subst. destruct (cs ++ [x]) as [|z l] eqn:E; [destruct cs; discriminate|].
    change (String.concat "," ((y :: cs) ++ [x])) with (String.concat "," (y :: cs ++ [x])). rewrite E.
    change (String.concat "," (y :: z :: l)) with (y ++ String "," (String.concat "," (z :: l)))%string.
    rewrite sapp_assoc. cbn [append]. rewrite split_cons_free by assumption. rewrite IH by assumption. reflexivity.
Qed.

Lemma is_eol_lower c : is_eol (lower_ascii c) = is_eol c.
Proof. destruct c as [[] [] [] [] [] [] [] []]; reflexivity. Qed.
Definition no_eol (s : string) : Prop := free (ascii_of_nat 10) s /\ free (ascii_of_nat 13) s.
Lemma is_eol_spec c : is_eol c = true <-> c = ascii_of_nat 10 \/ c = ascii_of_nat 13.
Proof.
  unfold is_eol. cbv zeta. rewrite orb_true_iff, !Nat.eqb_eq. split.
  - intros [H|H]; [left|right]; (transitivity (ascii_of_nat (nat_of_ascii c)); [symmetry; apply ascii_nat_embedding|rewrite H; reflexivity]).
  - intros [->| ->]; [left|right]; reflexivity.
Qed.
Lemma no_eol_cons c s : no_eol (String c s) <-> is_eol c = false /\ no_eol s.
Proof.
  unfold no_eol. cbn [free]. rewrite <- not_true_iff_false, is_eol_spec. tauto.
Qed.
Lemma no_eol_lower s : no_eol s -> no_eol (lower s).
Proof.
  induction s as [|c s IH]; [trivial|]. cbn [lower]. rewrite !no_eol_cons, is_eol_lower. tauto.
Qed.
Lemma rstrip_eol_no s : no_eol s -> rstrip_eol s = s.
Proof.
  induction s as [|c s IH]; [reflexivity|]. rewrite no_eol_cons. intros [A B]. cbn. rewrite (IH B), A. destruct s; reflexivity.
Qed.
Lemma rstrip_eol_nl s : no_eol s -> rstrip_eol (s ++ newline)%string = s.
Proof.
  induction s as [|c s IH]; [reflexivity|]. rewrite no_eol_cons. intros [A B]. cbn [append rstrip_eol]. rewrite (IH B), A.
  destruct s; reflexivity.
Qed.
Lemma sapp_nil s : (s ++ "" = s)%string.
Proof. induction s; cbn; congruence. Qed.
Lemma strip_eol_end s e : no_eol s -> e = "" \/ e = newline -> strip_eol (s ++ e)%string = s.
Proof.
  intros N [->| ->]; unfold strip_eol.
  - rewrite sapp_nil.
    destruct s as [|c s]; [reflexivity|]. pose proof (proj1 (no_eol_cons _ _) N) as [A _].
    cbn [lstrip_eol]. rewrite A. apply rstrip_eol_no. exact N.
  - destruct s as [|c s]; [reflexivity|]. pose proof (proj1 (no_eol_cons _ _) N) as [A _].
    cbn [append lstrip_eol]. rewrite A. apply (rstrip_eol_nl (String c s)). exact N.
Qed.
Lemma lower_app a b : lower (a ++ b)%string = (lower a ++ lower b)%string.
Proof. induction a; cbn; congruence. Qed.

Lemma free_concat c cs : c <> ","%char -> Forall (free c) cs -> free c (String.concat "," cs).
Proof.
  intros N. induction cs as [|x cs IH]; intros F; [exact I|]. inversion F; subst. destruct cs as [|y cs]; [cbn; assumption|].
  change (String.concat "," (x :: y :: cs)) with (x ++ String "," (String.concat "," (y :: cs)))%string.
  apply free_app; [assumption|]. split; [congruence|auto].
Qed.

Lemma format_line_names line names : format_line line names -> format_names line = Some (map lower names).
Proof.
  intros (key & e & -> & Fk & NE & SN & E). unfold format_names.
  assert (Fe : free "," e /\ free "=" e) by (destruct E as [->| ->]; cbn; repeat split; discriminate).
  change (key ++ "=" ++ String.concat "," names ++ e)%string with (key ++ String "=" (String.concat "," names ++ e))%string.
  rewrite split_cons_free by exact Fk. cbn [nth_error].
  rewrite split_free.
  2:{ apply free_app; [|tauto]. apply free_concat; [discriminate|]. eapply Forall_impl; [|exact SN]. intros a (_ & H & _). exact H. }
  cbn [nth_error]. f_equal.
  destruct (@exists_last _ names NE) as (cs & x & ->).
  assert (SN' := SN). apply Forall_app in SN'. destruct SN' as [SC SX]. inversion SX as [|? ? SX' _]; subst.
  rewrite split_concat_end; [|tauto|eapply Forall_impl; [|exact SN]; intros a (H & _); exact H].
  rewrite !map_app. cbn [map]. f_equal.
  - apply map_ext_in. intros a Ha. rewrite Forall_forall in SC. destruct (SC a Ha) as (_ & _ & H3 & H4).
    pose proof (strip_eol_end (lower a) "" (no_eol_lower a (conj H3 H4)) (or_introl eq_refl)) as Z.
    rewrite sapp_nil in Z. exact Z.
  - rewrite lower_app. destruct SX' as (_ & _ & H3 & H4). f_equal. 
    replace (lower e) with e by (destruct E as [->| ->]; reflexivity). apply strip_eol_end; [exact (no_eol_lower x (conj H3 H4))|exact E].
Qed.

Lemma once_In a attrs : NoDup attrs -> (once a attrs = true <-> In a attrs).
Proof.
  intros ND. unfold once. rewrite Nat.eqb_eq. induction attrs as [|b l IH]; cbn; [split; [discriminate|tauto]|].
  apply NoDup_cons_iff in ND. destruct ND as [N ND]. specialize (IH ND).
  destruct (String.eqb_spec a b) as [->|D].
  - cbn. split; [auto|]. intros _. f_equal.
    assert (Z : forall l, ~ In b l -> length (filter (String.eqb b) l) = 0).
    { clear. induction l as [|x l IH]; intros N; [reflexivity|]. cbn. destruct (String.eqb_spec b x); [subst; exfalso; apply N; left; reflexivity|].
      apply IH. intros H. apply N. right; exact H. }
    apply Z. exact N.
  - rewrite IH. intuition congruence.
Qed.

Lemma combine_seq_snoc {A} (l : list A) x : combine (seq 0 (length (l ++ [x]))) (l ++ [x]) = combine (seq 0 (length l)) l ++ [(length l, x)].
Proof.
  rewrite app_length. cbn [length]. rewrite seq_app. cbn [seq]. rewrite Nat.add_0_l.
  assert (G : forall (a : list nat) (b : list A) c d, length a = length b -> combine (a ++ c) (b ++ d) = combine a b ++ combine c d).
  { clear. induction a as [|x a IH]; intros [|y b] c d H; try discriminate; [reflexivity|]. cbn. f_equal. apply IH. cbn in H. lia. }
  apply G. apply seq_length.
Qed.

Definition last_at (names : list string) (k : string) (j : nat) : Prop :=
  nth_error names j = Some k /\ forall i, nth_error names i = Some k -> i <= j.
Lemma format_columns_spec attrs names k j :
  dget (format_columns attrs names) k = Some j <-> once k attrs = true /\ last_at names k j.
Proof.
  revert j. induction names as [|x names IH] using rev_ind; intros j.
  - cbn. split; [discriminate|]. intros (_ & H & _). destruct j; discriminate.
  - unfold format_columns. rewrite combine_seq_snoc, fold_left_app. cbn [fold_left fst snd]. fold (format_columns attrs names).
    assert (LS : forall i, nth_error (names ++ [x]) i = Some k <-> nth_error names i = Some k \/ (i = length names /\ x = k)).
    { intros i. destruct (Nat.lt_ge_cases i (length names)) as [L|L].
      - rewrite nth_error_app1 by exact L. intuition lia.
      - rewrite nth_error_app2 by exact L. destruct (Nat.eq_dec i (length names)) as [->|D].
        + rewrite Nat.sub_diag. cbn. assert (Z : nth_error names (length names) = None) by (apply nth_error_None; lia). rewrite Z. intuition congruence.
        + replace (i - length names) with (S (i - length names - 1)) by lia. cbn.
          assert (Z : nth_error names i = None) by (apply nth_error_None; lia). rewrite Z. 
          assert (nth_error (@nil string) (i - length names - 1) = None) as Z2 by (destruct (i - length names - 1); reflexivity).
          rewrite Z2. intuition congruence. }
    assert (LT : forall i, nth_error names i = Some k -> i < length names) by (intros i H; apply nth_error_Some; congruence).
    assert (KEY : once k attrs = true -> (last_at (names ++ [x]) k j <-> if String.eqb x k then j = length names else last_at names k j)).
    { intros _. unfold last_at. destruct (String.eqb_spec x k) as [->|D].
      - split.
        + intros [A B]. apply LS in A. destruct A as [A|[A _]]; [|exact A].
          specialize (B (length names)). rewrite LS in B. specialize (B (or_intror (conj eq_refl eq_refl))). apply LT in A. lia.
        + intros ->. split; [apply LS; auto|]. intros i Hi. apply LS in Hi. destruct Hi as [Hi|[-> _]]; [apply LT in Hi; lia|lia].
      - rewrite LS. split.
        + intros [A B]. split; [destruct A as [A|[_ A]]; [exact A|congruence]|]. intros i Hi. apply B. apply LS. auto.
        + intros [A B]. split; [auto|]. intros i Hi. apply LS in Hi. destruct Hi as [Hi|[_ Hi]]; [auto|congruence]. }
    destruct (once x attrs) eqn:O.
    + rewrite dget_dset. destruct (String.eqb_spec x k) as [->|D].
      * split; [intros H; injection H as <-; split; [exact O|apply KEY; auto]|].
        intros [_ H]. apply KEY in H; [congruence|exact O].
      * rewrite IH. split; intros [A B]; (split; [exact A|]); apply (KEY A); exact B.
    + rewrite IH. destruct (String.eqb_spec x k) as [->|D].
      * split; intros [A B]; congruence.
      * split; intros [A B]; (split; [exact A|]); apply (KEY A); exact B.
Qed.

(** ** Keys *)

Lemma star_snoc n : (stars n ++ "*")%string = stars (S n).
Proof. induction n as [|n IH]; [reflexivity|]. cbn [stars append] in *. rewrite IH. reflexivity. Qed.
Lemma star_inj s a b : (s ++ stars a = s ++ stars b)%string -> a = b.
Proof.
  assert (J : forall s x y, (s ++ x = s ++ y)%string -> x = y) by (clear; induction s; cbn; intros x y H; [exact H|injection H; auto]).
  intros H. apply J in H. revert b H; induction a; intros [|b] H; try discriminate; [reflexivity|]. injection H as H. f_equal. auto.
Qed.
Lemma starred_gen d id : forall fuel n,
  (forall m, m < n -> In (id ++ stars m)%string (map fst d)) ->
  (exists k, starred fuel d (id ++ stars n) = Ok (id ++ stars k)%string /\ ~ In (id ++ stars k)%string (map fst d) /\
     forall m, m < k -> In (id ++ stars m)%string (map fst d)) \/
  (forall m, m < n + fuel -> In (id ++ stars m)%string (map fst d)).
Proof.
  induction fuel as [|fuel IH]; intros n H.
  - right. rewrite Nat.add_0_r. exact H.
  - cbn [starred]. destruct (dmem d (id ++ stars n)) eqn:E.
    + apply dmem_true in E. rewrite sapp_assoc, star_snoc.
      replace (n + S fuel) with (S n + fuel) by lia. apply IH. intros m Hm. destruct (Nat.eq_dec m n) as [->|]; [exact E|apply H; lia].
    + left. exists n. split; [reflexivity|]. split; [|exact H]. intros I. apply dmem_true in I. congruence.
Qed.
Lemma starred_ok d id : exists k, starred (S (length d)) d id = Ok (id ++ stars k)%string /\
  ~ In (id ++ stars k)%string (map fst d) /\ forall m, m < k -> In (id ++ stars m)%string (map fst d).
Proof.
  destruct (starred_gen d id (S (length d)) 0) as [H|H]; [intros m Hm; lia| |].
  - cbn [stars] in H. rewrite sapp_nil in H. exact H.
  - exfalso. set (l := map (fun m => (id ++ stars m)%string) (seq 0 (S (length d)))).
    assert (ND : NoDup l).
    { apply FinFun.Injective_map_NoDup; [|apply seq_NoDup]. intros a b E. exact (star_inj _ _ _ E). }
    assert (IN : incl l (map fst d)).
    { intros x Hx. apply in_map_iff in Hx. destruct Hx as (m & <- & Hm). apply in_seq in Hm. apply H. lia. }
    pose proof (NoDup_incl_length ND IN) as Z. unfold l in Z. rewrite !map_length, seq_length in Z. lia.
Qed.

(** ** Records *)

Lemma record_fold (cols : columns) (data : list string) : forall attrs (r : record) k,
  dget (fold_left (fun r k => match dget cols k with
                              | Some j => match nth_error data j with Some v => dset r k v | None => r end
                              | None => r
                              end) attrs r) k =
  if smem k attrs then match dget cols k with
                       | Some j => match nth_error data j with Some v => Some v | None => dget r k end
                       | None => dget r k
                       end
  else dget r k.
Proof.
  induction attrs as [|a attrs IH]; intros r k; [reflexivity|]. cbn [fold_left]. rewrite IH. cbn [smem existsb]. fold (smem k attrs).
  destruct (String.eqb_spec k a) as [->|N]; cbn [orb].
  - destruct (dget cols a) as [j|]; [destruct (nth_error data j) as [v|]|]; destruct (smem a attrs); try reflexivity.
    rewrite dget_dset_same. reflexivity.
  - assert (E : dget (match dget cols a with
                      | Some j => match nth_error data j with Some v => dset r a v | None => r end
                      | None => r
                      end) k = dget r k).
    { destruct (dget cols a) as [j|]; [|reflexivity]. destruct (nth_error data j); [|reflexivity]. apply dget_dset_other. congruence. }
    rewrite E. reflexivity.
Qed.

Lemma make_record_spec attrs cols (info : record) data k v : NoDup (map fst info) ->
  (dget (make_record attrs cols info data) k = Some v <->
   dget info k = Some v \/ (dget info k = None /\ In k attrs /\ exists j, dget cols k = Some j /\ nth_error data j = Some v)).
Proof.
  intros ND. unfold make_record. rewrite dict_update_dget by exact ND.
  destruct (dget info k) as [w|]; [intuition congruence|]. rewrite record_fold. cbn [dget].
  destruct (smem k attrs) eqn:S.
  - apply smem_In in S. destruct (dget cols k) as [j|].
    + destruct (nth_error data j) as [w|] eqn:E.
      * split; [intros H; injection H as <-; right; repeat split; eauto|].
        intros [H|(_ & _ & j' & A & B)]; [discriminate|]. injection A as <-. congruence.
      * split; [discriminate|]. intros [H|(_ & _ & j' & A & B)]; [discriminate|]. injection A as <-. congruence.
    + split; [discriminate|]. intros [H|(_ & _ & j' & A & _)]; discriminate.
  - apply smem_not_In in S. split; [discriminate|]. intros [H|(_ & A & _)]; [discriminate|contradiction].
Qed.

(** The columns of the code are the columns of the layout. *)
Definition agrees (lay : layout) (attrs : list string) (cols : columns) : Prop :=
  wanted lay = attrs /\ forall k j, In k attrs -> (dget cols k = Some j <-> column lay k j).
Lemma agrees_default attrs m : agrees (Default attrs m) attrs m.
Proof. split; [reflexivity|]. intros k j _. reflexivity. Qed.
Lemma agrees_announced attrs line names : NoDup attrs -> format_line line names ->
  agrees (Announced attrs names) attrs (read_format attrs line).
Proof.
  intros ND F. split; [reflexivity|]. intros k j I. unfold read_format. rewrite (format_line_names _ _ F).
  rewrite format_columns_spec. cbn. unfold announced, last_at. apply (once_In k attrs ND) in I. tauto.
Qed.

(** ** The body *)

Lemma dset_new {V} (d : dict V) k v : ~ In k (map fst d) -> dset d k v = d ++ [(k, v)].
Proof.
  induction d as [|[a w] d IH]; intros N; [reflexivity|]. cbn in *. destruct (String.eqb_spec k a) as [->|]; [tauto|].
  destruct (String.eqb_spec a k) as [->|]; [tauto|]. f_equal. apply IH. tauto.
Qed.

Lemma firstn_app_l {A} (l m : list A) i : i <= length l -> firstn i (l ++ m) = firstn i l.
Proof. intros H. rewrite firstn_app. replace (i - length l) with 0 by lia. cbn. apply app_nil_r. Qed.

Lemma records_snoc info rows recs row x : records_of info rows recs -> record_of info row (map fst recs) x ->
  records_of info (rows ++ [row]) (recs ++ [x]).
Proof.
  intros [L H] X. split; [rewrite !app_length; cbn; lia|]. intros i r y Hr Hy. rewrite map_app.
  destruct (Nat.lt_ge_cases i (length rows)) as [Li|Li].
  - rewrite nth_error_app1 in Hr by lia. rewrite nth_error_app1 in Hy by lia.
    rewrite firstn_app_l by (rewrite map_length; lia). apply H; assumption.
  - rewrite nth_error_app2 in Hr by lia. rewrite nth_error_app2 in Hy by lia. rewrite L in Hy.
    destruct (i - length rows) as [|z] eqn:Z; [|destruct z; discriminate]. cbn in Hr, Hy. injection Hr as <-. injection Hy as <-.
    rewrite firstn_app_l by (rewrite map_length; lia).
    rewrite firstn_all2 by (rewrite map_length; lia). exact X.
Qed.

Lemma data_line_spec lay attrs cols info rows d line : NoDup (map fst info) -> agrees lay attrs cols -> has_eq line = false ->
  records_of info rows d ->
  exists d', data_line attrs cols info d line = Ok d' /\
    records_of info (rows ++ map (pair lay) (filter is_row [line])) d'.
Proof.
  intros ND AG NE R. unfold data_line. cbn [filter]. unfold is_row. fold (has_eq line). rewrite NE, row_split. cbn [negb andb].
  destruct (1 <? length (split_on "," line)).
  - destruct (starred_ok d (strip (hd "" (split_on "," line)))) as (n & E & NI & MI). rewrite E. cbn [bind].
    eexists. split; [reflexivity|]. rewrite dset_new by exact NI. cbn [map]. apply records_snoc; [exact R|].
    exists (split_on "," line). split; [apply split_cells|]. split; [exists n; cbn [fst]; auto|].
    intros k v. cbn [snd fst]. rewrite make_record_spec by exact ND. destruct AG as [-> AG].
    split; (intros [A|(A & B & j & C & D)]; [left; exact A|right; split; [exact A|]; split; [exact B|]; exists j; split; [apply (AG k j B); exact C|exact D]]).
  - eexists. split; [reflexivity|]. cbn. rewrite app_nil_r. exact R.
Qed.

Lemma body_plain info : NoDup (map fst info) -> forall body rest content lay attrs cols rows d,
  section_of content body rest -> agrees lay attrs cols -> records_of info rows d ->
  exists d', body_loop attrs cols info [] d content = Ok (d', rest) /\
    records_of info (rows ++ map (pair lay) (filter is_row body)) d'.
Proof.
  intros ND. induction body as [|l body IH]; intros rest content lay attrs cols rows d [FB SE] AG R.
  - exists d. cbn [filter map]. rewrite app_nil_r. split; [|exact R].
    destruct SE as [[-> ->]|(b & -> & Lb)]; [reflexivity|]. cbn [app body_loop].
    replace (2 <? String.length b) with false by (symmetry; apply Nat.ltb_ge; exact Lb). reflexivity.
  - apply Forall_cons_iff in FB. destruct FB as [Ll FB].
    assert (exists c', content = l :: c' /\ section_of c' body rest) as (c' & -> & SE').
    { destruct SE as [[-> ->]|(b & -> & Lb)].
      - exists body. split; [reflexivity|]. split; [exact FB|]. left. auto.
      - exists (body ++ b :: rest). split; [reflexivity|]. split; [exact FB|]. right. eauto. }
    cbn [body_loop]. replace (2 <? String.length l) with true by (symmetry; apply Nat.ltb_lt; exact Ll).
    destruct (has_eq l) eqn:E.
    + destruct (IH rest c' lay attrs cols rows d SE' AG R) as (d' & A & B). exists d'. split; [exact A|].
      cbn [filter]. unfold is_row at 1. fold (has_eq l). rewrite E. exact B.
    + destruct (data_line_spec lay attrs cols info rows d l ND AG E R) as (d1 & A1 & B1). rewrite A1. cbn [bind].
      destruct (IH rest c' lay attrs cols _ d1 SE' AG B1) as (d' & A & B). exists d'. split; [exact A|].
      rewrite <- app_assoc, <- map_app in B. cbn [filter] in *. destruct (is_row l); exact B.
Qed.

(** Up to the line with "=". *)
Lemma body_until info : NoDup (map fst info) -> forall b1 lay attrs cols add rows d more,
  Forall (fun l => 2 < String.length l /\ has_eq l = false) b1 -> agrees lay attrs cols -> records_of info rows d ->
  exists d', body_loop attrs cols info add d (b1 ++ more) = body_loop attrs cols info add d' more /\
    records_of info (rows ++ map (pair lay) (filter is_row b1)) d'.
Proof.
  intros ND. induction b1 as [|l b1 IH]; intros lay attrs cols add rows d more F AG R.
  - exists d. cbn. rewrite app_nil_r. auto.
  - apply Forall_cons_iff in F. destruct F as [[Ll E] F]. cbn [app body_loop].
    replace (2 <? String.length l) with true by (symmetry; apply Nat.ltb_lt; exact Ll). rewrite E.
    destruct (data_line_spec lay attrs cols info rows d l ND AG E R) as (d1 & A1 & B1). rewrite A1. cbn [bind].
    destruct (IH lay attrs cols add _ d1 more F AG B1) as (d' & A & B). exists d'. split; [exact A|].
    rewrite <- app_assoc, <- map_app in B. cbn [filter] in *. destruct (is_row l); exact B.
Qed.

Lemma records_nil info : records_of info [] [].
Proof. split; [reflexivity|]. intros [|i] row x H; discriminate. Qed.

Lemma records_keys info rows recs : records_of info rows recs -> NoDup (map fst recs).
Proof.
  intros [L H].
  assert (G : forall i, i <= length recs -> NoDup (firstn i (map fst recs))).
  { induction i as [|i IH]; intros Hi; [constructor|].
    destruct (nth_error recs i) as [x|] eqn:E; [|apply nth_error_None in E; lia].
    destruct (nth_error rows i) as [row|] eqn:E2; [|apply nth_error_None in E2; lia].
    destruct (H i row x E2 E) as (cs & _ & (n & _ & N & _) & _).
    replace (firstn (S i) (map fst recs)) with (firstn i (map fst recs) ++ [fst x]).
    - apply NoDup_rev in IH; [|lia]. rewrite <- (rev_involutive (_ ++ _)). apply NoDup_rev. rewrite rev_app_distr. cbn. constructor; [|exact IH].
      rewrite <- in_rev. exact N.
    - assert (E' : nth_error (map fst recs) i = Some (fst x)) by (apply map_nth_error; exact E).
      clear -E'. revert i E'. generalize (map fst recs). intros l. induction l as [|y l IH]; intros [|i] E; try discriminate; cbn in *.
      + injection E as ->. reflexivity.
      + f_equal. apply IH. exact E. }
  specialize (G (length recs) (le_n _)). rewrite firstn_all2 in G by (rewrite map_length; lia). exact G.
Qed.

(** ** The helper *)

Section Helper.
Variable headers : list (string * list header).
Variable objs : list string.

Lemma check_plain line obj ss : dget headers obj = Some (map HStr ss) ->
  check_object_in_line headers line obj = Ok (existsb (fun s => substr_in s line) ss).
Proof.
  intros E. unfold check_object_in_line. rewrite E.
  assert (M : mapM (fun h => match h with HStr s => Ok (substr_in s line) | HList _ => Err EType end) (map HStr ss) =
              Ok (map (fun s => substr_in s line) ss)).
  { clear. induction ss as [|s ss IH]; [reflexivity|]. cbn. rewrite IH. reflexivity. }
  rewrite M. cbn [bind]. f_equal. clear. induction ss as [|s ss IH]; [reflexivity|]. cbn. rewrite IH. reflexivity.
Qed.

Lemma checks_plain line : plain_headers headers objs ->
  exists bs, mapM (check_object_in_line headers line) objs = Ok bs /\ (existsb (fun b => b) bs = true <-> heads headers objs line).
Proof.
  unfold plain_headers, heads. induction objs as [|o l IH]; intros K.
  - exists []. split; [reflexivity|]. cbn. split; [discriminate|]. intros (obj & ss & s & [] & _).
  - destruct (K o (or_introl eq_refl)) as (ss & E). destruct IH as (bs & A & B); [intros obj Ho; apply K; right; exact Ho|].
    cbn [mapM]. rewrite (check_plain line o ss E). cbn [bind]. rewrite A. cbn [bind]. eexists. split; [reflexivity|].
    cbn [existsb]. rewrite orb_true_iff, B. split.
    + intros [H|(obj & s1 & s & I1 & I2)].
      * apply existsb_exists in H. destruct H as (s & Hs & S). exists o, ss, s. repeat split; auto. left; reflexivity.
      * exists obj, s1, s. split; [right; exact I1|exact I2].
    + intros (obj & s1 & s & [<-|I1] & I2 & I3 & I4).
      * left. apply existsb_exists. exists s. split; [|exact I4]. rewrite E in I2. injection I2 as I2.
        assert (J : forall a b : list string, map HStr a = map HStr b -> a = b).
        { clear. induction a as [|x a IH]; intros [|y b] H; try discriminate; [reflexivity|]. cbn in H. injection H as -> H. f_equal; auto. }
        apply J in I2. rewrite I2. exact I3.
      * right. exists obj, s1, s. auto.
Qed.

Lemma helper_head attrs mapping info add line content : plain_headers headers objs -> heads headers objs line ->
  parser_helper headers objs attrs mapping info add line content =
  match content with
  | [] => Err EStop
  | l :: r => if substr_in "format" (lower l) then match r with [] => Err EStop | _ => body_loop attrs (read_format attrs l) info add [] r end
              else body_loop attrs mapping info add [] content
  end.
Proof.
  intros K H. unfold parser_helper. destruct (checks_plain line K) as (bs & A & B). rewrite A. cbn [bind].
  apply B in H. rewrite H. reflexivity.
Qed.
Lemma helper_other attrs mapping info add line content : plain_headers headers objs -> ~ heads headers objs line ->
  parser_helper headers objs attrs mapping info add line content = Ok ([], content).
Proof.
  intros K H. unfold parser_helper. destruct (checks_plain line K) as (bs & A & B). rewrite A. cbn [bind].
  destruct (existsb (fun b => b) bs) eqn:E; [exfalso; apply H, B; reflexivity|reflexivity].
Qed.

Lemma section_format attrs mapping info line f names lines body rest :
  plain_headers headers objs -> heads headers objs line -> NoDup attrs -> NoDup (map fst info) ->
  substr_in "format" (lower f) = true -> format_line f names -> lines <> [] -> section_of lines body rest ->
  exists recs, parser_helper headers objs attrs mapping info [] line (f :: lines) = Ok (recs, rest) /\
    records_of info (map (pair (Announced attrs names)) (filter is_row body)) recs /\ NoDup (map fst recs).
Proof.
  intros K H NA NI FM FL NE SE. rewrite helper_head by assumption. rewrite FM.
  destruct (body_plain info NI body rest lines (Announced attrs names) attrs (read_format attrs f) [] [] SE
              (agrees_announced attrs f names NA FL) (records_nil info)) as (recs & A & B).
  exists recs. split; [destruct lines; [congruence|exact A]|]. split; [exact B|exact (records_keys _ _ _ B)].
Qed.

Lemma section_default attrs mapping info line first lines body rest :
  plain_headers headers objs -> heads headers objs line -> NoDup (map fst info) ->
  substr_in "format" (lower first) = false -> section_of (first :: lines) body rest ->
  exists recs, parser_helper headers objs attrs mapping info [] line (first :: lines) = Ok (recs, rest) /\
    records_of info (map (pair (Default attrs mapping)) (filter is_row body)) recs /\ NoDup (map fst recs).
Proof.
  intros K H NI FM SE. rewrite helper_head by assumption. rewrite FM.
  destruct (body_plain info NI body rest (first :: lines) (Default attrs mapping) attrs mapping [] [] SE
              (agrees_default attrs mapping) (records_nil info)) as (recs & A & B).
  exists recs. split; [exact A|]. split; [exact B|exact (records_keys _ _ _ B)].
Qed.

Lemma section_second attrs mapping info add line f names lines b1 f2 names2 b2 rest :
  plain_headers headers objs -> heads headers objs line -> NoDup attrs -> NoDup add -> add <> [] -> NoDup (map fst info) ->
  substr_in "format" (lower f) = true -> format_line f names -> format_line f2 names2 ->
  section_of lines (b1 ++ f2 :: b2) rest -> Forall (fun l => substr_in "=" l = false) b1 ->
  exists recs, parser_helper headers objs attrs mapping info add line (f :: lines) = Ok (recs, rest) /\
    records_of info (map (pair (Announced attrs names)) (filter is_row b1) ++
                     map (pair (Announced add names2)) (filter is_row b2)) recs /\ NoDup (map fst recs).
Proof.
  intros K H NA NB AN NI FM FL FL2 SE F1. rewrite helper_head by assumption. rewrite FM.
  destruct SE as [FB SE]. apply Forall_app in FB. destruct FB as [FB1 FB2]. apply Forall_cons_iff in FB2. destruct FB2 as [Lf FB2].
  assert (exists more, lines = b1 ++ f2 :: more /\ section_of more b2 rest) as (more & -> & SE2).
  { destruct SE as [[-> ->]|(b & -> & Lb)].
    - exists b2. split; [reflexivity|]. split; [exact FB2|]. left. auto.
    - exists (b2 ++ b :: rest). split; [rewrite <- app_assoc; reflexivity|]. split; [exact FB2|]. right. eauto. }
  destruct (body_until info NI b1 (Announced attrs names) attrs (read_format attrs f) add [] [] (f2 :: more)) as (d1 & A1 & B1).
  { apply Forall_forall. intros l Hl. rewrite Forall_forall in FB1, F1. split; [apply FB1; exact Hl|apply F1; exact Hl]. }
  { apply agrees_announced; assumption. }
  { apply records_nil. }
  assert (E2 : has_eq f2 = true).
  { unfold has_eq. apply not_false_iff_true. rewrite substr_char. destruct FL2 as (key & e & -> & Fk & _). clear.
    intros F. induction key as [|c key IH]; cbn in F; [destruct F as [F _]; congruence|]. apply IH. tauto. }
  destruct (body_plain info NI b2 rest more (Announced add names2) add (read_format add f2) _ d1 SE2
              (agrees_announced add f2 names2 NB FL2) B1) as (recs & A & B).
  exists recs. split; [|split; [exact B|exact (records_keys _ _ _ B)]].
  destruct (b1 ++ f2 :: more) eqn:E; [destruct b1; discriminate|]. rewrite <- E in *. clear E. rewrite A1. cbn [body_loop].
  replace (2 <? String.length f2) with true by (symmetry; apply Nat.ltb_lt; exact Lf). rewrite E2.
  destruct add; [congruence|exact A].
Qed.

Lemma update_nil {V} (d : dict V) : dict_update d [] = d.
Proof. reflexivity. Qed.
Lemma update_fresh {V} (e : dict V) : forall d, NoDup (map fst (d ++ e)) -> dict_update d e = d ++ e.
Proof.
  unfold dict_update. induction e as [|[k v] e IH]; intros d ND; cbn [fold_left fst snd]; [rewrite app_nil_r; reflexivity|].
  rewrite map_app in ND. cbn in ND. rewrite dset_new.
  - rewrite IH; [rewrite <- app_assoc; reflexivity|]. rewrite <- app_assoc. rewrite map_app. exact ND.
  - intros I. apply NoDup_remove_2 in ND. apply ND. apply in_or_app. left. exact I.
Qed.

Lemma read_all_skip attrs mapping info add : plain_headers headers objs -> forall pre d content fuel,
  Forall (fun l => ~ heads headers objs l) pre ->
  read_all (length pre + fuel) headers objs attrs mapping info add d (pre ++ content) =
  read_all fuel headers objs attrs mapping info add d content.
Proof.
  intros K. induction pre as [|l pre IH]; intros d content fuel F; [reflexivity|]. apply Forall_cons_iff in F. destruct F as [N F].
  cbn [length Nat.add app read_all]. rewrite helper_other by assumption. cbn [bind]. rewrite update_nil. apply IH. exact F.
Qed.

Lemma read_all_more attrs mapping info add : forall f f' d content, f <= f' ->
  forall r, read_all f headers objs attrs mapping info add d content = Ok r -> read_all f' headers objs attrs mapping info add d content = Ok r.
Proof.
  induction f as [|f IH]; intros f' d content L r H; [discriminate|]. destruct f' as [|f']; [lia|]. cbn [read_all] in *.
  destruct content as [|line rest]; [exact H|].
  destruct (parser_helper headers objs attrs mapping info add line rest) as [[d' rest']|e]; cbn [bind] in *; [|discriminate].
  apply IH; [lia|exact H].
Qed.

Lemma file_section attrs mapping info pre line f names body b post :
  plain_headers headers objs -> Forall (fun l => ~ heads headers objs l) pre -> heads headers objs line ->
  Forall (fun l => ~ heads headers objs l) post -> NoDup attrs -> NoDup (map fst info) ->
  substr_in "format" (lower f) = true -> format_line f names -> Forall (fun l => 2 < String.length l) body -> String.length b <= 2 ->
  let file := pre ++ line :: f :: body ++ b :: post in
  exists recs, read_all (S (length file)) headers objs attrs mapping info [] [] file = Ok recs /\
    records_of info (map (pair (Announced attrs names)) (filter is_row body)) recs.
Proof.
  intros K FP H FQ NA NI FM FL FB Lb file.
  destruct (section_format attrs mapping info line f names (body ++ b :: post) body post K H NA NI FM FL) as (recs & A & B & C).
  { destruct body; discriminate. }
  { split; [exact FB|]. right. eauto. }
  exists recs. split; [|exact B].
  apply (read_all_more attrs mapping info [] (length pre + (1 + (length post + 1)))).
  { unfold file. rewrite app_length. cbn [length]. rewrite app_length. cbn [length]. lia. }
  unfold file. rewrite read_all_skip by assumption. cbn [Nat.add read_all]. rewrite A. cbn [bind].
  rewrite update_fresh by exact C. cbn [app].
  rewrite <- (app_nil_r post) at 2. rewrite read_all_skip by assumption. reflexivity.
Qed.
End Helper.

(** ** The header of the file *)

Definition mark (l : string) (si : option bool) : option bool :=
  if says_imperial l then Some false else if says_si l then Some true else si.
Lemma header_line_si version si bound l v' si' b' : header_line (version, si, bound) l = Ok (v', si', b') -> si' = mark l si.
Proof.
  unfold header_line, mark, says_si, says_imperial. intros H.
  destruct (substr_in "cyme_version" (lower l)).
  - cbv zeta in H. destruct (match nth_error (split_on "=" l) 1 with Some x => Some (strip x) | None => version end) as [v|].
    + destruct (substr_in "." v); [destruct (bound || Nat.eqb (length (split_on "." v)) 2)|]; cbn [bind] in H; try discriminate; injection H as _ <- _; reflexivity.
    + cbn [bind] in H. injection H as _ <- _. reflexivity.
  - cbn [bind] in H. injection H as _ <- _. reflexivity.
Qed.

Definition units_opt (lines : list string) (si : option bool) : Prop :=
  match si with Some b => units lines b | None => forall l, In l lines -> says_si l = false /\ says_imperial l = false end.
Lemma header_units lines : forall st, foldM header_line lines (None, None, false) = Ok st -> units_opt lines (snd (fst st)).
Proof.
  induction lines as [|l lines IH] using rev_ind; intros st H.
  - cbn in H. injection H as <-. intros l [].
  - rewrite foldM_app in H. destruct (foldM header_line lines (None, None, false)) as [[[v si] bd]|e] eqn:E; cbn [bind] in H; [|discriminate].
    specialize (IH _ eq_refl). cbn [fst snd] in IH. cbn [foldM] in H.
    destruct (header_line (v, si, bd) l) as [[[v' si'] bd']|e] eqn:E2; cbn [bind] in H; [|discriminate]. injection H as <-. cbn [fst snd].
    apply header_line_si in E2. subst si'. unfold mark.
    destruct (says_imperial l) eqn:I; [|destruct (says_si l) eqn:S].
    + exists lines, l, []. rewrite I. split; [reflexivity|]. split; [auto|]. split; [reflexivity|]. intros x [].
    + exists lines, l, []. rewrite I. split; [reflexivity|]. split; [auto|]. split; [reflexivity|]. intros x [].
    + destruct si as [b|]; cbn in *.
      * destruct IH as (a & x & c & -> & M & N & R). exists a, x, (c ++ [l]). rewrite <- app_assoc. split; [reflexivity|]. split; [exact M|]. split; [exact N|].
        intros y Hy. apply in_app_or in Hy. destruct Hy as [Hy|[<-|[]]]; auto.
      * intros x Hx. apply in_app_or in Hx. destruct Hx as [Hx|[<-|[]]]; auto.
Qed.

Lemma split_len2 a b : free "." a -> free "." b -> length (split_on "." (a ++ String "." b)%string) = 2.
Proof. intros A B. rewrite split_cons_free by exact A. rewrite split_free by exact B. reflexivity. Qed.
Lemma header_ok lines : Forall plain_version lines -> forall st, exists st', foldM header_line lines st = Ok st'.
Proof.
  induction lines as [|l lines IH]; intros F st; [eexists; reflexivity|]. apply Forall_cons_iff in F. destruct F as [P F].
  cbn [foldM]. assert (E : exists st1, header_line st l = Ok st1); [|destruct E as [st1 E]; rewrite E; apply IH; exact F].
  destruct st as [[v si] bd]. unfold header_line. unfold plain_version in P.
  destruct (substr_in "cyme_version" (lower l)); [|eexists; reflexivity].
  destruct (P eq_refl) as (k & w & e & -> & Fk & Fw & Fe & D). clear P.
  rewrite split_cons_free by exact Fk. rewrite split_free by (apply free_app; assumption). cbn [nth_error]. cbv zeta.
  destruct D as [D|(a & b & D & Fa & Fb)].
  - apply substr_char in D. rewrite D. eexists; reflexivity.
  - rewrite D. rewrite split_len2 by assumption. rewrite orb_true_r. destruct (substr_in "." (a ++ String "." b)); eexists; reflexivity.
Qed.
