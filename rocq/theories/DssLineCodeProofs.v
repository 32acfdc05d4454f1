(** Lemmas about line codes. *)
From Verif Require Import Base BaseFacts CsvModel CsvSpec CsvProofs DssNameModel DssCodeModel DssCodeSpec DssCodeProofs DssLineCodeSpec.
From Coq Require Import QArith Lia.
Local Open Scope string_scope.
Local Open Scope nat_scope.
Local Open Scope list_scope.

(** ** Numbers of phases *)
Lemma phases_in_fun ws n m : phases_in ws n -> phases_in ws m -> n = m.
Proof.
  intros (k1 & N1 & L1 & H1) (k2 & N2 & L2 & H2). rewrite <- L1, <- L2.
  apply Nat.le_antisymm; apply NoDup_incl_length; auto; intros x Hx; [apply H2, H1, Hx|apply H1, H2, Hx].
Qed.
Definition np (l : line) : nat := length (phase_wires (l_wires l)).
Lemma np_spec l n : phases_in (l_wires l) n <-> n = np l.
Proof. split; [intros H; eapply phases_in_fun; [exact H|apply phases_in_filter]|intros ->; apply phases_in_filter]. Qed.
Lemma np_same l l' : (forall n, phases_in (l_wires l) n <-> phases_in (l_wires l') n) <-> np l = np l'.
Proof. split; [intros H; apply np_spec, H, np_spec; reflexivity|intros E n; rewrite !np_spec, E; reflexivity]. Qed.

(** ** The definition of a line *)
Definition in_mat (d : list (string * dval)) (k : string) (m : list (list Q)) : Prop := In (k, DMat m) d.
Lemma in_mat_app a b k m : in_mat (a ++ b) k m <-> in_mat a k m \/ in_mat b k m.
Proof. apply in_app_iff. Qed.
Lemma in_mat_nil k m : in_mat [] k m <-> False.
Proof. reflexivity. Qed.
Lemma in_mat_mat k' m' d k m : in_mat ((k', DMat m') :: d) k m <-> (k' = k /\ m' = m) \/ in_mat d k m.
Proof. unfold in_mat. cbn. split; intros [H|H]; auto; left; [injection H; auto|destruct H; congruence]. Qed.
Lemma in_mat_entry k' v k m : in_mat (entry k' v) k m <-> False.
Proof. destruct v; cbn; [split; [intros [H|[]]; discriminate H|intros []]|reflexivity]. Qed.
Lemma in_mat_str k' x d k m : in_mat ((k', DStr x) :: d) k m <-> in_mat d k m.
Proof. unfold in_mat. cbn. split; [intros [H|H]; [discriminate H|exact H]|auto]. Qed.
Lemma in_mat_int k' x d k m : in_mat ((k', DInt x) :: d) k m <-> in_mat d k m.
Proof. unfold in_mat. cbn. split; [intros [H|H]; [discriminate H|exact H]|auto]. Qed.
Lemma says_mat k' m d k q : says ((k', DMat m) :: d) k q <-> says d k q.
Proof. unfold says. cbn. split; intros (q' & H & E); [destruct H as [H|H]; [discriminate H|]|]; eauto. Qed.

Lemma real_re Z : real Z (re_mat Z).
Proof. induction Z as [|r Z IH]; constructor; auto. induction r; constructor; auto. Qed.
Lemma imag_im Z : imag Z (im_mat Z).
Proof. induction Z as [|r Z IH]; constructor; auto. induction r; constructor; auto. Qed.
Lemma per_km_spec M : Forall2 (Forall2 (fun x y => x == 1000 * y)%Q) (per_km M) M.
Proof. induction M as [|r M IH]; constructor; auto. induction r; constructor; auto. ring. Qed.
Lemma nth_map_seq {A} (f : nat -> A) n i x : nth_error (map f (seq 0 n)) i = Some x -> x = f i.
Proof.
  intros H. assert (Hi : i < n) by (rewrite <- (seq_length n 0), <- (map_length f); apply nth_error_Some; congruence). rewrite nth_error_map in H.
  rewrite (nth_error_nth' _ 0) in H by (rewrite seq_length; exact Hi). rewrite seq_nth in H by exact Hi. cbn in H. congruence.
Qed.
Lemma scalar_diagonal n q : scalar n q (diagonal n q).
Proof.
  unfold scalar, diagonal. rewrite map_length, seq_length. split; [reflexivity|]. intros i row H. apply nth_map_seq in H. subst row. rewrite map_length, seq_length. split; [reflexivity|].
  intros j x H. apply nth_map_seq in H. exact H.
Qed.

Definition amp_part (l : line) : list (string * dval) := match l_wires l with w :: _ => entry "normamps" (w_amp w) ++ entry "emergamps" (w_emerg w) | [] => [] end.
Definition z_part (l : line) : list (string * dval) :=
  match l_Z l with
  | [] => if l_switching l then [("Rmatrix", DMat (per_km (diagonal (np l) (1 # 100000000)))); ("Xmatrix", DMat (per_km (diagonal (np l) (1 # 100000000))))] else []
  | z => [("Rmatrix", DMat (per_km (re_mat z))); ("Xmatrix", DMat (per_km (im_mat z)))]
  end.
Definition c_part (l : line) : list (string * dval) := match l_C l with [] => [] | c => [("Cmatrix", DMat (per_km (re_mat c)))] end.
Lemma parse_line_eq l : parse_line l = [("units", DStr "km"); ("nphases", DInt (np l))] ++ entry "Faultrate" (l_fault l) ++ z_part l ++ c_part l ++ amp_part l.
Proof. reflexivity. Qed.
Lemma amp_eq l : amp_part l = entry "normamps" (first_amps w_amp l) ++ entry "emergamps" (first_amps w_emerg l).
Proof. unfold amp_part, first_amps. destruct (l_wires l); reflexivity. Qed.
Lemma says_z l k q : says (z_part l) k q <-> False.
Proof. unfold z_part. destruct (l_Z l) as [|r z]; [destruct (l_switching l)|]; rewrite ?says_mat; apply says_nil. Qed.
Lemma says_c l k q : says (c_part l) k q <-> False.
Proof. unfold c_part. destruct (l_C l) as [|r z]; rewrite ?says_mat; apply says_nil. Qed.
Lemma mats_z l k m : in_mat (z_part l) k m -> k = "Rmatrix" \/ k = "Xmatrix".
Proof. unfold z_part. destruct (l_Z l) as [|r z]; [destruct (l_switching l)|]; rewrite ?in_mat_mat, in_mat_nil; intuition. Qed.
Lemma mats_c l k m : in_mat (c_part l) k m -> k = "Cmatrix".
Proof. unfold c_part. destruct (l_C l) as [|r z]; rewrite ?in_mat_mat, in_mat_nil; intuition. Qed.

Lemma mats l k m : in_mat (parse_line l) k m <-> in_mat (z_part l) k m \/ in_mat (c_part l) k m.
Proof. rewrite parse_line_eq, amp_eq. cbn [app]. rewrite in_mat_str, in_mat_int, !in_mat_app, !in_mat_entry. tauto. Qed.

Lemma parse_line_states l : describes_code (parse_line l) l.
Proof.
  assert (G : forall k M, in_mat (z_part l) k (per_km M) \/ in_mat (c_part l) k (per_km M) -> (forall m, in_mat (z_part l) k m \/ in_mat (c_part l) k m -> m = per_km M) -> gives_matrix (parse_line l) k M).
  { intros k M H1 H2. split; [exists (per_km M); apply mats, H1|]. intros m Hm. rewrite (H2 m); [apply per_km_spec|apply mats, Hm]. }
  unfold describes_code. split; [left; reflexivity|]. split; [|split; [|split; [|split; [|split]]]].
  - exists (np l). split; [right; left; reflexivity|]. split.
    + intros n' H. rewrite parse_line_eq, amp_eq in H. cbn [app] in H. destruct H as [H|[H|H]]; [discriminate|congruence|]. exfalso.
      assert (Ne : forall k v, ~ In ("nphases", DInt n') (entry k v)) by (intros k [q|]; cbn; [intros [Q|[]]; discriminate|intros []]).
      rewrite !in_app_iff in H. destruct H as [H|[H|[H|[H|H]]]]; try exact (Ne _ _ H).
      * unfold z_part in H. destruct (l_Z l); [destruct (l_switching l)|]; cbn [In] in H; repeat (destruct H as [H|H]; [discriminate H|]); destruct H.
      * unfold c_part in H. destruct (l_C l); [destruct H|destruct H as [H|[]]; discriminate H].
    + split; [apply phases_in_filter|]. intros Ez Es. exists (diagonal (np l) (1 # 100000000)). split; [apply scalar_diagonal|].
      split; apply G; unfold z_part; rewrite Ez, Es; try (left; rewrite !in_mat_mat; auto; fail); intros m [H|H]; try (apply mats_c in H; discriminate H); rewrite !in_mat_mat, in_mat_nil in H; destruct H as [[Q H]|[[Q H]|[]]]; try discriminate Q; auto.
  - intros Nz. exists (re_mat (l_Z l)), (im_mat (l_Z l)). split; [apply real_re|]. split; [apply imag_im|].
    assert (Ez : z_part l = [("Rmatrix", DMat (per_km (re_mat (l_Z l)))); ("Xmatrix", DMat (per_km (im_mat (l_Z l))))]) by (unfold z_part; destruct (l_Z l); [congruence|reflexivity]).
    split; apply G; rewrite Ez; try (left; rewrite !in_mat_mat; auto; fail); intros m [H|H]; try (apply mats_c in H; discriminate H); rewrite !in_mat_mat, in_mat_nil in H; destruct H as [[Q H]|[[Q H]|[]]]; try discriminate Q; auto.
  - intros Ez Es. assert (Q : z_part l = []) by (unfold z_part; rewrite Ez, Es; reflexivity). split; intros m H; apply mats in H; rewrite Q in H; destruct H as [[]|H]; apply mats_c in H; discriminate H.
  - intros Nc. exists (re_mat (l_C l)). split; [apply real_re|]. assert (Ec : c_part l = [("Cmatrix", DMat (per_km (re_mat (l_C l))))]) by (unfold c_part; destruct (l_C l); [congruence|reflexivity]).
    apply G; rewrite Ec; [right; rewrite in_mat_mat; auto|]. intros m [H|H]; [apply mats_z in H; destruct H as [H|H]; discriminate H|]. rewrite in_mat_mat, in_mat_nil in H. destruct H as [[_ H]|[]]. auto.
  - intros Ec m H. apply mats in H. destruct H as [H|H]; [apply mats_z in H; destruct H as [H|H]; discriminate H|]. unfold c_part in H. rewrite Ec in H. destruct H.
  - rewrite parse_line_eq, amp_eq. cbn [app].
    assert (St : forall k v, (forall q, ("Faultrate" = k /\ (exists x, l_fault l = Some x /\ (x == q)%Q)) \/ ("normamps" = k /\ (exists x, first_amps w_amp l = Some x /\ (x == q)%Q)) \/
      ("emergamps" = k /\ (exists x, first_amps w_emerg l = Some x /\ (x == q)%Q)) <-> exists q', v = Some q' /\ (q' == q)%Q) ->
      states (("units", DStr "km") :: ("nphases", DInt (np l)) :: entry "Faultrate" (l_fault l) ++ z_part l ++ c_part l ++ entry "normamps" (first_amps w_amp l) ++ entry "emergamps" (first_amps w_emerg l)) k v).
    { intros k v H q. rewrite <- H, says_str, says_int, !says_app, !says_entry, says_z, says_c. tauto. }
    split; [|split]; apply St; intros q; (split; [intros [[Q H]|[[Q H]|[Q H]]]; try discriminate Q; exact H|auto]).
Qed.

Lemma same_mats a b : same_data a b -> forall k m, In (k, DMat m) a -> exists m', In (k, DMat m') b /\ Forall2 (Forall2 Qeq) m m'.
Proof.
  intros F k m H. induction F as [|[k1 v1] [k2 v2] a b [E1 E2] F IH]; [destruct H|]. cbn in E1, E2. subst k2. destruct H as [H|H].
  - injection H as -> ->. destruct v2; cbn in E2; try discriminate E2. eexists. split; [left; reflexivity|exact E2].
  - destruct (IH H) as (m' & H1 & H2). exists m'. split; [right; exact H1|exact H2].
Qed.
Lemma int_same' a b k n : same_data a b -> In (k, DInt n) a -> In (k, DInt n) b.
Proof. intros F. apply int_same, same_data_sym, F. Qed.
Lemma gives_same a b k M : same_data a b -> gives_matrix b k M -> gives_matrix a k M.
Proof.
  intros F [[m Hm] H]. split; [destruct (same_mats _ _ (same_data_sym _ _ F) k m Hm) as (m' & H1 & _); eauto|].
  intros m1 H1. destruct (same_mats _ _ F k m1 H1) as (m2 & H2 & E). apply H in H2. clear - E H2. revert M H2. induction E as [|r1 r2 m1 m2 Er E IH]; intros M H2; inversion H2; subst; constructor; auto.
  clear - Er H1. match goal with H : Forall2 _ r2 ?r |- _ => revert r H end. induction Er as [|x y r1 r2 Ex E IH]; intros r H; inversion H; subst; constructor; auto. rewrite Ex. assumption.
Qed.
Lemma no_matrix_same a b k : same_data a b -> no_matrix b k -> no_matrix a k.
Proof. intros F H m Hm. destruct (same_mats _ _ F k m Hm) as (m' & H1 & _). exact (H m' H1). Qed.
Lemma describes_code_same a b l : same_data a b -> describes_code b l -> describes_code a l.
Proof.
  intros F (H1 & (n & H2 & H3 & H4 & H5) & H6 & H7 & H8 & H9 & H10 & H11 & H12). unfold describes_code.
  split; [eapply str_same; eauto|]. split; [exists n; split; [eapply int_same; eauto|]; split; [intros n' Hn; apply H3; eapply int_same'; eauto|]; split; [exact H4|]|].
  { intros Ez Es. destruct (H5 Ez Es) as (M & K1 & K2 & K3). exists M. split; [exact K1|]. split; eapply gives_same; eauto. }
  split; [intros Nz; destruct (H6 Nz) as (R & X & K1 & K2 & K3 & K4); exists R, X; split; [exact K1|]; split; [exact K2|]; split; eapply gives_same; eauto|].
  split; [intros Ez Es; destruct (H7 Ez Es); split; eapply no_matrix_same; eauto|].
  split; [intros Nc; destruct (H8 Nc) as (C & K1 & K2); exists C; split; [exact K1|eapply gives_same; eauto]|]. split; [intros Ec; eapply no_matrix_same; [exact F|apply H9, Ec]|].
  split; [eapply states_same; eauto|]. split; eapply states_same; eauto.
Qed.

Lemma per_km_same f : (forall x y : Q * Q, (fst x == fst y /\ snd x == snd y)%Q -> (f x == f y)%Q) -> forall Z Z', Forall2 (Forall2 (fun x y : Q * Q => fst x == fst y /\ snd x == snd y)%Q) Z Z' -> Forall2 (Forall2 Qeq) (per_km (map (map f) Z)) (per_km (map (map f) Z')).
Proof. intros Hf Z Z' F. induction F as [|r r' Z Z' Fr F IH]; constructor; auto. clear - Fr Hf. induction Fr as [|x y r r' E Fr IH]; cbn; constructor; auto. rewrite (Hf _ _ E). reflexivity. Qed.
Lemma alike_code_same l l' : alike_code l l' -> same_data (parse_line l) (parse_line l').
Proof.
  intros (H1 & H2 & H3 & H4 & H5 & H6 & H7). apply np_same in H1. rewrite !parse_line_eq, !amp_eq. unfold same_data.
  apply Forall2_app; [rewrite H1; apply same_data_refl|]. apply Forall2_app; [apply entry_same, H2|]. apply Forall2_app; [|apply Forall2_app; [|apply Forall2_app; apply entry_same; assumption]].
  - unfold z_part. rewrite H1. assert (R := per_km_same fst (fun x y H => proj1 H) _ _ H5). assert (I := per_km_same snd (fun x y H => proj2 H) _ _ H5). inversion H5 as [E1 E2|r r' Z Z' Fr F E1 E2].
    + rewrite H6 by auto. apply same_data_refl.
    + rewrite <- E1, <- E2 in R, I. constructor; [split; [reflexivity|exact R]|]. constructor; [split; [reflexivity|exact I]|constructor].
  - unfold c_part. assert (R := per_km_same fst (fun x y H => proj1 H) _ _ H7). inversion H7 as [E1 E2|r r' Z Z' Fr F E1 E2]; [constructor|]. rewrite <- E1, <- E2 in R. constructor; [split; [reflexivity|exact R]|constructor].
Qed.

(** ** Names *)
Definition class_np (c : string) (l : line) : string := variant c (np l).
Lemma variant_inj c k c' k' : variant c k = variant c' k' -> c = c' /\ k = k'.
Proof.
  intros E. assert (Ek := variant_num _ _ _ _ E). subst k'. split; [|reflexivity]. unfold variant in E. clear - E. revert c' E.
  assert (L : forall a b : string, String.length (a ++ b) = String.length a + String.length b) by (induction a; intros; cbn; auto).
  induction c as [|x c IH]; intros [|y c'] E; cbn in E; auto.
  - exfalso. apply (f_equal String.length) in E. cbn in E. rewrite !L in E. cbn in E. lia.
  - exfalso. apply (f_equal String.length) in E. cbn in E. rewrite !L in E. cbn in E. lia.
  - injection E as -> E. f_equal. apply IH, E.
Qed.
Lemma code_split l j : exists p, split_on "_" (code_name l j) = p ++ [("Code" ++ str_of j)%string].
Proof.
  assert (F : free "_" ("Code" ++ str_of j)%string) by (apply free_app; [cbn; intuition discriminate|apply free_str; nodigit]).
  assert (G : forall T, exists p, split_on "_" (T ++ String "_" ("Code" ++ str_of j))%string = p ++ [("Code" ++ str_of j)%string]) by (intros T; eexists; apply split_snoc, F).
  unfold code_name. destruct (l_type l) as [t|]; [destruct (String.eqb t "overhead"); [|destruct (String.eqb t "underground")]|].
  - destruct (G (str_of (length (phase_wires (l_wires l))) ++ "P_OH")%string) as [p Hp]. exists p. rewrite <- Hp, sapp_assoc. reflexivity.
  - destruct (G (str_of (length (phase_wires (l_wires l))) ++ "P_UG")%string) as [p Hp]. exists p. rewrite <- Hp, sapp_assoc. reflexivity.
  - destruct (G (str_of (length (phase_wires (l_wires l))) ++ "P")%string) as [p Hp]. exists p. rewrite <- Hp, sapp_assoc. reflexivity.
  - destruct (G (str_of (length (phase_wires (l_wires l))) ++ "P")%string) as [p Hp]. exists p. rewrite <- Hp, sapp_assoc. reflexivity.
Qed.
Lemma code_variant l j c k : code_name l j <> variant c k.
Proof.
  intros E. destruct (code_split l j) as [p H]. rewrite E, variant_split in H. apply app_inj_tail in H. destruct H as [_ H].
  assert (F : free "C" (str_of k)) by (apply free_str; nodigit). rewrite H in F. cbn in F. apply (proj1 F). reflexivity.
Qed.
Lemma code_num l j l' j' : code_name l j = code_name l' j' -> j = j'.
Proof.
  intros E. destruct (code_split l j) as [p H]. destruct (code_split l' j') as [p' H']. rewrite E, H' in H. apply app_inj_tail in H. destruct H as [_ H]. cbn in H. injection H as H. symmetry. apply str_inj. exact H.
Qed.

(** ** One file *)
Section Single.
Variable all : list line.
Hypothesis Cl : forall l1 l2 c1 c2 j, In l1 all -> In l2 all -> l_class l1 = Some c1 -> l_class l2 = Some c2 -> variant (class_np c1 l1) j <> class_np c2 l2.
Hypothesis Two : forall l1 l2 l3 c, In l1 all -> In l2 all -> In l3 all -> l_class l1 = Some c -> l_class l2 = Some c -> l_class l3 = Some c -> np l1 = np l2 -> np l1 = np l3 ->
  same_data (parse_line l1) (parse_line l2) \/ same_data (parse_line l1) (parse_line l3) \/ same_data (parse_line l2) (parse_line l3).

Definition kept (a : dict (list (string * dval))) (cnt : nat) : Prop :=
  NoDup (dkeys a) /\ forall k v, dget a k = Some v ->
  (exists l c, In l all /\ l_class l = Some c /\ k = class_np c l /\ same_data v (parse_line l)) \/
  (exists l c j v0, In l all /\ j < cnt /\ l_class l = Some c /\ k = variant (class_np c l) j /\ same_data v (parse_line l) /\ dget a (class_np c l) = Some v0 /\ ~ same_data v0 v) \/
  (exists l j, j < cnt /\ k = code_name l j).

Lemma kept_class a cnt l c y : kept a cnt -> In l all -> l_class l = Some c -> dget a (class_np c l) = Some y -> exists l0, In l0 all /\ l_class l0 = Some c /\ np l0 = np l /\ same_data y (parse_line l0).
Proof.
  intros [_ K] Hl Hc H. destruct (K _ _ H) as [(l0 & c0 & H1 & H2 & H3 & H4)|[(l0 & c0 & j & v0 & H1 & H2 & H3 & H4 & _)|(l0 & j & H1 & H2)]].
  - apply variant_inj in H3. destruct H3 as [<- E]. exists l0. auto.
  - exfalso. exact (Cl l0 l c0 c j H1 Hl H3 Hc (eq_sym H4)).
  - exfalso. exact (code_variant _ _ _ _ (eq_sym H2)).
Qed.
Lemma kept_variant a cnt l c j v : kept a cnt -> In l all -> l_class l = Some c -> dget a (variant (class_np c l) j) = Some v ->
  j < cnt /\ exists l1 v0, In l1 all /\ l_class l1 = Some c /\ np l1 = np l /\ same_data v (parse_line l1) /\ dget a (class_np c l) = Some v0 /\ ~ same_data v0 v.
Proof.
  intros [_ K] Hl Hc H. destruct (K _ _ H) as [(l0 & c0 & H1 & H2 & H3 & H4)|[(l0 & c0 & j0 & v0 & H1 & H2 & H3 & H4 & H5 & H6 & H7)|(l0 & j0 & H1 & H2)]].
  - exfalso. exact (Cl l l0 c c0 j Hl H1 Hc H2 H3).
  - apply variant_inj in H4. destruct H4 as [E <-]. split; [exact H2|]. rewrite E. apply variant_inj in E. destruct E as [<- E]. exists l0, v0. auto 7.
  - exfalso. exact (code_variant _ _ _ _ (eq_sym H2)).
Qed.

Lemma kept_add a cnt cnt' k x : kept a cnt -> cnt <= cnt' -> dget a k = None ->
  ((exists l c, In l all /\ l_class l = Some c /\ k = class_np c l /\ same_data x (parse_line l)) \/
   (exists l c j v0, In l all /\ j < cnt' /\ l_class l = Some c /\ k = variant (class_np c l) j /\ same_data x (parse_line l) /\ dget a (class_np c l) = Some v0 /\ ~ same_data v0 x) \/
   (exists l j, j < cnt' /\ k = code_name l j)) -> kept (dset a k x) cnt'.
Proof.
  intros [Nd K] Le Hn H. split; [apply dset_NoDup, Nd|]. assert (Up : forall k' v, dget a k' = Some v -> dget (dset a k x) k' = Some v) by (intros k' v Q; rewrite dget_dset; destruct (String.eqb_spec k k'); congruence).
  intros k' v Q. rewrite dget_dset in Q. destruct (String.eqb_spec k k') as [Ek|].
  - injection Q as <-. subst k'. destruct H as [H|[(l & c & j & v0 & H1 & H2 & H3 & H4 & H5 & H6 & H7)|H]]; [auto| |auto]. right; left. exists l, c, j, v0. auto 8.
  - destruct (K _ _ Q) as [H0|[(l & c & j & v0 & H1 & H2 & H3 & H4 & H5 & H6 & H7)|(l & j & H1 & H2)]]; [auto| |].
    + right; left. exists l, c, j, v0. split; [exact H1|]. split; [lia|]. auto 7.
    + right; right. exists l, j. split; [lia|exact H2].
Qed.

Lemma name_code_single a cnt l a' t' cnt' c' : kept a cnt -> In l all -> name_code a a cnt l = (a', t', cnt', c') ->
  t' = a' /\ kept a' cnt' /\ (forall k v, dget a k = Some v -> dget a' k = Some v) /\ exists v, dget a' c' = Some v /\ same_data v (parse_line l).
Proof.
  intros K Hl E.
  assert (Add : forall k cnt1, cnt <= cnt1 -> dget a k = None ->
    ((exists c, l_class l = Some c /\ k = class_np c l) \/
     (exists c j v0, l_class l = Some c /\ k = variant (class_np c l) j /\ j < cnt1 /\ dget a (class_np c l) = Some v0 /\ ~ same_data v0 (parse_line l)) \/ (exists j, j < cnt1 /\ k = code_name l j)) ->
    kept (dset a k (parse_line l)) cnt1 /\ (forall k' v, dget a k' = Some v -> dget (dset a k (parse_line l)) k' = Some v) /\ exists v, dget (dset a k (parse_line l)) k = Some v /\ same_data v (parse_line l)).
  { intros k cnt1 Le Hn H. split; [|split; [intros k' v Q; rewrite dget_dset; destruct (String.eqb_spec k k'); congruence|exists (parse_line l); rewrite dget_dset, String.eqb_refl; split; [reflexivity|apply same_data_refl]]].
    apply (kept_add a cnt); auto. destruct H as [(c & H1 & H2)|[(c & j & v0 & H1 & H2 & H3 & H4 & H5)|(j & H1 & H2)]].
    - left. exists l, c. split; [exact Hl|]. split; [exact H1|]. split; [exact H2|apply same_data_refl].
    - right; left. exists l, c, j, v0. repeat (split; [assumption|]). split; [apply same_data_refl|]. auto.
    - right; right. eauto. }
  unfold name_code in E. destruct (l_class l) as [c|] eqn:Ec.
  - change (c ++ "_" ++ str_of (length (phase_wires (l_wires l))))%string with (class_np c l) in E. destruct (dget a (class_np c l)) as [y|] eqn:Ea.
    + unfold dmem at 1 in E. rewrite Ea in E. destruct (kept_class a cnt l c y K Hl Ec Ea) as (l0 & I0 & C0 & N0 & S0). destruct (data_eqb y (parse_line l)) eqn:Ey.
      * injection E as <- <- <- <-. split; [reflexivity|]. split; [exact K|]. split; [auto|]. exists y. split; [exact Ea|apply data_eqb_spec; exact Ey].
      * assert (Ny : ~ same_data y (parse_line l)) by (intros Q; apply data_eqb_spec in Q; congruence). destruct (find_sub a (class_np c l) cnt) as [j|] eqn:Ef.
        -- unfold find_sub in Ef. apply find_some in Ef. destruct Ef as [_ Ef]. change (class_np c l ++ "_" ++ str_of j)%string with (variant (class_np c l) j) in Ef, E. cbv zeta in E. unfold dmem at 1 in E. unfold dmem in Ef.
           destruct (dget a (variant (class_np c l) j)) as [v|] eqn:Ev; [|discriminate Ef]. injection E as <- <- <- <-. split; [reflexivity|]. split; [exact K|]. split; [auto|]. exists v. split; [exact Ev|].
           destruct (kept_variant a cnt l c j v K Hl Ec Ev) as (_ & l1 & v0 & I1 & C1 & N1 & S1 & H0 & D0). rewrite Ea in H0. injection H0 as <-.
           destruct (Two l0 l1 l c I0 I1 Hl C0 C1 Ec ltac:(congruence) ltac:(congruence)) as [Q|[Q|Q]].
           ++ exfalso. apply D0. eapply same_data_trans; [exact S0|]. eapply same_data_trans; [exact Q|]. apply same_data_sym, S1.
           ++ exfalso. apply Ny. eapply same_data_trans; eauto.
           ++ eapply same_data_trans; eauto.
        -- change (class_np c l ++ "_" ++ str_of cnt)%string with (variant (class_np c l) cnt) in E. injection E as <- <- <- <-. split; [reflexivity|]. apply (Add (variant (class_np c l) cnt)); [lia| |].
           ++ destruct (dget a (variant (class_np c l) cnt)) as [v|] eqn:Ev; [exfalso|reflexivity]. destruct (kept_variant a cnt l c cnt v K Hl Ec Ev) as [H _]. lia.
           ++ right; left. exists c, cnt, y. auto 7.
    + injection E as <- <- <- <-. split; [reflexivity|]. apply (Add (class_np c l)); [lia|exact Ea|]. left. eauto.
  - destruct (last_match data_eqb a (parse_line l)) as [k|] eqn:El.
    + injection E as <- <- <- <-. split; [reflexivity|]. split; [exact K|]. split; [auto|]. apply (last_match_spec _ _ data_eqb_spec) in El. destruct El as (v & Hv & Ev). exists v. split; [apply dget_NoDup; [apply K|exact Hv]|apply same_data_sym, Ev].
    + injection E as <- <- <- <-. split; [reflexivity|]. apply (Add (code_name l cnt)); [lia| |right; right; exists cnt; split; [lia|reflexivity]].
      destruct (dget a (code_name l cnt)) as [v|] eqn:Ev; [exfalso|reflexivity]. destruct K as [_ K]. destruct (K _ _ Ev) as [(l0 & c0 & H1 & H2 & H3 & H4)|[(l0 & c0 & j & v0 & H1 & H2 & H3 & H4 & _)|(l0 & j & H1 & H2)]].
      * exact (code_variant _ _ _ _ H3).
      * exact (code_variant _ _ _ _ H4).
      * apply code_num in H2. lia.
Qed.

Lemma write_single K : forall ls a m cnt a' m' ls', incl ls all -> kept a cnt -> (forall l, In l ls -> key_of false false l = K) -> txt_of m K = a ->
  write_linecodes false false a m cnt ls = (a', m', ls') ->
  txt_of m' K = a' /\ (forall k v, dget a k = Some v -> dget a' k = Some v) /\
  Forall2 (fun l l' => exists c v, l' = set_lclass l (Some c) /\ dget a' c = Some v /\ same_data v (parse_line l)) ls ls'.
Proof.
  induction ls as [|l ls IH]; intros a m cnt a' m' ls' Il Kp Hk Ht E; cbn [write_linecodes] in E; [injection E as <- <- <-; split; [exact Ht|]; split; [auto|constructor]|].
  rewrite (Hk l (or_introl eq_refl)), Ht in E. destruct (name_code a a cnt l) as [[[a1 t1] cnt1] c] eqn:En. apply name_code_single in En; [|exact Kp|apply Il; left; reflexivity]. destruct En as (-> & K1 & G1 & v & Hv & Sv).
  destruct (write_linecodes false false a1 (dset m K a1) cnt1 ls) as [[a2 m2] r] eqn:Er. injection E as <- <- <-.
  apply IH in Er; [|intros x Hx; apply Il; right; exact Hx|exact K1|intros x Hx; apply Hk; right; exact Hx|unfold txt_of; rewrite dget_dset, String.eqb_refl; reflexivity].
  destruct Er as (T2 & G2 & F2). split; [exact T2|]. split; [auto|]. constructor; [|exact F2]. exists c, v. auto.
Qed.
End Single.

(** ** Many files *)
Section Many.
Variables sepf seps : bool.
Variable all : list line.
Hypothesis Named : forall l, In l all -> l_class l <> None.
Hypothesis Uni : forall l1 l2 c, In l1 all -> In l2 all -> l_class l1 = Some c -> l_class l2 = Some c -> np l1 = np l2 -> same_data (parse_line l1) (parse_line l2).

Definition of_class (t : dict (list (string * dval))) : Prop := forall k v, dget t k = Some v -> exists l c, In l all /\ l_class l = Some c /\ k = class_np c l /\ same_data v (parse_line l).
Lemma of_class_same t l c v : of_class t -> In l all -> l_class l = Some c -> dget t (class_np c l) = Some v -> same_data v (parse_line l).
Proof.
  intros H Hl Hc Hv. destruct (H _ _ Hv) as (l0 & c0 & H1 & H2 & H3 & H4). apply variant_inj in H3. destruct H3 as [<- E]. eapply same_data_trans; [exact H4|]. apply (Uni l0 l c); auto.
Qed.
Lemma of_class_set t l c : of_class t -> In l all -> l_class l = Some c -> of_class (dset t (class_np c l) (parse_line l)).
Proof.
  intros H Hl Hc k v Q. rewrite dget_dset in Q. destruct (String.eqb_spec (class_np c l) k) as [Ek|]; [injection Q as <-; exists l, c; repeat split; auto; apply same_data_refl|apply (H k v Q)].
Qed.
Lemma name_code_many a t cnt l c a' t' cnt' c' : of_class a -> of_class t -> In l all -> l_class l = Some c -> name_code a t cnt l = (a', t', cnt', c') ->
  of_class a' /\ of_class t' /\ c' = class_np c l /\ dget t' c' <> None /\ (forall k, dget t k <> None -> dget t' k <> None).
Proof.
  intros Ha Ht Hl Hc E. unfold name_code in E. rewrite Hc in E. change (c ++ "_" ++ str_of (length (phase_wires (l_wires l))))%string with (class_np c l) in E.
  assert (Set_ : dget (dset t (class_np c l) (parse_line l)) (class_np c l) <> None) by (rewrite dget_dset, String.eqb_refl; discriminate).
  destruct (dget a (class_np c l)) as [y|] eqn:Ea.
  - unfold dmem in E at 1. destruct (dget t (class_np c l)) as [z|] eqn:Et.
    + assert (Q := of_class_same a l c y Ha Hl Hc Ea). apply data_eqb_spec in Q. rewrite Q in E. injection E as <- <- <- <-. repeat (split; [assumption||reflexivity|]). split; [congruence|auto].
    + injection E as <- <- <- <-. split; [exact Ha|]. split; [apply of_class_set; auto|]. split; [reflexivity|]. split; [exact Set_|]. intros k. apply dset_keeps.
  - injection E as <- <- <- <-. split; [apply of_class_set; auto|]. split; [apply of_class_set; auto|]. split; [reflexivity|]. split; [exact Set_|]. intros k. apply dset_keeps.
Qed.
Lemma write_many : forall ls a m cnt a' m' ls', incl ls all -> of_class a -> (forall g, of_class (txt_of m g)) -> write_linecodes sepf seps a m cnt ls = (a', m', ls') ->
  (forall g, of_class (txt_of m' g)) /\ (forall g k, dget (txt_of m g) k <> None -> dget (txt_of m' g) k <> None) /\
  Forall2 (fun l l' => exists c0 v, l' = set_lclass l (Some (class_np c0 l)) /\ l_class l = Some c0 /\ dget (txt_of m' (key_of sepf seps l)) (class_np c0 l) = Some v /\ same_data v (parse_line l)) ls ls'.
Proof.
  induction ls as [|l ls IH]; intros a m cnt a' m' ls' Il Ha Hm E; cbn [write_linecodes] in E; [injection E as <- <- <-; split; [exact Hm|]; split; [auto|constructor]|].
  assert (Hl : In l all) by (apply Il; left; reflexivity). destruct (l_class l) as [c|] eqn:Hc; [|exfalso; exact (Named l Hl Hc)].
  destruct (name_code a (txt_of m (key_of sepf seps l)) cnt l) as [[[a1 t1] cnt1] c'] eqn:En. apply (name_code_many _ _ _ _ c) in En; auto. destruct En as (A1 & T1 & -> & D1 & G1).
  destruct (write_linecodes sepf seps a1 (dset m (key_of sepf seps l) t1) cnt1 ls) as [[a2 m2] r] eqn:Er. injection E as <- <- <-.
  assert (Tx : forall g, txt_of (dset m (key_of sepf seps l) t1) g = if String.eqb (key_of sepf seps l) g then t1 else txt_of m g) by (intros g; unfold txt_of; rewrite dget_dset; destruct (String.eqb (key_of sepf seps l) g); reflexivity).
  apply IH in Er; [|intros x Hx; apply Il; right; exact Hx|exact A1|intros g; rewrite Tx; destruct (String.eqb (key_of sepf seps l) g); auto]. destruct Er as (M2 & G2 & F2).
  split; [exact M2|]. split; [|constructor; [|exact F2]].
  - intros g k H. apply G2. rewrite Tx. destruct (String.eqb_spec (key_of sepf seps l) g) as [Eg|]; [subst g; apply G1, H|exact H].
  - assert (D2 : dget (txt_of m2 (key_of sepf seps l)) (class_np c l) <> None) by (apply G2; rewrite Tx, String.eqb_refl; exact D1).
    destruct (dget (txt_of m2 (key_of sepf seps l)) (class_np c l)) as [v|] eqn:Ev; [|congruence]. exists c, v. split; [reflexivity|]. split; [first [exact Hc|reflexivity]|]. split; [exact Ev|]. exact (of_class_same (txt_of m2 (key_of sepf seps l)) l c v (M2 _) Hl Hc Ev).
Qed.
End Many.
