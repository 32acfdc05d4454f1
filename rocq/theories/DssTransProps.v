(** Theorems about the transformers of the OpenDSS script (C84). *)
From Verif Require Import Base BaseFacts CsvModel DssNameModel DssCodeModel DssFileModel DssTextModel DssTransModel DssNameSpec DssTextSpec DssFileSpec DssLoadSpec DssTransSpec
  DssTextProofs DssLoadProofs DssLineTextProofs DssTransProofs DssFileProofs DssFileProps DssTextProps.
From Coq Require Import QArith Lia DecimalString Permutation.
Local Open Scope string_scope.
Local Open Scope nat_scope.
Local Open Scope list_scope.

Definition good_trans (taps : bool) (t : transformer) : Prop := good_two taps t \/ good_center taps t.
Lemma trans_reads show num taps t : faithful show num -> good_trans taps t -> exists x e, trans_text show taps t = Ok x /\ trans_is num taps t e /\
  forall rest els, read_dss rest = Some els -> read_dss (x ++ rest)%string = Some (e :: els).
Proof.
  intros FS [G|G].
  - destruct (two_reads show num FS taps t G) as (x & e & T & I & R). exists x, e. split; [exact T|]. split; [|exact R]. left. split; [apply G | exact I].
  - destruct (center_reads show num FS taps t G) as (x & e & T & I & R). exists x, e. split; [exact T|]. split; [|exact R]. right. split; [|exact I].
    destruct G as (_ & _ & _ & w1 & w2 & w3 & ns & W & _). rewrite W. reflexivity.
Qed.

(** *** C84 *)
Theorem C84_transformers : forall show num taps ts, faithful show num -> Forall (good_trans taps) ts ->
  exists xs els, mapM (trans_text show taps) ts = Ok xs /\ read_dss (String.concat "" xs) = Some els /\ Forall2 (trans_is num taps) ts els.
Proof.
  intros show num taps ts FS H. induction H as [|t r G _ (xs & els & M & R & F)]; [exists [], []; repeat split; constructor|].
  destruct (trans_reads show num taps t FS G) as (x & e & T & I & Rd).
  exists (x :: xs), (e :: els). split; [cbn [mapM]; rewrite T, M; reflexivity|]. split; [|constructor; assumption].
  rewrite concat_texts in *. cbn [texts fold_right]. apply Rd. exact R.
Qed.
Print Assumptions C84_transformers.

(** The transformers of each written file are those of its feeder. *)
Theorem C84_file : forall show num taps sepf seps file order out (xs : list (transformer * obj)),
  faithful show num -> (forall l o, In (l, o) xs -> good_trans taps l /\ exists t, trans_text show taps l = Ok t /\ o_txt o = Some t) ->
  (forall l, Permutation (order l) l) -> told_apart sepf seps file (map snd xs) -> plain_substations sepf seps (map snd xs) ->
  exists out', write_section sepf seps file order out (map snd xs) = Ok out' /\
    forall s f, used sepf seps (map snd xs) s f -> exists t hs els,
      dget (files out') (place sepf seps file s f) = Some t /\ residents sepf seps s f xs hs /\ read_dss t = Some els /\
      Forall2 (trans_is num taps) hs els.
Proof.
  intros show num taps sepf seps file order out xs FS H OP TA PS.
  apply (file_reads (Forall2 (trans_is num taps)) sepf seps file order out xs); try assumption; [constructor|].
  intros l o I. destruct (H l o I) as (G & t' & T' & E). destruct (trans_reads show num taps l FS G) as (t & e & T & Is & Rd).
  exists t, [e]. rewrite T in T'. injection T' as <-. split; [exact E|]. split.
  - intros ->. specialize (Rd "" [] eq_refl). discriminate Rd.
  - split; [intros rest els R; exact (Rd rest els R)|]. intros hs els F. constructor; assumption.
Qed.
Print Assumptions C84_file.

(** In a grounded winding that is not delta and has not three phases, each phase has its node and the next conductor is at ground. *)
Theorem C84_grounded : forall num taps t e w2 w xs,
  two_is num taps t e -> tr_windings t = [w; w2] -> tr_from t <> None -> wd_ground w = true -> wd_conn w <> Some "D" -> length xs <> 3 ->
  map pw_phase (wd_phases w) = map Some xs ->
  exists v, prop (winding_of e 1) "bus" = Some v /\ conductor_node v (S (length xs)) = "0" /\
    forall i x, nth_error xs i = Some x -> at_node x (conductor_node v (S i)).
Proof.
  intros num taps t e w2 w xs [_ (a & b & ns1 & ns2 & W & N1 & _ & I1 & _) _ _] W' Fr Gr C L3 X.
  rewrite W' in W. injection W as <- <-. destruct (tr_from t) as [bus|]; [|contradiction Fr; reflexivity].
  destruct I1 as [_ (v & y & P & T & _) _ _ _ _]. exists v. split; [exact P|].
  destruct N1 as (ms & -> & [(L & _)|(_ & (ps & F & S))]).
  { exfalso. apply L3. rewrite <- L. apply (f_equal (@length _)) in X. rewrite !map_length in X. symmetry. exact X. }
  assert (ms = ps) as -> by (destruct S as [(Q & _)|[_ Q]]; [contradiction | exact Q]). clear S.
  rewrite Gr in T. unfold conductor_node. rewrite T. cbn [snd]. rewrite X in F.
  assert (GS : forall l : list string, given (map Some l) = l) by (induction l as [|z l IH]; [reflexivity | cbn; now rewrite IH]). rewrite GS in F.
  assert (L : length xs = length ps) by (clear - F; induction F; [reflexivity | cbn [length]; now f_equal]).
  assert (N : forall i x, nth_error xs i = Some x -> exists n, nth_error ps i = Some n /\ at_node x n).
  { clear - F. induction F as [|x n xs ps A _ IH]; intros [|i] z Q; try discriminate Q.
    - injection Q as <-. exists n. split; [reflexivity | exact A].
    - exact (IH i z Q). }
  split.
  - change (S (length xs) - 1) with (length xs - 0). rewrite Nat.sub_0_r, L, app_nth2, Nat.sub_diag by lia. reflexivity.
  - intros i x Q. destruct (N i x Q) as (n & E & A). change (S i - 1) with (i - 0). rewrite Nat.sub_0_r. rewrite app_nth1; [|apply nth_error_Some; congruence].
    rewrite (nth_error_nth ps i _ E). exact A.
Qed.
Print Assumptions C84_grounded.

(** In a grounded winding of three phases the ground takes the place of the first phase. *)
Theorem C84_three_phase_ground_refuted : forall num taps t e w w2,
  two_is num taps t e -> tr_windings t = [w; w2] -> tr_from t <> None -> wd_ground w = true -> length (wd_phases w) = 3 ->
  exists v, prop (winding_of e 1) "bus" = Some v /\ prop e "phases" = Some "3" /\
    conductor_node v 1 = "0" /\ conductor_node v 2 = "2" /\ conductor_node v 3 = "3".
Proof.
  intros num taps t e w w2 [_ (a & b & ns1 & ns2 & W & N1 & _ & I1 & _ & _ & _ & Np) _ _] W' Fr Gr L.
  rewrite W' in W. injection W as <- <-. destruct (tr_from t) as [bus|]; [|contradiction Fr; reflexivity].
  destruct I1 as [_ (v & y & P & T & _) _ _ _ _]. exists v. split; [exact P|]. rewrite L in Np. split; [exact Np|].
  destruct N1 as (ms & -> & [(_ & ->)|(Q & _)]); [|contradiction]. rewrite Gr in T. unfold conductor_node. rewrite T. repeat split; reflexivity.
Qed.
Print Assumptions C84_three_phase_ground_refuted.

(** The windings of a transformer with three windings that is not a center tap are not written: no bus, no voltage, no power. *)
Theorem C84_three_windings_refuted : forall show num taps t, faithful show num -> named_trans t -> tr_center t = false -> length (tr_windings t) = 3 ->
  exists x e, trans_text show taps t = Ok x /\ read_dss x = Some [e] /\ tr_name t = Some (e_name e) /\
    only e ["phases"; "windings"; "%loadloss"; "%noloadloss"; "normhkva"].
Proof.
  intros show num taps t FS ((n & N & Tn) & (b1 & B1 & _) & (b2 & B2 & _)) Ce L.
  destruct (tr_windings t) as [|w1 [|w2 [|w3 [|w4 r]]]] eqn:W; try discriminate L. clear L.
  unfold trans_text. rewrite B1, B2, N. cbn [of_opt bind]. rewrite W, Ce. cbn [bind opt_text].
  pose proof (head_text show t w1 [w2; w3] _ W eq_refl) as HT. set (np := show_int _) in HT.
  exists (row (mkElement "Transformer" n (props_of (head_fields show t np))) [] ++ nl ++ nl)%string, (mkElement "Transformer" n (props_of (head_fields show t np))).
  split; [|split; [|split]].
  - f_equal. rewrite row_fields, <- HT. rewrite !app_assoc_s. reflexivity.
  - apply (row_read2 _ [] "" []); [|constructor | reflexivity]. unfold eok. cbn [e_class e_name e_props]. split; [split; [discriminate | reflexivity]|].
    split; [reflexivity|]. split; [exact Tn|]. apply fields_ok. apply (head_fields_ok show num FS). apply int_token.
  - reflexivity.
  - apply only_fields. unfold head_fields. repeat (apply Forall_cons; [cbn; tauto|]). apply Forall_nil.
Qed.
Print Assumptions C84_three_windings_refuted.

(** Resistances of a center tap transformer that are not known: the default of the first winding is written for the second. *)
Theorem C84_default_resistances_refuted : forall show num taps t, faithful show num -> good_center taps t ->
  (forall w, In w (tr_windings t) -> wd_res w = None) ->
  exists x e, trans_text show taps t = Ok x /\ read_dss x = Some [e] /\
    gives num (winding_of e 1) "%r" (Some (12 # 10)) /\ gives num (winding_of e 2) "%r" (Some (6 # 10)) /\ gives num (winding_of e 3) "%r" (Some (12 # 10)).
Proof.
  intros show num taps t FS (((n & N & T) & (b1 & B1 & E1) & (b2 & B2 & E2)) & Ce & Tp & w1 & w2 & w3 & ns & W & PA) NR. rewrite W in Tp.
  inversion Tp as [|? ? T1 Tp']; subst. inversion Tp' as [|? ? T2 Tp'']; subst. inversion Tp'' as [|? ? T3 _]; subst.
  destruct (primary_text w1 ns PA) as (D & A & F).
  pose proof (center_row show taps t n b1 b2 w1 w2 w3 _ ns N B1 B2 W Ce T1 T2 T3 eq_refl D) as R. set (np := show_int _) in R.
  eexists. eexists. split; [exact R|]. split.
  { apply (row_read2 _ [] "" []); [|constructor | reflexivity]. unfold eok. cbn [e_class e_name e_props].
    split; [split; [discriminate | reflexivity]|]. split; [reflexivity|]. split; [exact T|]. apply fields_ok. apply (center_all_ok show num FS); try assumption. apply int_token. }
  rewrite W in NR. pose proof (NR w1 ltac:(cbn; tauto)) as R1. pose proof (NR w2 ltac:(cbn; tauto)) as R2. pose proof (NR w3 ltac:(cbn; tauto)) as R3.
  split; [|split].
  - apply (show_gives show num FS) with (q := 12 # 10); [|reflexivity]. rewrite center_first. unfold head_fields, center_fields. lk. rewrite R1. reflexivity.
  - apply (show_gives show num FS) with (q := 6 # 10); [|reflexivity]. rewrite center_second. unfold head_fields, center_fields. lk. rewrite R2. reflexivity.
  - apply (show_gives show num FS) with (q := 12 # 10); [|reflexivity]. rewrite center_third. unfold head_fields, center_fields, center_tail.
    destruct (tr_reac t) as [[|x [|y [|z [|u l]]]]|]; lk; rewrite R3; reflexivity.
Qed.
Print Assumptions C84_default_resistances_refuted.

(** A transformer without one of its ends makes the whole section fail. *)
Theorem C84_missing_end_refuted : forall show taps ts t, In t ts -> tr_from t = None \/ tr_to t = None -> exists x, mapM (trans_text show taps) ts = Err x.
Proof.
  intros show taps ts t I M. assert (T : trans_text show taps t = Err EName).
  { unfold trans_text. destruct M as [-> | ->]; [reflexivity|]. destruct (tr_from t); reflexivity. }
  induction ts as [|u r IH]; [destruct I|]. cbn [mapM]. destruct I as [->|I].
  - rewrite T. eexists. reflexivity.
  - destruct (trans_text show taps u); [|eexists; reflexivity]. cbn [bind]. destruct (IH I) as [x ->]. eexists. reflexivity.
Qed.
Print Assumptions C84_missing_end_refuted.

Definition pw (p : string) : phase_winding := mkPW (Some p) (Some (1025 # 1000)%Q) None None.
Definition wd (c : string) (v s : Q) (g : bool) (ph : list phase_winding) : winding := mkWd (Some c) (Some v) (Some s) (Some (s * (12 # 10))%Q) (Some (6 # 10)) g ph.
Definition bank : transformer :=
  mkTr (Some "t1") (Some "sub 1") (Some "bus-7") (Some (8 # 10)) None (Some 110%Q)
    [wd "D" 12470%Q 100000%Q false [pw "A"]; wd "Y" 7200%Q 100000%Q true [pw "C"]] (Some [2%Q]) false.
Definition three : transformer :=
  mkTr (Some "t3") (Some "sub 1") (Some "bus-7") None (Some (1 # 5)) None
    [wd "D" 12470%Q 300000%Q false [pw "A"; pw "B"; pw "C"]; wd "Y" 480%Q 300000%Q true [pw "A"; pw "B"; pw "C"]] (Some [2%Q]) false.
Definition tapped_center (c : string) (ph ph2 : list phase_winding) (r : option (list Q)) : transformer :=
  mkTr (Some "ct") (Some "sub 1") (Some "house 7") None None None
    [wd c 7200%Q 25000%Q false ph; wd "Y" 120%Q 25000%Q false ph2; wd "Y" 120%Q 25000%Q false ph2] r true.

(** A transformer without a name leaves a row that is no command. *)
Theorem C84_nameless_refuted : exists t x, tr_name t = None /\ trans_text show_q false t = Ok x /\ read_dss x = None.
Proof. exists (mkTr None (Some "a") (Some "b") None None None (tr_windings bank) None false). vm_compute. eexists. repeat split; reflexivity. Qed.
Print Assumptions C84_nameless_refuted.

(** A center tap transformer whose delta primary has one phase: no phases, and the second node depends on the secondary windings. *)
Theorem C84_delta_center_refuted : forall p2, In p2 [("A", "2"); ("B", "3"); ("C", "1")] ->
  exists x e v, trans_text show_q false (tapped_center "D" [pw "A"] [pw (fst p2)] None) = Ok x /\ read_dss x = Some [e] /\ prop e "phases" = Some "0" /\
    prop (winding_of e 1) "bus" = Some v /\ snd (terminal v) = ["1"; snd p2].
Proof. intros p2 [<-|[<-|[<-|[]]]]; do 3 eexists; (split; [vm_compute; reflexivity|]); repeat split; vm_compute; reflexivity. Qed.
Print Assumptions C84_delta_center_refuted.

(** The tap of a winding without phases cannot be written. *)
Theorem C84_taps_refuted : exists t, named_trans t /\ trans_text show_q true t = Err EIndex /\ exists x, trans_text show_q false t = Ok x.
Proof.
  exists (mkTr (Some "t") (Some "a") (Some "b") None None None [wd "Y" 7200%Q 100%Q true []; wd "Y" 240%Q 100%Q true []] (Some [2%Q]) false).
  split; [|split; [reflexivity | eexists; reflexivity]].
  split; [exists "t"; split; [reflexivity | split; [discriminate | reflexivity]]|]. split; eexists; (split; [reflexivity | discriminate]).
Qed.
Print Assumptions C84_taps_refuted.

Example C84_hypotheses_met : Forall (good_trans true) [bank; three; tapped_center "Y" [pw "B"] [pw "B"] None; tapped_center "D" [pw "B"; pw "C"] [pw "B"] (Some [2; 3; 4]%Q)] /\
  good_center false (mkTr (Some "ct") (Some "sub 1") (Some "house 7") None None None [mkWd (Some "Y") None None None None false [pw "A"]; mkWd None None None None None false []; mkWd None None None None None false []] None true).
Proof.
  assert (Nm : forall n a b, token n -> a <> "" -> b <> "" -> forall l x y w r c, named_trans (mkTr (Some n) (Some a) (Some b) l x y w r c)).
  { intros n a b T A B l x y w r c. split; [exists n; split; [reflexivity | exact T]|]. split; [exists a | exists b]; (split; [reflexivity | assumption]). }
  assert (Ph : forall c v s g ps, Forall (fun p => exists z n, pw_phase p = Some z /\ at_node z n) ps -> phased (wd c v s g ps)).
  { intros c v s g ps F p x I Q. rewrite Forall_forall in F. destruct (F p I) as (z & n & E & A). exists n. congruence. }
  assert (P1 : forall x n, at_node x n -> exists z m, pw_phase (pw x) = Some z /\ at_node z m) by (intros x n A; exists x, n; split; [reflexivity | exact A]).
  assert (Tp : forall b c v s g p ps, tapped b (wd c v s g (p :: ps))) by (intros; intros _; discriminate).
  split; [|split].
  - repeat (apply Forall_cons); [..|apply Forall_nil].
    + left. split; [apply Nm; (discriminate || (split; [discriminate | reflexivity]))|]. split; [reflexivity|].
      split; repeat (apply Forall_cons); try apply Forall_nil; try apply Tp; apply Ph; repeat (apply Forall_cons; [eapply P1; constructor|]); apply Forall_nil.
    + left. split; [apply Nm; (discriminate || (split; [discriminate | reflexivity]))|]. split; [reflexivity|].
      split; repeat (apply Forall_cons); try apply Forall_nil; try apply Tp; apply Ph; repeat (apply Forall_cons; [eapply P1; constructor|]); apply Forall_nil.
    + right. split; [apply Nm; (discriminate || (split; [discriminate | reflexivity]))|]. split; [reflexivity|].
      split; [repeat (apply Forall_cons); try apply Forall_nil; apply Tp|]. do 4 eexists. split; [reflexivity|]. eapply pa_wye; [reflexivity | discriminate | reflexivity | constructor].
    + right. split; [apply Nm; (discriminate || (split; [discriminate | reflexivity]))|]. split; [reflexivity|].
      split; [repeat (apply Forall_cons); try apply Forall_nil; apply Tp|]. do 4 eexists. split; [reflexivity|]. eapply pa_delta; try reflexivity; constructor.
  - apply Nm; (discriminate || (split; [discriminate | reflexivity])).
  - split; [reflexivity|]. split; [repeat (apply Forall_cons); try apply Forall_nil; intros Q; discriminate Q|].
    do 4 eexists. split; [reflexivity|]. eapply pa_wye; [reflexivity | discriminate | reflexivity | constructor].
Qed.
Example C84_text : trans_text show_q true bank = Ok ("New Transformer.t1 phases=1 windings=2 %loadloss=8/10 normhkva=110/1 wdg=1 conn=delta Kv=12470/1000 kva=100000/1000 EmergHKVA=1200000/10000 %R=6/10 bus=sub_1.1.2 Tap=1025/1000 wdg=2 conn=wye Kv=7200/1000 kva=100000/1000 EmergHKVA=1200000/10000 %R=6/10 bus=bus_7.3.0 Tap=1025/1000 XHL=2/1" ++ nl ++ nl)%string.
Proof. vm_compute. reflexivity. Qed.
