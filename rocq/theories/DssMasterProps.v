From Verif Require Import Base BaseFacts DssNameModel DssNameProps DssCodeModel DssFileModel DssFileSpec DssFileProofs DssFileProps DssMasterModel DssMasterSpec DssMasterProofs.
From Coq Require Import Permutation.
Local Open Scope string_scope.
Local Open Scope nat_scope.
Local Open Scope list_scope.

Lemma base_suffix p : exists q, p = (q ++ base p)%string.
Proof.
  induction p as [|c p (q & IH)]; [exists ""; reflexivity|]. cbn [base]. destruct (Ascii.eqb c "/" || hasslash p)%bool.
  - exists (String c q). cbn. f_equal. exact IH.
  - exists "". reflexivity.
Qed.
Lemma bus_file_base p n : base p = n -> suffix_is Bus n = false -> ~ bus_file p.
Proof.
  intros Q S (q & E). change "Buscoords.dss" with Bus in E. rewrite E in Q. rewrite base_app in Q by exact noslash_bus.
  assert (X : suffix_is Bus n = true) by (apply suffix_is_spec; exists (base q); symmetry; exact Q). congruence.
Qed.
Lemma asked_tasks sepf seps net p t : asked sepf seps net p t <-> exists n A, In (n, A) (tasks sepf seps net) /\ n <> Bus /\ A p t.
Proof.
  split.
  - intros [(file & objs & s & f & I & U & Q & C)|[I N]].
    + exists file, (Asec sepf seps file objs). split; [|split; [|exists s, f; repeat split; assumption]].
      * unfold sections in I. unfold tasks, sections1, sections2. cbn [map app fst snd]. cbn [In] in I.
        repeat (destruct I as [I|I]; [injection I as <- <-; cbn [In]; auto 20|]). destruct I.
      * intros ->. unfold sections in I. cbn [In] in I. repeat (destruct I as [I|I]; [discriminate I|]). destruct I.
    + unfold base_texts in I. cbn [In] in I. unfold tasks, sections1, sections2. cbn [map app fst snd].
      destruct I as [I|[I|[I|[]]]]; injection I as <- <-;
      [exists "WireData.dss", (Abase "WireData.dss" (n_wires net)) | exists "CNData.dss", (Abase "CNData.dss" (n_cables net)) | exists "LineGeometry.dss", (Abase "LineGeometry.dss" (n_geoms net))];
      (split; [cbn [In]; auto 20 | split; [intros Q; discriminate Q | repeat split; exact N]]).
  - intros (n & A & I & N & H). unfold tasks, sections1, sections2 in I. cbn [map app fst snd In] in I.
    destruct I as [I|I]; [injection I as <- <-; contradiction|].
    do 4 (destruct I as [I|I]; [injection I as <- <-; destruct H as (s & f & U & Q & C); left; eexists; eexists; exists s, f; unfold sections; cbn [In]; split; [|split; [exact U | split; [exact Q | exact C]]]; auto 20|]).
    do 3 (destruct I as [I|I]; [injection I as <- <-; destruct H as (-> & -> & Nt); right; split; [unfold base_texts; cbn [In]; auto | exact Nt]|]).
    do 5 (destruct I as [I|I]; [injection I as <- <-; destruct H as (s & f & U & Q & C); left; eexists; eexists; exists s, f; unfold sections; cbn [In]; split; [|split; [exact U | split; [exact Q | exact C]]]; auto 20|]).
    destruct I.
Qed.

(** C68: with a new writer, the output of a network is the files its sections ask for, and bus coordinates; the master
    file redirects to each of them exactly once, and to nothing else. *)
Theorem C68_output : forall sepf seps order net,
  (forall l, Permutation (order l) l) -> writable sepf seps net -> writable_nodes sepf seps net ->
  exists o' l b, write_network sepf seps order out0 net = Ok (o', (l, b)) /\
    NoDup l /\ (forall p, In p l <-> exists t, asked sepf seps net p t) /\
    (forall p, In p l -> exists t, asked sepf seps net p t /\ dget (files o') p = Some t) /\
    (forall p, dget (files o') p <> None -> In p l \/ bus_file p).
Proof.
  intros sepf seps order net OP W Wn. destruct (network_run sepf seps order OP net out0 W Wn) as (o1 & pss & o' & E & R & F & _ & _).
  destruct (master (redirects o1)) as [l b] eqn:M. exists o', l, b. split; [exact E|].
  pose proof (Run_redirects _ _ _ _ R) as RR. cbn [out0 redirects app] in RR.
  pose proof (Run_named _ _ _ _ R) as NM. rewrite tasks_names in NM. pose proof (named_NoDup _ _ NM names_NoDup) as N. rewrite RR in M.
  destruct (master_In _ _ _ N M) as [Nl Il]. split; [exact Nl|].
  assert (NB : forall n A p t, In (n, A) (tasks sepf seps net) -> n <> Bus -> A p t -> In p (concat pss) -> ~ bus_file p).
  { intros n A p t I Nn H Ip. pose proof (named_concat_base _ _ NM p Ip) as J.
    destruct (Run_content _ _ _ _ R names_NoDup n A p t I H) as (_ & _ & _ & _).
    assert (Bp : base p = n).
    { unfold tasks, sections1, sections2 in I. cbn [map app fst snd In] in I.
      destruct I as [I|I]; [injection I as <- <-; contradiction|].
      do 4 (destruct I as [I|I]; [injection I as <- <-; destruct H as (s & f & _ & -> & _); apply base_place; cbn; repeat (split; [intros Q; discriminate Q|]); exact Logic.I|]).
      do 3 (destruct I as [I|I]; [injection I as <- <-; destruct H as (-> & _); reflexivity|]).
      do 5 (destruct I as [I|I]; [injection I as <- <-; destruct H as (s & f & _ & -> & _); apply base_place; cbn; repeat (split; [intros Q; discriminate Q|]); exact Logic.I|]).
      destruct I. }
    apply (bus_file_base p n Bp). rewrite Bp in J. unfold names in J. cbn [In] in J.
    destruct J as [J|J]; [congruence|]. repeat (destruct J as [<-|J]; [reflexivity|]). destruct J. }
  assert (IA : forall p, In p l <-> exists t, asked sepf seps net p t).
  { intros p. rewrite Il. split.
    - intros [Ip Np]. destruct (Run_todo _ _ _ _ R p Ip) as (n & A & t & I & H). exists t. apply asked_tasks. exists n, A.
      split; [exact I|]. split; [|exact H]. intros ->. apply Np.
      unfold tasks, sections1, sections2 in I. cbn [map app fst snd In] in I. destruct I as [I|I]; [injection I as <-; destruct H as (_ & -> & _); exists ""; reflexivity|].
      repeat (destruct I as [I|I]; [discriminate I|]). destruct I.
    - intros (t & H). apply asked_tasks in H. destruct H as (n & A & I & Nn & H).
      destruct (Run_content _ _ _ _ R names_NoDup n A p t I H) as (t' & _ & _ & Ip). split; [exact Ip|]. exact (NB n A p t I Nn H Ip). }
  split; [exact IA|]. split.
  - intros p Ip. apply IA in Ip. destruct Ip as (t & H). apply asked_tasks in H. destruct H as (n & A & I & Nn & H).
    destruct (Run_content _ _ _ _ R names_NoDup n A p t I H) as (t' & H' & G & _). exists t'. rewrite F. split; [|exact G].
    apply asked_tasks. exists n, A. split; [exact I|]. split; [exact Nn | exact H'].
  - intros p G. rewrite F in G. destruct (string_dec (base p) Bus) as [Eb|Nb].
    + right. destruct (base_suffix p) as (q & Q). exists q. rewrite Eb in Q. exact Q.
    + left. destruct (in_dec string_dec p (concat pss)) as [I|NI].
      * apply Il. split; [exact I|]. intros Qb. apply Nb. pose proof (named_concat_base _ _ NM p I) as J.
        destruct (string_dec (base p) Bus) as [Eb|Nb']; [exact Eb|]. exfalso. unfold names in J. cbn [In] in J. destruct J as [J|J]; [symmetry in J; contradiction|].
        revert Qb. apply (bus_file_base p (base p) eq_refl). repeat (destruct J as [<-|J]; [reflexivity|]). destruct J.
      * rewrite (Run_back _ _ _ _ R p Nb NI) in G. exfalso. apply G. reflexivity.
Qed.
Print Assumptions C68_output.

(** What a file needs is redirected before it: wire data and cables before the geometries, those before the lines, the
    line codes before the lines (of the same feeder, or when the lines are not in the base folder), the transformers
    before the regulators, the load shapes before the loads. *)
Theorem C68_dependencies : forall sepf seps order net o' l b,
  (forall l, Permutation (order l) l) -> writable sepf seps net -> writable_nodes sepf seps net ->
  write_network sepf seps order out0 net = Ok (o', (l, b)) ->
  (forall p q s f, In (p, q) [("WireData.dss", "LineGeometry.dss"); ("CNData.dss", "LineGeometry.dss"); ("LineGeometry.dss", place sepf seps "Lines.dss" s f)] ->
     In p l -> In q l -> before p q l) /\
  (forall s f s' f', used sepf seps (n_codes net) s f -> used sepf seps (n_lines net) s' f' ->
     (s = s' /\ f = f') \/ place sepf seps "Lines.dss" s' f' <> "Lines.dss" ->
     before (place sepf seps "LineCodes.dss" s f) (place sepf seps "Lines.dss" s' f') l) /\
  (forall s f s' f', used sepf seps (n_trans net) s f -> used sepf seps (n_regs net) s' f' ->
     before (place sepf seps "Transformers.dss" s f) (place sepf seps "Regulators.dss" s' f') l) /\
  (forall s f s' f', used sepf seps (n_shapes net) s f -> used sepf seps (n_loads net) s' f' ->
     before (place sepf seps "LoadShapes.dss" s f) (place sepf seps "Loads.dss" s' f') l).
Proof.
  intros sepf seps order net o' l b OP W Wn E. destruct (network_run sepf seps order OP net out0 W Wn) as (o1 & pss & o2 & E' & R & F & _ & _).
  rewrite E in E'. injection E' as <- M. symmetry in M.
  pose proof (Run_redirects _ _ _ _ R) as RR. cbn [out0 redirects app] in RR.
  pose proof (Run_named _ _ _ _ R) as NM. rewrite tasks_names in NM. pose proof (named_NoDup _ _ NM names_NoDup) as N. rewrite RR in M.
  destruct (master_In _ _ _ N M) as [Nl Il].
  assert (Uin : forall file objs s f, In (file, Asec sepf seps file objs) (tasks sepf seps net) -> used sepf seps objs s f -> In (place sepf seps file s f) (concat pss)).
  { intros file objs s f I U. destruct (content_ex sepf seps s f objs) as (t & C).
    destruct (Run_content _ _ _ _ R names_NoDup _ _ (place sepf seps file s f) t I) as (_ & _ & _ & Ip); [exists s, f; repeat split; assumption | exact Ip]. }
  assert (NS : forall n, In n names -> n <> Bus -> noslash n).
  { intros n I Nn. unfold names in I. cbn [In] in I. destruct I as [<-|I]; [contradiction|]. repeat (destruct I as [<-|I]; [cbn; repeat (split; [intros Q; discriminate Q|]); exact Logic.I|]). destruct I. }
  assert (NBF : forall p n, base p = n -> In n names -> n <> Bus -> ~ bus_file p).
  { intros p n Bp I Nn. apply (bus_file_base p n Bp). unfold names in I. cbn [In] in I. destruct I as [I|I]; [congruence|]. repeat (destruct I as [<-|I]; [reflexivity|]). destruct I. }
  assert (Key : forall p q a c, base p = a -> base q = c -> before a c names -> a <> Bus -> c <> Bus -> In p (concat pss) -> In q (concat pss) ->
    (In p first_files -> In q first_files -> before p q first_files) -> (In q first_files -> In p first_files) -> before p q l).
  { intros p q a c Ba Bc Bac Na Nc Ip Iq H1 H2. apply (master_before (concat pss) l b p q N M); try assumption.
    - exact (named_before names pss a c p q NM names_NoDup Bac Ba Bc Ip Iq).
    - exact (NBF p a Ba (before_In_l _ _ _ Bac) Na).
    - exact (NBF q c Bc (before_In_r _ _ _ Bac) Nc). }
  (* a path in the list of the first files has no folder *)
  assert (Ff : forall x, In x first_files -> base x = x).
  { intros x I. unfold first_files in I. cbn [In] in I. repeat (destruct I as [<-|I]; [reflexivity|]). destruct I. }
  assert (Bfirst : forall i j, i < j < 6 -> forall a c, nth_error first_files i = Some a -> nth_error first_files j = Some c -> before a c first_files).
  { intros i j Hij a c Ha Hc. apply nth_error_split in Ha. destruct Ha as (l1 & l2 & Q & Len). rewrite Q in Hc |- *.
    rewrite nth_error_app2 in Hc by lia. replace (j - length l1) with (S (j - S i)) in Hc by lia. cbn in Hc.
    apply nth_error_In in Hc. apply in_split in Hc. destruct Hc as (l3 & l4 & ->). exists l1, l3, l4. reflexivity. }
  repeat apply conj.
  - intros p q s f I Ip Iq. apply Il in Ip. apply Il in Iq. destruct Ip as [Ip _]. destruct Iq as [Iq _].
    destruct I as [I|[I|[I|[]]]]; injection I as <- <-.
    + apply (Key _ _ "WireData.dss" "LineGeometry.dss"); try reflexivity; try assumption; try (intros Q; discriminate Q).
      * exists [Bus; "Transformers.dss"; "Regulators.dss"; "LoadShapes.dss"; "Loads.dss"], ["CNData.dss"], ["LineCodes.dss"; "Lines.dss"; "Capacitors.dss"; "Storage.dss"; "PVSystems.dss"]. reflexivity.
      * intros _ _. apply (Bfirst 0 2); [lia | reflexivity | reflexivity].
      * intros _. cbn. auto.
    + apply (Key _ _ "CNData.dss" "LineGeometry.dss"); try reflexivity; try assumption; try (intros Q; discriminate Q).
      * exists [Bus; "Transformers.dss"; "Regulators.dss"; "LoadShapes.dss"; "Loads.dss"; "WireData.dss"], [], ["LineCodes.dss"; "Lines.dss"; "Capacitors.dss"; "Storage.dss"; "PVSystems.dss"]. reflexivity.
      * intros _ _. apply (Bfirst 1 2); [lia | reflexivity | reflexivity].
      * intros _. cbn. auto.
    + assert (Bl : base (place sepf seps "Lines.dss" s f) = "Lines.dss") by (apply base_place; apply NS; [cbn; auto 20 | intros Q; discriminate Q]).
      apply (Key _ _ "LineGeometry.dss" "Lines.dss"); try reflexivity; try assumption; try (intros Q; discriminate Q).
      * exists [Bus; "Transformers.dss"; "Regulators.dss"; "LoadShapes.dss"; "Loads.dss"; "WireData.dss"; "CNData.dss"], ["LineCodes.dss"], ["Capacitors.dss"; "Storage.dss"; "PVSystems.dss"]. reflexivity.
      * intros _ J. apply Ff in J. rewrite Bl in J. rewrite <- J. apply (Bfirst 2 4); [lia | reflexivity | reflexivity].
      * intros _. cbn. auto.
  - intros s f s' f' U U' H.
    assert (Bc : base (place sepf seps "LineCodes.dss" s f) = "LineCodes.dss") by (apply base_place; apply NS; [cbn; auto 20 | intros Q; discriminate Q]).
    assert (Bl : base (place sepf seps "Lines.dss" s' f') = "Lines.dss") by (apply base_place; apply NS; [cbn; auto 20 | intros Q; discriminate Q]).
    apply (Key _ _ "LineCodes.dss" "Lines.dss"); try assumption; try (intros Q; discriminate Q).
    + exists [Bus; "Transformers.dss"; "Regulators.dss"; "LoadShapes.dss"; "Loads.dss"; "WireData.dss"; "CNData.dss"; "LineGeometry.dss"], [], ["Capacitors.dss"; "Storage.dss"; "PVSystems.dss"]. reflexivity.
    + apply (Uin "LineCodes.dss" (n_codes net)); [unfold tasks, sections1, sections2; cbn [map app fst snd In]; auto 20 | exact U].
    + apply (Uin "Lines.dss" (n_lines net)); [unfold tasks, sections1, sections2; cbn [map app fst snd In]; auto 20 | exact U'].
    + intros J J'. apply Ff in J. apply Ff in J'. rewrite Bc in J. rewrite Bl in J'. rewrite <- J, <- J'. apply (Bfirst 3 4); [lia | reflexivity | reflexivity].
    + intros J. apply Ff in J. rewrite Bl in J. destruct H as [[-> ->]|H]; [|symmetry in J; contradiction].
      assert (X : place sepf seps "LineCodes.dss" s' f' = "LineCodes.dss"); [|rewrite X; cbn; auto].
      unfold place in *. destruct (filter _ _) as [|x [|y r]]; [reflexivity| |].
      * exfalso. cbn [app String.concat] in J. assert (hasslash "Lines.dss" = true) by (rewrite J, !hasslash_app; cbn; now rewrite Bool.orb_true_r). discriminate.
      * exfalso. cbn [app String.concat] in J. assert (hasslash "Lines.dss" = true) by (rewrite J, !hasslash_app; cbn; now rewrite Bool.orb_true_r). discriminate.
  - intros s f s' f' U U'.
    assert (Bc : base (place sepf seps "Transformers.dss" s f) = "Transformers.dss") by (apply base_place; apply NS; [cbn; auto 20 | intros Q; discriminate Q]).
    assert (Bl : base (place sepf seps "Regulators.dss" s' f') = "Regulators.dss") by (apply base_place; apply NS; [cbn; auto 20 | intros Q; discriminate Q]).
    assert (NI : ~ In (place sepf seps "Regulators.dss" s' f') first_files).
    { intros J. pose proof J as J2. apply Ff in J. rewrite Bl in J. rewrite <- J in J2. cbn in J2. repeat (destruct J2 as [J2|J2]; [discriminate J2|]). destruct J2. }
    apply (Key _ _ "Transformers.dss" "Regulators.dss"); try assumption; try (intros Q; discriminate Q).
    + exists [Bus], [], ["LoadShapes.dss"; "Loads.dss"; "WireData.dss"; "CNData.dss"; "LineGeometry.dss"; "LineCodes.dss"; "Lines.dss"; "Capacitors.dss"; "Storage.dss"; "PVSystems.dss"]. reflexivity.
    + apply (Uin "Transformers.dss" (n_trans net)); [unfold tasks, sections1, sections2; cbn [map app fst snd In]; auto 20 | exact U].
    + apply (Uin "Regulators.dss" (n_regs net)); [unfold tasks, sections1, sections2; cbn [map app fst snd In]; auto 20 | exact U'].
    + intros _ J. contradiction.
    + intros J. contradiction.
  - intros s f s' f' U U'.
    assert (Bc : base (place sepf seps "LoadShapes.dss" s f) = "LoadShapes.dss") by (apply base_place; apply NS; [cbn; auto 20 | intros Q; discriminate Q]).
    assert (Bl : base (place sepf seps "Loads.dss" s' f') = "Loads.dss") by (apply base_place; apply NS; [cbn; auto 20 | intros Q; discriminate Q]).
    assert (NI : ~ In (place sepf seps "Loads.dss" s' f') first_files).
    { intros J. pose proof J as J2. apply Ff in J. rewrite Bl in J. rewrite <- J in J2. cbn in J2. repeat (destruct J2 as [J2|J2]; [discriminate J2|]). destruct J2. }
    apply (Key _ _ "LoadShapes.dss" "Loads.dss"); try assumption; try (intros Q; discriminate Q).
    + exists [Bus; "Transformers.dss"; "Regulators.dss"], [], ["WireData.dss"; "CNData.dss"; "LineGeometry.dss"; "LineCodes.dss"; "Lines.dss"; "Capacitors.dss"; "Storage.dss"; "PVSystems.dss"]. reflexivity.
    + apply (Uin "LoadShapes.dss" (n_shapes net)); [unfold tasks, sections1, sections2; cbn [map app fst snd In]; auto 20 | exact U].
    + apply (Uin "Loads.dss" (n_loads net)); [unfold tasks, sections1, sections2; cbn [map app fst snd In]; auto 20 | exact U'].
    + intros _ J. contradiction.
    + intros J. contradiction.
Qed.
Print Assumptions C68_dependencies.

(** Bus coordinates: the file in the base folder has the line of every node with a name and coordinates, once; the master
    file names it exactly when there are such nodes. *)
Theorem C68_buses : forall sepf seps order net o' l b,
  (forall l, Permutation (order l) l) -> writable sepf seps net -> writable_nodes sepf seps net ->
  write_network sepf seps order out0 net = Ok (o', (l, b)) ->
  (b = true <-> exists n t, In n (n_nodes net) /\ o_txt n = Some t) /\
  (b = true -> exists t, all_buses sepf seps net t /\ dget (files o') "Buscoords.dss" = Some t).
Proof.
  intros sepf seps order net o' l b OP W Wn E. destruct (network_run sepf seps order OP net out0 W Wn) as (o1 & pss & o2 & E' & R & F & _ & _).
  rewrite E in E'. injection E' as <- M. symmetry in M.
  pose proof (Run_redirects _ _ _ _ R) as RR. cbn [out0 redirects app] in RR.
  pose proof (Run_named _ _ _ _ R) as NM. rewrite tasks_names in NM. pose proof (named_NoDup _ _ NM names_NoDup) as N. rewrite RR in M.
  destruct (master_eq _ N) as (l' & b' & M' & _ & Bb & _). rewrite M in M'. injection M' as <- <-.
  set (ns := filter named (n_nodes net)).
  assert (T0 : In (Bus, Abus sepf seps ns) (tasks sepf seps net)) by (left; reflexivity).
  assert (Wt : In Bus (concat pss) -> exists t, Abus sepf seps ns Bus t).
  { intros I. destruct (Run_todo _ _ _ _ R Bus I) as (n & A & t & J & H). exists t.
    unfold tasks, sections1, sections2 in J. cbn [map app fst snd In] in J. destruct J as [J|J]; [injection J as <- <-; exact H|]. exfalso.
    do 4 (destruct J as [J|J]; [injection J as <- <-; destruct H as (s & f & _ & Q & _); apply (f_equal base) in Q; rewrite base_place in Q by (cbn; repeat (split; [intros Z; discriminate Z|]); exact Logic.I); discriminate Q|]).
    do 3 (destruct J as [J|J]; [injection J as <- <-; destruct H as (Q & _); discriminate Q|]).
    do 5 (destruct J as [J|J]; [injection J as <- <-; destruct H as (s & f & _ & Q & _); apply (f_equal base) in Q; rewrite base_place in Q by (cbn; repeat (split; [intros Z; discriminate Z|]); exact Logic.I); discriminate Q|]).
    destruct J. }
  split.
  - rewrite Bb. split.
    + intros I. destruct (Wt I) as (t & Nn & _). destruct ns as [|x r] eqn:En; [contradiction|].
      assert (J : In x ns) by (rewrite En; left; reflexivity). apply filter_In in J. destruct J as [J K]. unfold named in K.
      destruct (o_txt x) as [u|] eqn:T; [|discriminate K]. exists x, u. split; [exact J | exact T].
    + intros (n & u & J & T).
      assert (K : In n ns) by (apply filter_In; split; [exact J | unfold named; rewrite T; reflexivity]).
      destruct (bus_step sepf seps order OP (n_nodes net) out0 (Wn _ eq_refl)) as (ps & ob & _ & Sb & _). fold ns in Sb.
      destruct Sb as (_ & _ & _ & S4 & _).
      assert (A : exists t, Abus sepf seps ns Bus t).
      { (* the step writes the file when there is a node *)
        destruct (Wn _ eq_refl) as (h1 & h2 & h3).
        destruct (collected sepf seps Bus order OP ns h1 h2 h3) as (stm & ftm & txt & _ & _ & _ & _ & Nf & If & Cf & _).
        eexists. split; [intros Q; rewrite Q in K; destruct K|]. split; [reflexivity|].
        exists (map (fun g => (g, txt (fst g) (snd g))) (flat order stm)). split; [apply FinFun.Injective_map_NoDup; [intros x y Q; injection Q; auto | exact Nf]|].
        split; [intros s f; rewrite map_map; cbn; rewrite map_id; apply If|]. split; [|reflexivity].
        intros s f v Jv. apply in_map_iff in Jv. destruct Jv as ([s' f'] & Q & Jv). injection Q as -> -> <-. cbn. apply Cf. apply If. exact Jv. }
      destruct A as (t & At). destruct (Run_content _ _ _ _ R names_NoDup _ _ Bus t T0 At) as (_ & _ & _ & Ib). exact Ib.
  - intros Tb. apply Bb in Tb. destruct (Wt Tb) as (t & At). destruct (Run_content _ _ _ _ R names_NoDup _ _ Bus t T0 At) as (t' & At' & G & _).
    exists t'. rewrite F. split; [|exact G]. destruct At' as (_ & _ & At'). exact At'.
Qed.
Print Assumptions C68_buses.

(** The master file of a feeder redirects to the file of each section that has objects in the folder of the feeder, in a
    fixed order; never to wire data, cables and geometries. *)
Theorem C68_feeder : forall seps order net o' l b k,
  (forall l, Permutation (order l) l) -> writable true seps net -> writable_nodes true seps net ->
  write_network true seps order out0 net = Ok (o', (l, b)) ->
  exists keep, (forall sec, In sec (sections net) -> keep sec = true <-> exists s f, used true seps (snd sec) s f /\ k = folder s f) /\
    match dget (fee_redirects o') k with Some r => r | None => [] end = map fst (filter keep (sections net)).
Proof.
  intros seps order net o' l b k OP W Wn E. exists (keep seps k). split; [intros sec _; apply keep_spec|].
  pose proof (network_fee seps order OP k net out0 o' (l, b) W Wn E) as Q. cbn in Q. exact Q.
Qed.
Print Assumptions C68_feeder.

Lemma used_cons sepf seps o r s f : used sepf seps (o :: r) s f <-> home sepf seps o s f \/ used sepf seps r s f.
Proof.
  split.
  - intros (x & [<-|I] & H); [left; exact H | right; exists x; split; assumption].
  - intros [H|(x & I & H)]; [exists o; split; [left; reflexivity | exact H] | exists x; split; [right; exact I | exact H]].
Qed.
Lemma one_obj sepf seps file s0 f0 t : home sepf seps (mkObj (Some s0) (Some f0) (Some t)) s0 f0 -> t <> "" ->
  something sepf seps [mkObj (Some s0) (Some f0) (Some t)] /\ told_apart sepf seps file [mkObj (Some s0) (Some f0) (Some t)] /\ plain_substations sepf seps [mkObj (Some s0) (Some f0) (Some t)].
Proof.
  intros H N. assert (U : forall s f, used sepf seps [mkObj (Some s0) (Some f0) (Some t)] s f -> s = s0 /\ f = f0).
  { intros s f (x & [<-|[]] & H'). apply home_group in H. apply home_group in H'. split; congruence. }
  split; [|split].
  - intros s f X. destruct (U s f X) as [-> ->]. exists (mkObj (Some s0) (Some f0) (Some t)), t. split; [left; reflexivity|]. split; [exact H|]. split; [reflexivity | exact N].
  - intros s f s' f' X X' _. destruct (U s f X) as [-> ->]. destruct (U s' f' X') as [-> ->]. split; reflexivity.
  - intros s f f' X X' Ne. destruct (U s f X) as [-> ->]. destruct (U s0 f' X') as [_ ->]. contradiction.
Qed.
Lemma no_obj sepf seps file : something sepf seps [] /\ told_apart sepf seps file [] /\ plain_substations sepf seps [].
Proof.
  split; [|split].
  - intros s f (x & [] & _).
  - intros s f s' f' (x & [] & _).
  - intros s f f' (x & [] & _).
Qed.

(** Lines written with geometries of a network with separate feeders. *)
Definition ex_line := mkObj (Some "s1") (Some "f1") (Some "New Line.l").
Definition ex_net := mkNet [mkObj (Some "s1") (Some "f1") (Some "n,0,0"); mkObj (Some "s1") (Some "f1") None] [] [] [] [mkObj (Some "s1") (Some "f1") (Some "New Load.x")]
  "New WireData.w" "" "New LineGeometry.g" [] [ex_line] [] [] [].
Lemma ex_writable : writable true true ex_net /\ writable_nodes true true ex_net.
Proof.
  split.
  - intros file objs I. unfold sections, ex_net in I. cbn in I.
    repeat (destruct I as [I|I]; [injection I as <- <-; first [apply no_obj | apply one_obj; [apply home_group; reflexivity | intros Q; discriminate Q]]|]). destruct I.
  - intros nodes ->. cbn. apply one_obj; [apply home_group; reflexivity | intros Q; discriminate Q].
Qed.

(** The master file of a feeder is not complete: its lines refer to geometries it does not redirect to. *)
Theorem C68_feeder_master_refuted : exists net o' l b, writable true true net /\ writable_nodes true true net /\
  write_network true true (fun l => l) out0 net = Ok (o', (l, b)) /\
  dget (fee_redirects o') "s1/f1" = Some ["Loads.dss"; "Lines.dss"] /\ n_geoms net = "New LineGeometry.g".
Proof.
  exists ex_net. eexists. eexists. eexists. split; [apply ex_writable|]. split; [apply ex_writable|]. split; [vm_compute; reflexivity|]. split; reflexivity.
Qed.
Print Assumptions C68_feeder_master_refuted.

(** A writer used a second time redirects twice. *)
Theorem C68_second_refuted : exists net o1 o2 l b l' b', writable true true net /\ writable_nodes true true net /\
  write_network true true (fun l => l) out0 net = Ok (o1, (l, b)) /\ write_network true true (fun l => l) o1 net = Ok (o2, (l', b')) /\
  count_occ string_dec l "s1/f1/Loads.dss" = 1 /\ count_occ string_dec l' "s1/f1/Loads.dss" = 2.
Proof.
  exists ex_net. do 6 eexists. split; [apply ex_writable|]. split; [apply ex_writable|]. split; [vm_compute; reflexivity|]. split; [vm_compute; reflexivity|]. split; reflexivity.
Qed.
Print Assumptions C68_second_refuted.

Example C68_hypotheses_met : exists o', writable true true ex_net /\ writable_nodes true true ex_net /\
  write_network true true (fun l => l) out0 ex_net = Ok (o', (["WireData.dss"; "LineGeometry.dss"; "s1/f1/Loads.dss"; "s1/f1/Lines.dss"], true)).
Proof. eexists. split; [apply ex_writable|]. split; [apply ex_writable|]. vm_compute. reflexivity. Qed.
