(** Theorems about the load shapes of the OpenDSS script (C88). *)
From Verif Require Import Base BaseFacts CsvModel DssNameModel DssCodeModel DssFileModel DssTextModel DssShapeModel DssNameSpec DssFileSpec DssTextSpec DssLoadSpec DssShapeSpec
  DssFileProofs DssFileProps DssTextProofs DssLoadProofs DssRegProofs DssStoreProofs DssPvProofs DssShapeProofs DssTextProps.
From Coq Require Import QArith Lia Permutation.
Local Open Scope string_scope.
Local Open Scope nat_scope.
Local Open Scope list_scope.

Lemma write_eq show points sepf seps file order o ts :
  (forall l, Permutation (order l) l) -> Forall good_series ts -> told_apart sepf seps file (map place_of ts) -> plain_substations sepf seps (map place_of ts) ->
  exists w ftm os o', tagged show points sepf seps [] ts os /\ after points sepf seps ts w ftm /\ write_section sepf seps file order o os = Ok o' /\
    write_timeseries show points false sepf seps file order shapes0 o ts = Ok (w, o') /\
    something sepf seps os /\ told_apart sepf seps file os /\ plain_substations sepf seps os.
Proof.
  intros OP G TA PS. destruct (loop_ok show points sepf seps file ts [] shapes0 None ([], []) (after_nil points sepf seps) G) as (w & nm & os & E & A & T).
  assert (US : forall s f, used sepf seps os s f -> used sepf seps (map place_of ts) s f).
  { intros s f U. apply used_spots in U. now rewrite (tagged_spots _ _ _ _ _ _ _ T) in U. }
  assert (SO : something sepf seps os) by exact (tagged_something show points sepf seps file ts os T G TA).
  assert (TA' : told_apart sepf seps file os) by (intros s f s' f' U U'; apply TA; apply US; assumption).
  assert (PS' : plain_substations sepf seps os) by (intros s f f' U U'; apply (PS s f f'); apply US; assumption).
  destruct (C67_files sepf seps file order o os OP SO TA' PS') as (o' & W & _).
  exists w, (snd (fold_left (collect1 sepf seps) os ([], []))), os, o'. split; [exact T|]. split; [exact A|]. split; [exact W|]. split; [|split; [exact SO | split; [exact TA' | exact PS']]].
  unfold write_timeseries. match type of E with ?a = _ => match goal with |- bind ?b _ = _ => change b with a end end. rewrite E. cbn [bind].
  unfold write_section, collect in W. destruct (fold_left (collect1 sepf seps) os ([], [])) as [stm ftm].
  cbn [fst snd]. rewrite W. reflexivity.
Qed.
Lemma file_of show num points sepf seps file order o ts os o' s f : faithful show num ->
  (forall l, Permutation (order l) l) -> Forall good_series ts -> told_apart sepf seps file (map place_of ts) -> tagged show points sepf seps [] ts os ->
  something sepf seps os -> told_apart sepf seps file os -> plain_substations sepf seps os ->
  write_section sepf seps file order o os = Ok o' -> used sepf seps (map place_of ts) s f ->
  exists t ms fs els, dget (files o') (place sepf seps file s f) = Some t /\ members sepf seps s f ts ms /\ firsts [] ms fs /\
    read_dss t = Some els /\ Forall2 (shape_is num points) fs els.
Proof.
  intros FS OP G TA T SO TA' PS' W U. destruct (C67_files sepf seps file order o os OP SO TA' PS') as (o1 & W1 & F & _).
  assert (o1 = o') by congruence. subst o1. rewrite <- (tagged_spots _ _ _ _ _ _ _ T) in U. apply used_spots in U. destruct (F s f U) as (t & C & D).
  destruct (content_reads show num FS points sepf seps file s f [] ts os T t []) as (ms & fs & els & M & Fs & R & Sh).
  - intros i j Ii Ij H K. exact (key_home sepf seps file ts i j s f TA Ii Ij H K).
  - intros x. split; [intros [] | intros (j & [] & _)].
  - exact G.
  - exact C.
  - exists t, ms, fs, els. split; [exact D|]. split; [exact M|]. split; [exact Fs|]. split; [|exact Sh]. exact (reads_whole _ _ R).
Qed.

(** The file of each group is read as the load shapes of its series, each data file once, with the name, the number of
    points and the interval of the first series that uses it; other files are left alone. *)
Theorem C88_shapes : forall show num points sepf seps file order o ts,
  faithful show num -> (forall l, Permutation (order l) l) -> Forall good_series ts ->
  told_apart sepf seps file (map place_of ts) -> plain_substations sepf seps (map place_of ts) ->
  exists w o', write_timeseries show points false sepf seps file order shapes0 o ts = Ok (w, o') /\
    (forall s f, used sepf seps (map place_of ts) s f -> exists t ms fs els,
      dget (files o') (place sepf seps file s f) = Some t /\ members sepf seps s f ts ms /\ firsts [] ms fs /\
      read_dss t = Some els /\ Forall2 (shape_is num points) fs els /\ (same_data ts -> NoDup (map e_name els))) /\
    (forall p, (forall s f, used sepf seps (map place_of ts) s f -> p <> place sepf seps file s f) -> dget (files o') p = dget (files o) p) /\
    exists ps, redirects o' = redirects o ++ ps /\ NoDup ps /\
      forall p, In p ps <-> exists s f, used sepf seps (map place_of ts) s f /\ p = place sepf seps file s f.
Proof.
  intros show num points sepf seps file order o ts FS OP G TA PS.
  destruct (write_eq show points sepf seps file order o ts OP G TA PS) as (w & ftm & os & o' & T & A & W & E & SO & TA' & PS').
  exists w, o'. split; [exact E|].
  assert (US : forall s f, used sepf seps os s f <-> used sepf seps (map place_of ts) s f).
  { intros s f. rewrite used_spots. now rewrite (tagged_spots _ _ _ _ _ _ _ T). }
  split.
  - intros s f U. destruct (file_of show num points sepf seps file order o ts os o' s f FS OP G TA T SO TA' PS' W U) as (t & ms & fs & els & D & M & F & R & Sh).
    exists t, ms, fs, els. split; [exact D|]. split; [exact M|]. split; [exact F|]. split; [exact R|]. split; [exact Sh|]. intros SD.
    apply (shapes_NoDup num points fs els Sh (firsts_NoDup _ _ _ F)). intros i j Ii Ij.
    apply SD; [destruct (firsts_In _ _ _ F i Ii) as [X _] | destruct (firsts_In _ _ _ F j Ij) as [X _]]; apply (members_In _ _ _ _ _ _ M) in X; apply X.
  - destruct (C67_files sepf seps file order o os OP SO TA' PS') as (o1 & W1 & _ & F2 & ps & P1 & P2 & P3). assert (o1 = o') by congruence. subst o1. split.
    + intros p H. apply F2. intros s f U. apply H. now apply US.
    + exists ps. split; [exact P1|]. split; [exact P2|]. intros p. rewrite P3. split; intros (s & f & U & ->); exists s, f; (split; [now apply US | reflexivity]).
Qed.
Print Assumptions C88_shapes.

(** A series is known to the writers of loads and PV systems by its own names when both levels are separated (or it has
    no such name): the load shape that they mention is one of the file of its group and has the data of the series. *)
Definition own_group (sepf seps : bool) (t : series) : Prop := (sepf = true \/ ts_fee t = None) /\ (seps = true \/ ts_sub t = None).
Lemma own_key sepf seps i : own_group sepf seps (sh_of i) ->
  shape_key sepf seps i = (match ts_sub (sh_of i) with Some x => x | None => "DEFAULT" end ++ "_" ++ match ts_fee (sh_of i) with Some x => x | None => "DEFAULT" end)%string.
Proof.
  intros [F S]. unfold shape_key, DssCodeModel.group, group_key. destruct F as [->|F], S as [->|S]; rewrite ?F, ?S;
    [destruct (ts_fee (sh_of i)), (ts_sub (sh_of i)) | destruct (ts_fee (sh_of i)), seps | destruct sepf, (ts_sub (sh_of i)) | destruct sepf, seps]; reflexivity.
Qed.
Theorem C88_used : forall show num points sepf seps file order o ts w o',
  faithful show num -> (forall l, Permutation (order l) l) -> Forall good_series ts ->
  told_apart sepf seps file (map place_of ts) -> plain_substations sepf seps (map place_of ts) -> same_data ts ->
  write_timeseries show points false sepf seps file order shapes0 o ts = Ok (w, o') ->
  forall i, In i ts -> own_group sepf seps (sh_of i) -> exists s f t els e l k,
    home sepf seps (place_of i) s f /\ dget (files o') (place sepf seps file s f) = Some t /\ read_dss t = Some els /\
    In e els /\ e_class e = "Loadshape" /\ ts_loc (sh_of i) = Some l /\ data_file e "mult" l /\
    shape (w_data w) (w_fmt w) (sh_of i) k (e_name e) /\ token (e_name e) /\
    ((one_day (points l) /\ k = "daily") \/ (~ one_day (points l) /\ k = "yearly")).
Proof.
  intros show num points sepf seps file order o ts w o' FS OP G TA PS SD E i Ii Own.
  destruct (write_eq show points sepf seps file order o ts OP G TA PS) as (w1 & ftm & os & o1 & T & A & W & E1 & SO & TA' & PS').
  rewrite E in E1. injection E1 as <- <-. destruct (home_ex sepf seps (place_of i)) as (s & f & H).
  assert (U : used sepf seps (map place_of ts) s f) by (exists (place_of i); split; [now apply in_map | exact H]).
  destruct (file_of show num points sepf seps file order o ts os o' s f FS OP G TA T SO TA' PS' W U) as (t & ms & fs & els & D & M & F & R & Sh).
  destruct (af_have _ _ _ _ _ _ A i Ii) as (d & l & n & L & Dd & Dn). destruct (af_data _ _ _ _ _ _ A _ _ _ _ Dd Dn) as (a & j & b & Ts & K & Lj & Nj & Fi).
  assert (Ij : In j ts) by (rewrite Ts; apply in_elt).
  assert (Hj : home sepf seps (place_of j) s f) by exact (key_home sepf seps file ts i j s f TA Ii Ij H K).
  assert (Jf : In j fs).
  { clear - M F Ts Fi Hj. revert Ts Fi M F. 
    enough (X : forall ts ms L, members sepf seps s f ts ms -> firsts L ms fs -> (forall a b, ts = a ++ j :: b -> ~ In (ts_loc (sh_of j)) L ->
      (forall x, In x a -> home sepf seps (place_of x) s f -> ts_loc (sh_of x) <> ts_loc (sh_of j)) -> In j fs)).
    { intros Ts Fi M F. apply (X ts ms [] M F a b Ts); [intros [] |]. intros x Ix Hx Q. apply Fi. exists x. split; [exact Ix|]. split; [|exact Q].
      rewrite (home_key _ _ _ _ _ Hx), (home_key _ _ _ _ _ Hj). reflexivity. }
    clear - Hj. intros ts ms L M. revert L fs. induction M as [|i r l Hi M IH|i r l Hi M IH]; intros L fs F a b Q N X.
    - destruct a; discriminate.
    - destruct a as [|y a]; injection Q as -> Q.
      + inversion F as [|? ? ? fs' N' F'|? ? ? fs' N' F']; subst; [left; reflexivity | contradiction].
      + inversion F as [|? ? ? fs' N' F'|? ? ? fs' N' F']; subst.
        * right. apply (IH _ _ F' a b eq_refl); [|intros x Ix; apply X; right; exact Ix]. intros [C|C]; [|exact (N C)]. exact (X y (or_introl eq_refl) Hi C).
        * apply (IH _ _ F' a b eq_refl N). intros x Ix. apply X. right. exact Ix.
    - destruct a as [|y a]; injection Q as -> Q; [contradiction|]. subst r. apply (IH _ _ F a b eq_refl N). intros x Ix. apply X. right. exact Ix. }
  assert (He : exists e, In e els /\ shape_is num points j e).
  { clear - Sh Jf. induction Sh as [|y e fs els S _ IH]; [destruct Jf|]. destruct Jf as [<-|Jf]; [exists e; split; [left; reflexivity | exact S]|].
    destruct (IH Jf) as (e' & X & Y). exists e'. split; [right; exact X | exact Y]. }
  destruct He as (e & Ie & Se). assert (Nm : e_name e = n) by (pose proof (hi_name _ _ _ _ Se); congruence).
  destruct (hi_file _ _ _ _ Se) as (l' & Ll & Fl & _). assert (l' = l) by congruence. subst l'.
  destruct (af_fmts _ _ _ _ _ _ A _ _ _ _ Dd Dn) as (k & Fk). destruct (af_fmt _ _ _ _ _ _ A _ _ Fk) as (y & x & Iy & Ny & Ly & ->).
  assert (x = l). { pose proof (SD y j Iy Ij) as Q. rewrite Ny, Nj, Ly, Lj in Q. specialize (Q eq_refl). congruence. } subst x.
  exists s, f, t, els, e, l, (shape_format (points l)). rewrite Nm. split; [exact H|]. split; [exact D|]. split; [exact R|]. split; [exact Ie|].
  split; [exact (hi_class _ _ _ _ Se)|]. split; [exact L|]. split; [exact Fl|]. split; [|split].
  - exists l, d. split; [exact L|]. split; [|split; [rewrite <- (own_key sepf seps i Own); exact Dd | split; assumption]].
    rewrite Forall_forall in G. destruct (G i Ii) as ((m & Q & _) & _). congruence.
  - rewrite Forall_forall in G. destruct (G j Ij) as ((m & Q & Tk) & _). congruence.
  - apply shape_format_day.
Qed.
Print Assumptions C88_used.

(** Hence loads with these series can be written (C81). *)
Theorem C88_loads : forall show num points sepf seps file order o ts w o' ld,
  faithful show num -> (forall l, Permutation (order l) l) -> Forall good_series ts ->
  told_apart sepf seps file (map place_of ts) -> plain_substations sepf seps (map place_of ts) -> same_data ts ->
  write_timeseries show points false sepf seps file order shapes0 o ts = Ok (w, o') ->
  good_load [] [] (mkLoad (ld_name ld) (ld_conn ld) (ld_bus ld) (ld_kv ld) (ld_vmin ld) (ld_vmax ld) (ld_phases ld) []) ->
  (forall t, In t (ld_ts ld) -> exists i, In i ts /\ sh_of i = t /\ own_group sepf seps t) -> good_load (w_data w) (w_fmt w) ld.
Proof.
  intros show num points sepf seps file order o ts w o' ld FS OP G TA PS SD E (A & B & C & _) H. split; [exact A|]. split; [exact B|]. split; [exact C|].
  apply Forall_forall. intros t I. destruct (H t I) as (i & Ii & <- & Own).
  destruct (C88_used show num points sepf seps file order o ts w o' FS OP G TA PS SD E i Ii Own) as (s & f & x & els & e & l & k & _ & _ & _ & _ & _ & _ & _ & S & T & K).
  right. exists k, (e_name e). split; [exact S|]. split; [tauto | exact T].
Qed.
Print Assumptions C88_loads.

(** The number of steps of the simulation is the smallest number of points, and it is a yearly one unless every data file
    is one day. *)
Theorem C88_solve : forall show points sepf seps file order o ts w o',
  (forall l, Permutation (order l) l) -> Forall good_series ts -> ts <> [] ->
  told_apart sepf seps file (map place_of ts) -> plain_substations sepf seps (map place_of ts) ->
  write_timeseries show points false sepf seps file order shapes0 o ts = Ok (w, o') ->
  (exists m, w_iter w = Some m /\ (exists i l, In i ts /\ ts_loc (sh_of i) = Some l /\ m = points l) /\
     forall i l, In i ts -> ts_loc (sh_of i) = Some l -> m <= points l) /\
  ((w_solve w = Some "daily" /\ forall i l, In i ts -> ts_loc (sh_of i) = Some l -> one_day (points l)) \/
   (w_solve w = Some "yearly" /\ exists i l, In i ts /\ ts_loc (sh_of i) = Some l /\ ~ one_day (points l))).
Proof.
  intros show points sepf seps file order o ts w o' OP G Ne TA PS E.
  destruct (write_eq show points sepf seps file order o ts OP G TA PS) as (w1 & ftm & os & o1 & T & A & W & E1 & SO & TA' & PS').
  rewrite E in E1. injection E1 as <- <-. pose proof (af_iter _ _ _ _ _ _ A) as I. pose proof (af_solve _ _ _ _ _ _ A) as S. split.
  - destruct (w_iter w) as [m|]; [exists m; split; [reflexivity | exact I] | contradiction].
  - destruct (w_solve w) as [s|]; [|contradiction]. destruct S as (_ & [-> | ->] & Y).
    + left. split; [reflexivity|]. intros i l Ii L. destruct (day_cases (points l)) as [[D _]|[D _]]; [exact D|].
      assert (Q : "daily" = "yearly") by (apply Y; exists i, l; repeat split; assumption). discriminate Q.
    + right. split; [reflexivity|]. apply Y. reflexivity.
Qed.
Print Assumptions C88_solve.

(** *** What goes wrong *)
Definition with_data (i : tseries) : Prop := ts_loc (sh_of i) <> None /\ ts_label (sh_of i) <> None.
(** With remove_loadshapes no text is kept for the groups of the series, and the writer fails when it looks for it. *)
Theorem C88_removed_refuted : forall show points sepf seps file order w o ts,
  (forall l, Permutation (order l) l) -> ts <> [] -> Forall with_data ts ->
  write_timeseries show points true sepf seps file order w o ts = Err EKey.
Proof.
  intros show points sepf seps file order w o ts OP Ne G. unfold write_timeseries.
  assert (X : forall r w name stm, (stm <> [] \/ r <> []) -> (forall s fs, In (s, fs) stm -> fs <> []) -> Forall with_data r ->
    exists w' name' stm', foldM (shape_step show points true sepf seps) r (w, name, (stm, [])) = Ok (w', name', (stm', [])) /\ stm' <> [] /\
      forall s fs, In (s, fs) stm' -> fs <> []).
  { clear. induction r as [|i r IH]; intros w name stm N H G.
    - exists w, name, stm. destruct N as [N|N]; [|contradiction]. split; [reflexivity|]. split; assumption.
    - inversion G as [|? ? [L B] Gr]; subst.
      assert (E : exists w1 n1, shape_step show points true sepf seps (w, name, (stm, [])) i =
        Ok (w1, n1, collect1 sepf seps (stm, []) (mkObj (ts_sub (sh_of i)) (ts_fee (sh_of i)) None))).
      { unfold shape_step. destruct (ts_loc (sh_of i)) as [l|]; [|contradiction L; reflexivity].
        destruct (ts_label (sh_of i)) as [b|]; [|contradiction B; reflexivity]. cbn [snd].
        change (dmem (@nil (string * string)) (shape_key sepf seps i)) with false. rewrite andb_false_r. eexists. eexists. reflexivity. }
      destruct E as (w1 & n1 & E). cbn [foldM]. rewrite E. unfold collect1. cbn [o_txt o_fee o_sub]. apply IH; [left | | exact Gr].
      + assert (Y : forall (d : dict (list string)) k v, dset d k v <> []) by (intros d k v Q; destruct d as [|[k' v'] d]; cbn [dset] in Q; [discriminate Q | destruct (String.eqb k' k); discriminate Q]).
        destruct (dget stm _); apply Y.
      + intros s fs I. set (g := DssCodeModel.group sepf seps (ts_fee (sh_of i)) (ts_sub (sh_of i))) in *.
        assert (Y : forall (d : dict (list string)) k v, (forall s fs, In (s, fs) d -> fs <> []) -> v <> [] -> forall s fs, In (s, fs) (dset d k v) -> fs <> []).
        { clear. induction d as [|[k' v'] d IH]; intros k v H N s fs I; cbn [dset] in I; [destruct I as [Q|[]]; congruence|].
          destruct (String.eqb k' k); cbn [In] in I; (destruct I as [Q|I]; [try congruence|]).
          - apply (H s fs). right. exact I.
          - injection Q as <- <-. apply (H k' v'). left. reflexivity.
          - apply (IH k v (fun s fs I => H s fs (or_intror I)) N s fs I). }
        destruct (dget stm (fst g)) as [fs'|] eqn:D; revert s fs I; apply Y; try exact H; [|discriminate].
        destruct (smem (snd g) fs') eqn:M; [intros ->; discriminate M | destruct fs'; discriminate]. }
  destruct (X ts w None [] (or_intror Ne) (fun s fs (I : In (s, fs) []) => match I with end) G) as (w' & nm & stm & E & N & H).
  match type of E with ?a = _ => match goal with |- bind ?b _ = _ => change b with a end end. rewrite E. cbn [bind fst snd].
  destruct stm as [|[s fs] r]; [contradiction|]. unfold emit. cbn [foldM fst snd]. pose proof (H s fs (or_introl eq_refl)) as Nf.
  destruct (order fs) as [|f fs'] eqn:O; [pose proof (OP fs) as P; rewrite O in P; apply Permutation_nil in P; contradiction|]. reflexivity.
Qed.
Print Assumptions C88_removed_refuted.

(** A series with a scale factor cannot be written: its format has no interval. *)
Theorem C88_scaled_refuted : forall show points sepf seps file order o a i b q,
  Forall good_series a -> with_data i -> sh_scale i = Some q -> ~ (q == 1)%Q ->
  (forall j, In j a -> ts_loc (sh_of j) <> ts_loc (sh_of i)) ->
  write_timeseries show points false sepf seps file order shapes0 o (a ++ i :: b) = Err EKey.
Proof.
  intros show points sepf seps file order o a i b q G [L B] Sc Nq Nw. unfold write_timeseries.
  destruct (loop_ok show points sepf seps file a [] shapes0 None ([], []) (after_nil points sepf seps) G) as (w & nm & os & E & A & _).
  assert (X : foldM (shape_step show points false sepf seps) (a ++ i :: b) (shapes0, None, ([], [])) = Err EKey).
  { assert (FA : forall (l r : list tseries) s, foldM (shape_step show points false sepf seps) (l ++ r) s =
      bind (foldM (shape_step show points false sepf seps) l s) (fun s' => foldM (shape_step show points false sepf seps) r s')).
    { induction l as [|x l IH]; intros r s; [reflexivity|]. cbn [app foldM]. destruct (shape_step _ _ _ _ _ s x); [apply IH | reflexivity]. }
    rewrite FA. match type of E with ?x = _ => match goal with |- bind ?y _ = _ => change y with x end end. rewrite E. cbn [bind foldM].
    unfold shape_step. destruct (ts_loc (sh_of i)) as [l|] eqn:Ll; [|contradiction L; reflexivity]. destruct (ts_label (sh_of i)) as [n|] eqn:Ln; [|contradiction B; reflexivity].
    rewrite Sc. assert (Qn : Qeq_bool q 1 = false) by (destruct (Qeq_bool q 1) eqn:Q; [apply Qeq_bool_iff in Q; contradiction | reflexivity]). rewrite Qn.
    destruct (dmem _ l && dmem _ _) eqn:S; [|reflexivity]. exfalso. apply (after_seen points sepf seps a w _ i l n A Ll Ln) in S. destruct S as (j & Ij & _ & Q).
    apply (Nw j Ij). congruence. }
  match type of X with ?x = _ => match goal with |- bind ?y _ = _ => change y with x end end. rewrite X. reflexivity.
Qed.
Print Assumptions C88_scaled_refuted.

(** A first series without data file or without label stops the writer: the message about it needs a name. *)
Theorem C88_memory_refuted : forall show points removed sepf seps file order w o i ts,
  ~ with_data i -> write_timeseries show points removed sepf seps file order w o (i :: ts) = Err EName.
Proof.
  intros show points removed sepf seps file order w o i ts N. unfold write_timeseries. cbn [foldM]. unfold shape_step at 1.
  destruct (ts_loc (sh_of i)) eqn:L; [|reflexivity]. destruct (ts_label (sh_of i)) eqn:B; [|reflexivity]. exfalso. apply N. split; congruence.
Qed.
Print Assumptions C88_memory_refuted.

Definition pts (l : string) : nat := if String.eqb l "day.csv" then 24 else if String.eqb l "q.csv" then 24 else 365 * 24.
Definition ex_series (fee sub : option string) (label loc : string) : tseries := mkShape (mkTs fee sub (Some label) (Some loc)) None (Some (1 # 4)%Q) None.
Definition ex1 := ex_series (Some "f1") (Some "s1") "homes" "day.csv".
Definition ex2 := ex_series (Some "f1") (Some "s1") "shops" "year.csv".
Definition ex3 := ex_series (Some "f1") (Some "s1") "flats" "day.csv".
Definition ex4 := ex_series (Some "f2") (Some "s1") "homes" "day.csv".
Definition no_out : out := mkOut [] [] [] [].
Definition run (sepf seps : bool) (w : shapes) (o : out) ts := write_timeseries show_q pts false sepf seps "Loadshapes.dss" (fun l => l) w o ts.

(** The reactive power data are appended to the end of the data of the active power, without a property of their own. *)
Theorem C88_reactive_refuted : exists i e, sh_kvar i = Some "q.csv" /\ ts_loc (sh_of i) = Some "day.csv" /\
  read_dss (shape_text show_q pts i "homes" "day.csv") = Some [e] /\ prop e "qmult" = None /\ prop e "mult" = Some "(file=day.csv)q.csv".
Proof. exists (mkShape (mkTs None None (Some "homes") (Some "day.csv")) None None (Some "q.csv")). eexists. split; [reflexivity|]. split; [reflexivity|]. split; [vm_compute; reflexivity|]. split; reflexivity. Qed.
Print Assumptions C88_reactive_refuted.

(** Without a separation of the feeders, the shapes are kept under another key than the loads look for. *)
Theorem C88_separate_refuted : forall show points seps file order o i w o' fee ld fmts removed,
  good_series i -> ts_fee (sh_of i) = Some fee -> fee <> "DEFAULT" -> seps = true \/ ts_sub (sh_of i) = None ->
  write_timeseries show points false false seps file order shapes0 o [i] = Ok (w, o') ->
  ld_name ld <> None -> ld_ts ld = [sh_of i] ->
  load_text show (w_data w) fmts removed ld = Err EKey.
Proof.
  intros show points seps file order o i w o' fee ld fmts removed G F Nd S E Nm T.
  assert (A : after points false seps [i] w (snd (collect1 false seps ([], []) (mkObj (ts_sub (sh_of i)) (ts_fee (sh_of i)) (Some (text_of show points i)))))).
  { destruct (loop_ok show points false seps file [i] [] shapes0 None ([], []) (after_nil points false seps) (Forall_cons _ G (Forall_nil _))) as (w1 & nm & os & E1 & A & Tg).
    unfold write_timeseries in E. match type of E1 with ?a = _ => match type of E with bind ?b _ = _ => change b with a in E end end. rewrite E1 in E. cbn [bind] in E.
    destruct (emit _ _ _ _ _ _ o); [|discriminate E]. cbn [bind] in E. injection E as <- _.
    inversion Tg as [|? ? ? ? Sn Tr|? ? ? ? Sn Tr]; subst; [destruct Sn as (j & [] & _)|]. inversion Tr; subst. exact A. }
  assert (K : forall k d l n, dget (w_data w) k = Some d -> dget d l = Some n -> k = shape_key false seps i).
  { intros k d l n D M. destruct (af_data _ _ _ _ _ _ A _ _ _ _ D M) as (a & j & b & Q & Kj & _). destruct a as [|x a]; [injection Q as -> _; symmetry; exact Kj | destruct a; discriminate Q]. }
  unfold load_text. destruct (ld_name ld); [|contradiction Nm; reflexivity]. rewrite T. cbn [mapM].
  destruct G as ((n & N & _) & (l & L & _) & _). unfold series_text. rewrite N, L, F.
  match goal with |- context [dget (w_data w) ?k] => destruct (dget (w_data w) k) as [d|] eqn:D; [|reflexivity] end. cbn [of_opt bind].
  destruct (dget d l) as [m|] eqn:M; [|reflexivity]. exfalso. pose proof (K _ _ _ _ D M) as Q. unfold shape_key, DssCodeModel.group, group_key in Q. cbn [fst snd] in Q.
  rewrite F in Q. destruct (ts_sub (sh_of i)) as [sb|]; [destruct S as [-> | S]; [|discriminate S]|]; apply app_inj_s in Q; injection Q as Q; contradiction.
Qed.
Print Assumptions C88_separate_refuted.

Definition ex_file (r : res (shapes * out)) (p : string) : option (list element) :=
  match r with Ok (_, o) => match dget (files o) p with Some t => read_dss t | None => None end | Err _ => None end.
Definition twice := [ex1; ex_series (Some "f1") (Some "s1") "homes" "year.csv"].
(** Two data files with the same label give two load shapes with the same name. *)
Theorem C88_label_refuted : exists e e', ex_file (run true true shapes0 no_out twice) "s1/f1/Loadshapes.dss" = Some [e; e'] /\
  e_class e = "Loadshape" /\ e_class e' = "Loadshape" /\ e_name e = e_name e' /\ prop e "mult" <> prop e' "mult" /\
  exists w o, run true true shapes0 no_out twice = Ok (w, o) /\ dget (w_fmt w) (e_name e) = Some "yearly" /\ one_day (pts "day.csv").
Proof.
  eexists. eexists. split; [vm_compute; reflexivity|]. split; [reflexivity|]. split; [reflexivity|]. split; [reflexivity|]. split; [discriminate|].
  eexists. eexists. split; [vm_compute; reflexivity|]. split; [reflexivity|]. left. reflexivity.
Qed.
Print Assumptions C88_label_refuted.

Definition state_of (r : res (shapes * out)) : shapes := match r with Ok (w, _) => w | Err _ => shapes0 end.
(** A second write of the same network with the same writer loses all shapes but the first of each group: the writer
    remembers the data files of the first write. *)
Theorem C88_again_refuted : exists e e', ex_file (run true true shapes0 no_out [ex1; ex2]) "s1/f1/Loadshapes.dss" = Some [e; e'] /\
  ex_file (run true true (state_of (run true true shapes0 no_out [ex1; ex2])) no_out [ex1; ex2]) "s1/f1/Loadshapes.dss" = Some [e].
Proof. eexists. eexists. split; vm_compute; reflexivity. Qed.
Print Assumptions C88_again_refuted.

(** The hypotheses are met by a network with two feeders, a shared data file and a yearly one. *)
Definition ex_all := [ex1; ex2; ex3; ex4].
Lemma ex_used s f : used true true (map place_of ex_all) s f -> s = "s1" /\ (f = "f1" \/ f = "f2").
Proof.
  intros (o & I & H). apply home_group in H. cbn in I. repeat (destruct I as [<-|I]; [cbn in H; injection H as <- <-; tauto|]). destruct I.
Qed.
Example C88_hypotheses_met : Forall good_series ex_all /\ told_apart true true "Loadshapes.dss" (map place_of ex_all) /\
  plain_substations true true (map place_of ex_all) /\ same_data ex_all /\ Forall (fun i => own_group true true (sh_of i)) ex_all /\ Forall with_data ex_all.
Proof.
  split; [|split; [|split; [|split; [|split]]]].
  - repeat (apply Forall_cons); try apply Forall_nil; (split; [eexists; split; [reflexivity | split; [discriminate | reflexivity]]|]);
      (split; [eexists; split; reflexivity|]); split; try discriminate; reflexivity.
  - intros s f s' f' U U' H. apply ex_used in U as [-> [-> | ->]]; apply ex_used in U' as [-> [-> | ->]]; try (split; reflexivity); destruct H as [H|H]; vm_compute in H; discriminate H.
  - intros s f f' U _ _. apply ex_used in U as [-> _]. reflexivity.
  - intros i j Ii Ij. cbn [ex_all In] in Ii, Ij.
    repeat (destruct Ii as [<-|Ii]; [repeat (destruct Ij as [<-|Ij]; [cbn; intros Q; (reflexivity || discriminate Q)|]); destruct Ij|]). destruct Ii.
  - repeat (apply Forall_cons); try apply Forall_nil; split; left; reflexivity.
  - repeat (apply Forall_cons); try apply Forall_nil; split; discriminate.
Qed.
Example C88_example : exists a b c d,
  ex_file (run true true shapes0 no_out ex_all) "s1/f1/Loadshapes.dss" = Some [mkElement "Loadshape" "homes" a; mkElement "Loadshape" "shops" b] /\
  ex_file (run true true shapes0 no_out ex_all) "s1/f2/Loadshapes.dss" = Some [mkElement "Loadshape" "homes" c] /\
  w_iter (state_of (run true true shapes0 no_out ex_all)) = Some 24 /\ w_solve (state_of (run true true shapes0 no_out ex_all)) = Some d /\ d = "yearly".
Proof. eexists. eexists. eexists. eexists. split; [vm_compute; reflexivity|]. split; [vm_compute; reflexivity|]. split; [vm_compute; reflexivity|]. split; vm_compute; reflexivity. Qed.
