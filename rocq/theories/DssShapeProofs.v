(** The load shapes of the OpenDSS script. *)
From Verif Require Import Base BaseFacts CsvModel DssNameModel DssCodeModel DssFileModel DssTextModel DssShapeModel DssFileSpec DssTextSpec DssLoadSpec DssShapeSpec
  DssFileProofs DssTextProofs DssLoadProofs DssRegProofs DssStoreProofs DssPvProofs.
From Coq Require Import QArith Lia Permutation.
Local Open Scope string_scope.
Local Open Scope nat_scope.
Local Open Scope list_scope.

Section Shapes.
Variable show : Q -> string.
Variable num : string -> option Q.
Hypothesis FS : faithful show num.
Variable points : string -> nat.
Variables sepf seps : bool.
Variable file : string.
Variable order : list string -> list string.

Definition interval_of (i : tseries) : Q := match sh_interval i with Some q => q | None => 1%Q end.
Definition shape_elt (i : tseries) (n l : string) : element :=
  mkElement "Loadshape" n [("npts", str_of (points l)); ("interval", show (interval_of i)); ("mult", "(file=" ++ l ++ ")")%string].
Lemma path_inner l : plain_path l -> all_chars inner l = true.
Proof. intros H. exact H. Qed.
Lemma shape_eok i n l : token n -> plain_path l -> eok (shape_elt i n l).
Proof.
  intros N L. split; [split; [discriminate | reflexivity]|]. split; [reflexivity|]. split; [exact N|].
  repeat (apply Forall_cons); try apply Forall_nil; (split; [split; [discriminate | reflexivity]|]); cbn [snd].
  - left. apply str_token.
  - left. apply FS.
  - right. left. exists ("file=" ++ l)%string. split; [cbn; now rewrite ?app_assoc_s|]. exact L.
Qed.
Lemma shape_reads i n l : token n -> plain_path l -> sh_kvar i = None -> reads (shape_text show points i n l) [shape_elt i n l].
Proof.
  intros N L K. unfold shape_text. rewrite K. fold (interval_of i). pose proof (shape_eok i n l N L) as E.
  pose (ws := ["npts="; str_of (points l); ("interval=" ++ show (interval_of i))%string; "mult"; "="; ("(file=" ++ l ++ ")")%string]).
  assert (R : reads (wrow (e_class (shape_elt i n l)) (e_name (shape_elt i n l)) (ws ++ []) ++ nl)%string [shape_elt i n l]).
  { apply (wrow_reads (shape_elt i n l)); [exact E | | constructor]. destruct (str_token (points l)) as [T1 T2]. destruct (proj1 FS (interval_of i)) as [I1 I2].
    assert (G : pok ("interval", show (interval_of i))) by (split; [split; [discriminate | reflexivity] | left; split; assumption]).
    assert (V : valued ("(file=" ++ l ++ ")")) by (right; left; exists ("file=" ++ l)%string; split; [cbn; now rewrite ?app_assoc_s | exact L]).
    split.
    - unfold ws. repeat (apply Forall_cons); try apply Forall_nil.
      + split; [split; [discriminate | reflexivity]|]. split; [reflexivity | intros t; discriminate].
      + split; [split; [exact T1 | apply whole_plain, token_plain, T2]|]. split; [apply token_newline, T2|]. intros t. apply token_bang. exact T2.
      + split; [exact (pword_word _ G)|]. split; [exact (pword_newline _ G)|]. intros t. exact (pword_bang _ t G).
      + split; [split; [discriminate | reflexivity]|]. split; [reflexivity | discriminate].
      + split; [split; [discriminate | reflexivity]|]. split; [reflexivity | discriminate].
      + split; [split; [discriminate | exact (valued_whole _ V)]|]. split; [exact (valued_newline _ V) | discriminate].
    - unfold ws. change (joined ("npts=" :: str_of (points l) :: ?x)) with (("npts=" ++ str_of (points l))%string :: joined x).
      rewrite joined_cons_plain; [reflexivity | exact (pword_eq _ G) | discriminate]. }
  apply reads_nl2 in R. revert R. match goal with |- reads ?a _ -> reads ?b _ => replace b with a; [intros R; exact R|] end.
  unfold wrow, ws. rewrite app_nil_r. cbn [e_class e_name shape_elt].
  rewrite !spaced_cons. change (spaced []) with "". repeat (progress (rewrite ?app_assoc_s; cbn [append])). reflexivity.
Qed.
Lemma shape_elt_is i n l : ts_label (sh_of i) = Some n -> ts_loc (sh_of i) = Some l -> shape_is num points i (shape_elt i n l).
Proof.
  intros N L. split.
  - reflexivity.
  - exact N.
  - exists l. split; [exact L|]. split; reflexivity.
  - exists (interval_of i). split; [|reflexivity]. unfold value. change (prop (shape_elt i n l) "interval") with (Some (show (interval_of i))). apply FS.
  - intros k v Q. rewrite prop_look in Q. apply look_In in Q as (k' & I & Lk). rewrite <- Lk. cbn [e_props shape_elt In] in I.
    repeat (destruct I as [I|I]; [injection I as <- _; cbn; tauto|]). destruct I.
Qed.

(** *** The rounds of the loop *)
Notation key := (shape_key sepf seps).
Notation loc i := (ts_loc (sh_of i)).
Notation lab i := (ts_label (sh_of i)).
Definition seen (done : list tseries) (i : tseries) : Prop := exists j, In j done /\ key j = key i /\ loc j = loc i.
Definition text_of (i : tseries) : string := match lab i, loc i with Some n, Some l => shape_text show points i n l | _, _ => "" end.
Inductive tagged : list tseries -> list tseries -> list obj -> Prop :=
| tg_nil done : tagged done [] []
| tg_skip done i r os : seen done i -> tagged (done ++ [i]) r os -> tagged done (i :: r) (mkObj (ts_sub (sh_of i)) (ts_fee (sh_of i)) None :: os)
| tg_text done i r os : ~ seen done i -> tagged (done ++ [i]) r os -> tagged done (i :: r) (mkObj (ts_sub (sh_of i)) (ts_fee (sh_of i)) (Some (text_of i)) :: os).

(** What is known after the series [done]. *)
Record after (done : list tseries) (w : shapes) (ftm : dict string) : Prop := {
  af_data : forall k d l n, dget (w_data w) k = Some d -> dget d l = Some n ->
    exists a i b, done = a ++ i :: b /\ key i = k /\ loc i = Some l /\ lab i = Some n /\ ~ seen a i;
  af_have : forall i, In i done -> exists d l n, loc i = Some l /\ dget (w_data w) (key i) = Some d /\ dget d l = Some n;
  af_maps : forall i, In i done -> dmem ftm (key i) = true;
  af_fmt : forall n f, dget (w_fmt w) n = Some f -> exists i l, In i done /\ lab i = Some n /\ loc i = Some l /\ f = shape_format (points l);
  af_fmts : forall k d l n, dget (w_data w) k = Some d -> dget d l = Some n -> exists f, dget (w_fmt w) n = Some f;
  af_iter : match w_iter w with
            | None => done = []
            | Some m => (exists i l, In i done /\ loc i = Some l /\ m = points l) /\ forall i l, In i done -> loc i = Some l -> m <= points l
            end;
  af_solve : match w_solve w with
             | None => done = []
             | Some s => done <> [] /\ (s = "daily" \/ s = "yearly") /\ (s = "yearly" <-> exists i l, In i done /\ loc i = Some l /\ ~ one_day (points l))
             end }.

Lemma day_cases n : (one_day n /\ Nat.eqb n 24 || Nat.eqb n (24 * 60) || Nat.eqb n (24 * 60 * 60) = true) \/
  (~ one_day n /\ Nat.eqb n 24 || Nat.eqb n (24 * 60) || Nat.eqb n (24 * 60 * 60) = false).
Proof.
  unfold one_day. generalize (24 * 60 * 60); intros y; generalize (24 * 60); intros x. cbn [In].
  destruct (Nat.eqb_spec n 24) as [->|A]; [left; split; [left; reflexivity | reflexivity]|].
  destruct (Nat.eqb_spec n x) as [->|B]; [left; split; [right; left; reflexivity | reflexivity]|].
  destruct (Nat.eqb_spec n y) as [->|C]; [left; split; [right; right; left; reflexivity | reflexivity]|].
  right. split; [|reflexivity]. intros [Q|[Q|[Q|[]]]]; symmetry in Q; contradiction.
Qed.
Lemma shape_format_day n : (one_day n /\ shape_format n = "daily") \/ (~ one_day n /\ shape_format n = "yearly").
Proof. unfold shape_format. destruct (day_cases n) as [[D ->]|[D ->]]; [left | right]; split; trivial. Qed.

Lemma after_nil : after [] shapes0 [].
Proof. split; cbn; try discriminate; try contradiction; reflexivity. Qed.

Lemma dmem_dget {V} (d : dict V) k : dmem d k = true <-> exists v, dget d k = Some v.
Proof. unfold dmem. destruct (dget d k) as [v|]; [split; [now exists v | reflexivity] | split; [discriminate | now intros [v Q]]]. Qed.
Lemma after_seen done w ftm i l n : after done w ftm -> loc i = Some l -> lab i = Some n ->
  dmem (match dget (w_data w) (key i) with Some d => d | None => [] end) l && dmem ftm (key i) = true <-> seen done i.
Proof.
  intros A L N. split.
  - intros H. apply andb_true_iff in H as [H _]. destruct (dget (w_data w) (key i)) as [d|] eqn:D; [|discriminate H].
    apply dmem_dget in H as [m M]. destruct (af_data _ _ _ A _ _ _ _ D M) as (a & j & b & -> & K & Lj & _). exists j.
    split; [apply in_elt|]. split; [exact K | congruence].
  - intros (j & I & K & Lj). destruct (af_have _ _ _ A _ I) as (d & l' & m & L' & D & M). rewrite K in D. rewrite D.
    assert (l' = l) by congruence. subst l'. apply andb_true_iff. split; [apply dmem_dget; now exists m|]. rewrite <- K. exact (af_maps _ _ _ A _ I).
Qed.
Lemma in_snoc {A} (x y : A) l : In x (l ++ [y]) <-> In x l \/ x = y.
Proof. rewrite in_app_iff. cbn. intuition congruence. Qed.

Lemma step_ok done w name maps i : after done w (snd maps) -> good_series i ->
  exists w' name' o, o_sub o = ts_sub (sh_of i) /\ o_fee o = ts_fee (sh_of i) /\
    shape_step show points false sepf seps (w, name, maps) i = Ok (w', name', collect1 sepf seps maps o) /\
    after (done ++ [i]) w' (snd (collect1 sepf seps maps o)) /\
    ((seen done i /\ o_txt o = None) \/ (~ seen done i /\ o_txt o = Some (text_of i))).
Proof.
  intros A ((n & N & TN) & (l & L & PL) & SC & KV). unfold shape_step. rewrite L, N.
  assert (P : match sh_scale i with None => true | Some q => Qeq_bool q 1 end = true).
  { destruct (sh_scale i) as [q|]; [|reflexivity]. apply Qeq_bool_iff, SC. reflexivity. }
  rewrite P. pose proof (after_seen done w (snd maps) i l n A L N) as SN.
  set (d := match dget (w_data w) (key i) with Some d => d | None => [] end) in *.
  destruct (dmem d l && dmem (snd maps) (key i)) eqn:E.
  - assert (S : seen done i) by now apply SN. clear SN.
    exists (mkShapes (dset (w_data w) (key i) d) (w_fmt w) (w_iter w) (w_solve w)), (Some n), (mkObj (ts_sub (sh_of i)) (ts_fee (sh_of i)) None).
    split; [reflexivity|]. split; [reflexivity|]. split; [reflexivity|]. split; [|left; split; [exact S | reflexivity]].
    destruct S as (j & Ij & Kj & Lj).
    assert (DD : forall k e, dget (dset (w_data w) (key i) d) k = Some e -> dget (w_data w) k = Some e \/ (k = key i /\ e = d)).
    { intros k e Q. rewrite dget_set' in Q. destruct (String.eqb_spec k (key i)); [right; split; congruence | left; exact Q]. }
    assert (DX : forall k e x m, dget (dset (w_data w) (key i) d) k = Some e -> dget e x = Some m -> exists e', dget (w_data w) k = Some e' /\ dget e' x = Some m).
    { intros k e x m Q M. destruct (DD _ _ Q) as [Q'|[-> ->]]; [now exists e|]. unfold d in M. destruct (dget (w_data w) (key i)) as [e'|]; [now exists e' | discriminate M]. }
    assert (SM : snd (collect1 sepf seps maps (mkObj (ts_sub (sh_of i)) (ts_fee (sh_of i)) None)) = snd maps) by now destruct maps.
    split; cbn [w_data w_fmt w_iter w_solve].
    + intros k e x m Q M. destruct (DX _ _ _ _ Q M) as (e' & Q' & M'). destruct (af_data _ _ _ A _ _ _ _ Q' M') as (a & y & b & -> & R).
      exists a, y, (b ++ [i]). rewrite <- app_assoc. split; [reflexivity | exact R].
    + intros y Iy. assert (H : exists z, In z done /\ key z = key y /\ loc z = loc y) by (apply in_snoc in Iy as [Iy | ->]; [now exists y | now exists j]).
      destruct H as (z & Iz & Kz & Lz). destruct (af_have _ _ _ A _ Iz) as (e & x & m & X1 & X2 & X3). rewrite Kz in X2. rewrite dget_set'.
      destruct (String.eqb_spec (key y) (key i)) as [Q|Q].
      * exists d, x, m. split; [congruence|]. split; [reflexivity|]. unfold d. rewrite <- Q, X2. exact X3.
      * exists e, x, m. split; [congruence|]. split; assumption.
    + intros y Iy. rewrite SM. apply in_snoc in Iy as [Iy | ->]; [exact (af_maps _ _ _ A _ Iy)|]. rewrite <- Kj. exact (af_maps _ _ _ A _ Ij).
    + intros m f Q. destruct (af_fmt _ _ _ A _ _ Q) as (y & x & Iy & R). exists y, x. split; [apply in_snoc; left; exact Iy | exact R].
    + intros k e x m Q M. destruct (DX _ _ _ _ Q M) as (e' & Q' & M'). exact (af_fmts _ _ _ A _ _ _ _ Q' M').
    + pose proof (af_iter _ _ _ A) as I. destruct (w_iter w) as [m|]; [|rewrite I in Ij; destruct Ij]. destruct I as [(y & x & Iy & R) I]. split.
      * exists y, x. split; [apply in_snoc; left; exact Iy | exact R].
      * intros z x' Iz Lz. apply in_snoc in Iz as [Iz | ->]; [exact (I _ _ Iz Lz)|]. apply (I _ _ Ij). congruence.
    + pose proof (af_solve _ _ _ A) as I. destruct (w_solve w) as [s|]; [|rewrite I in Ij; destruct Ij]. destruct I as (Ne & S & I).
      split; [destruct done; discriminate|]. split; [exact S|]. rewrite I. split.
      * intros (y & x & Iy & R). exists y, x. split; [apply in_snoc; left; exact Iy | exact R].
      * intros (y & x & Iy & Lx & R). apply in_snoc in Iy as [Iy | ->]; [exists y, x; repeat split; assumption|]. exists j, x. split; [exact Ij|]. split; [congruence | exact R].
  - assert (S : ~ seen done i) by (intros S; apply SN in S; discriminate S). clear SN.
    set (o := mkObj (ts_sub (sh_of i)) (ts_fee (sh_of i)) (Some (shape_text show points i n l))).
    exists (mkShapes (dset (dset (w_data w) (key i) d) (key i) (dset d l n)) (dset (w_fmt w) n (shape_format (points l)))
             (Some (match w_iter w with None => points l | Some m => Nat.min m (points l) end)) (solve_format (w_solve w) (points l))), (Some n), o.
    split; [reflexivity|]. split; [reflexivity|]. split; [reflexivity|]. split; [|right; split; [exact S | unfold text_of; now rewrite L, N]].
    assert (DD : forall k, dget (dset (dset (w_data w) (key i) d) (key i) (dset d l n)) k = if String.eqb k (key i) then Some (dset d l n) else dget (w_data w) k).
    { intros k. rewrite !dget_set'. destruct (String.eqb k (key i)); reflexivity. }
    assert (DX : forall k e x m, dget (dset (dset (w_data w) (key i) d) (key i) (dset d l n)) k = Some e -> dget e x = Some m ->
      (k = key i /\ x = l /\ m = n) \/ exists e', dget (w_data w) k = Some e' /\ dget e' x = Some m).
    { intros k e x m Q M. rewrite DD in Q. destruct (String.eqb_spec k (key i)) as [->|Nk]; [|right; now exists e]. injection Q as <-.
      rewrite dget_set' in M. destruct (String.eqb_spec x l) as [->|]; [left; repeat split; congruence|]. right. unfold d in M.
      destruct (dget (w_data w) (key i)) as [e'|]; [now exists e' | discriminate M]. }
    assert (SM : forall k, dmem (snd (collect1 sepf seps maps o)) k = String.eqb k (key i) || dmem (snd maps) k).
    { intros k. destruct maps as [stm ftm]. unfold collect1, o. cbn [o_txt o_fee o_sub snd]. fold (key i). unfold dmem. rewrite dget_set'.
      destruct (String.eqb k (key i)); reflexivity. }
    split; cbn [w_data w_fmt w_iter w_solve].
    + intros k e x m Q M. destruct (DX _ _ _ _ Q M) as [(-> & -> & ->) | (e' & Q' & M')].
      * exists done, i, []. repeat split; assumption.
      * destruct (af_data _ _ _ A _ _ _ _ Q' M') as (a & y & b & -> & R). exists a, y, (b ++ [i]). rewrite <- app_assoc. split; [reflexivity | exact R].
    + intros y Iy. rewrite DD. apply in_snoc in Iy as [Iy | ->].
      * destruct (af_have _ _ _ A _ Iy) as (e & x & m & X1 & X2 & X3). destruct (String.eqb_spec (key y) (key i)) as [Q|Q].
        -- destruct (String.eqb_spec x l) as [->|Nx].
           ++ exists (dset d l n), l, n. split; [exact X1|]. split; [reflexivity|]. now rewrite dget_set', String.eqb_refl.
           ++ exists (dset d l n), x, m. split; [exact X1|]. split; [reflexivity|]. rewrite dget_set'. destruct (String.eqb_spec x l); [contradiction|].
              unfold d. rewrite <- Q, X2. exact X3.
        -- exists e, x, m. repeat split; assumption.
      * rewrite String.eqb_refl. exists (dset d l n), l, n. split; [exact L|]. split; [reflexivity|]. now rewrite dget_set', String.eqb_refl.
    + intros y Iy. rewrite SM. apply orb_true_iff. apply in_snoc in Iy as [Iy | ->]; [right; exact (af_maps _ _ _ A _ Iy) | left; apply String.eqb_refl].
    + intros m f Q. rewrite dget_set' in Q. destruct (String.eqb_spec m n) as [->|].
      * injection Q as <-. exists i, l. split; [apply in_snoc; right; reflexivity|]. repeat split; assumption.
      * destruct (af_fmt _ _ _ A _ _ Q) as (y & x & Iy & R). exists y, x. split; [apply in_snoc; left; exact Iy | exact R].
    + intros k e x m Q M. rewrite dget_set'. destruct (String.eqb_spec m n) as [->|Nm]; [now eexists|].
      destruct (DX _ _ _ _ Q M) as [(_ & _ & H) | (e' & Q' & M')]; [contradiction|]. exact (af_fmts _ _ _ A _ _ _ _ Q' M').
    + pose proof (af_iter _ _ _ A) as I. destruct (w_iter w) as [m|].
      * destruct I as [(y & x & Iy & Lx & ->) I]. split.
        -- destruct (Nat.min_spec (points x) (points l)) as [[_ ->]|[_ ->]]; [exists y, x; split; [apply in_snoc; left; exact Iy | split; [exact Lx | reflexivity]]
           | exists i, l; split; [apply in_snoc; right; reflexivity | split; [exact L | reflexivity]]].
        -- intros z x' Iz Lz. apply in_snoc in Iz as [Iz | ->]; [pose proof (I _ _ Iz Lz); lia|]. assert (x' = l) by congruence. subst. lia.
      * subst done. split; [exists i, l; split; [left; reflexivity | split; [exact L | reflexivity]]|]. intros z x' [<-|[]] Lz. assert (x' = l) by congruence. subst. lia.
    + pose proof (af_solve _ _ _ A) as I. unfold solve_format. destruct (day_cases (points l)) as [[D ->]|[D ->]].
      * assert (X : forall (s : string), (s = "yearly" <-> exists i l, In i done /\ loc i = Some l /\ ~ one_day (points l)) ->
          (s = "yearly" <-> exists y x, In y (done ++ [i]) /\ loc y = Some x /\ ~ one_day (points x))).
        { intros s ->. split.
          - intros (y & x & Iy & R). exists y, x. split; [apply in_snoc; left; exact Iy | exact R].
          - intros (y & x & Iy & Lx & R). apply in_snoc in Iy as [Iy | ->]; [exists y, x; repeat split; assumption|]. exfalso. assert (x = l) by congruence. subst. contradiction. }
        destruct (w_solve w) as [s|].
        -- destruct I as (Ne & Sd & I). split; [destruct done; discriminate|]. split; [exact Sd|]. apply X. exact I.
        -- split; [destruct done; discriminate|]. split; [left; reflexivity|]. apply X. split; [discriminate|]. rewrite I. intros (y & x & [] & _).
      * split; [destruct done; discriminate|]. split; [right; reflexivity|]. split; [|reflexivity]. intros _. exists i, l. split; [apply in_snoc; right; reflexivity|]. split; assumption.
Qed.

Lemma loop_ok : forall r done w name maps, after done w (snd maps) -> Forall good_series r ->
  exists w' name' os, foldM (shape_step show points false sepf seps) r (w, name, maps) = Ok (w', name', fold_left (collect1 sepf seps) os maps) /\
    after (done ++ r) w' (snd (fold_left (collect1 sepf seps) os maps)) /\ tagged done r os.
Proof.
  induction r as [|i r IH]; intros done w name maps A G.
  - exists w, name, []. rewrite app_nil_r. split; [reflexivity|]. split; [exact A | constructor].
  - inversion G as [|? ? Gi Gr]; subst. destruct (step_ok done w name maps i A Gi) as (w1 & n1 & o & Os & Of & E & A1 & T).
    destruct (IH (done ++ [i]) w1 n1 (collect1 sepf seps maps o) A1 Gr) as (w' & n' & os & E' & A' & T').
    exists w', n', (o :: os). cbn [foldM fold_left]. rewrite E. cbn [bind]. rewrite E'. split; [reflexivity|]. rewrite <- app_assoc in A'. split; [exact A'|].
    destruct o as [os' of' ot]. cbn [o_sub o_fee o_txt] in *. subst. destruct T as [[S ->]|[S ->]]; constructor; assumption.
Qed.

(** *** The files *)
Notation spot o := (mkObj (o_sub o) (o_fee o) None).
Lemma tagged_spots : forall done r os, tagged done r os -> map (fun o => spot o) os = map place_of r.
Proof. induction 1 as [|done i r os S T IH|done i r os S T IH]; cbn [map o_sub o_fee]; [reflexivity | now rewrite IH..]. Qed.
Lemma home_spot o s f : home sepf seps o s f <-> home sepf seps (spot o) s f.
Proof. reflexivity. Qed.
Lemma used_spots os s f : used sepf seps os s f <-> used sepf seps (map (fun o => spot o) os) s f.
Proof.
  split.
  - intros (o & I & H). exists (spot o). split; [apply in_map_iff; now exists o | apply home_spot, H].
  - intros (o & I & H). apply in_map_iff in I as (o' & <- & I). exists o'. split; [exact I | apply home_spot, H].
Qed.
Lemma home_key i s f : home sepf seps (place_of i) s f -> key i = group_key (s, f).
Proof. intros H. apply home_group in H. cbn in H. unfold shape_key. now rewrite H. Qed.
Lemma home_ex o : exists s f, home sepf seps o s f.
Proof. destruct (DssCodeModel.group sepf seps (o_fee o) (o_sub o)) as [s f] eqn:E. exists s, f. now apply home_group. Qed.
Lemma home_dec o s f : {home sepf seps o s f} + {~ home sepf seps o s f}.
Proof.
  destruct (DssCodeModel.group sepf seps (o_fee o) (o_sub o)) as [s' f'] eqn:E. destruct (string_dec s' s) as [->|N]; [destruct (string_dec f' f) as [->|N]|].
  - left. now apply home_group.
  - right. intros H. apply home_group in H. congruence.
  - right. intros H. apply home_group in H. congruence.
Qed.
Lemma key_home ts i j s f : told_apart sepf seps file (map place_of ts) -> In i ts -> In j ts -> home sepf seps (place_of i) s f -> key j = key i ->
  home sepf seps (place_of j) s f.
Proof.
  intros TA Ii Ij H K. destruct (home_ex (place_of j)) as (s' & f' & H').
  destruct (TA s f s' f') as [-> ->]; [exists (place_of i); split; [now apply in_map | exact H] | exists (place_of j); split; [now apply in_map | exact H'] | | exact H'].
  left. rewrite (home_key _ _ _ H), (home_key _ _ _ H') in K. symmetry. exact K.
Qed.
Lemma text_ne i : good_series i -> text_of i <> "".
Proof. intros ((n & N & _) & (l & L & _) & _). unfold text_of. rewrite N, L. discriminate. Qed.
Lemma tagged_text : forall done r os, tagged done r os -> forall i, In i r -> seen done i \/ exists j, In j r /\ key j = key i /\
  In (mkObj (ts_sub (sh_of j)) (ts_fee (sh_of j)) (Some (text_of j))) os.
Proof.
  induction 1 as [|done h r os S T IH|done h r os S T IH]; intros i I; [destruct I| |].
  - destruct I as [<-|I]; [left; exact S|]. destruct (IH i I) as [(j & Ij & K & L) | (j & Ij & K & O)].
    + left. apply in_snoc in Ij as [Ij | ->]; [now exists j|]. destruct S as (j & J1 & J2 & J3). exists j. split; [exact J1|]. split; congruence.
    + right. exists j. split; [right; exact Ij|]. split; [exact K | right; exact O].
  - destruct I as [<-|I]; [right; exists h; split; [left; reflexivity|]; split; [reflexivity | left; reflexivity]|].
    destruct (IH i I) as [(j & Ij & K & L) | (j & Ij & K & O)].
    + apply in_snoc in Ij as [Ij | ->]; [left; now exists j|]. right. exists h. split; [left; reflexivity|]. split; [exact K | left; reflexivity].
    + right. exists j. split; [right; exact Ij|]. split; [exact K | right; exact O].
Qed.
Lemma tagged_something ts os : tagged [] ts os -> Forall good_series ts -> told_apart sepf seps file (map place_of ts) -> something sepf seps os.
Proof.
  intros T G TA s f U. apply used_spots in U. rewrite (tagged_spots _ _ _ T) in U. destruct U as (o & I & H). apply in_map_iff in I as (i & <- & I).
  destruct (tagged_text _ _ _ T i I) as [(j & [] & _) | (j & Ij & K & O)]. eexists. exists (text_of j). split; [exact O|].
  split; [apply home_spot; exact (key_home ts i j s f TA I Ij H K)|]. split; [reflexivity|]. apply text_ne. rewrite Forall_forall in G. exact (G j Ij).
Qed.

Lemma content_reads s f : forall done r os, tagged done r os -> forall t L,
  (forall i j, In i (done ++ r) -> In j (done ++ r) -> home sepf seps (place_of i) s f -> key j = key i -> home sepf seps (place_of j) s f) ->
  (forall x, In x L <-> exists j, In j done /\ home sepf seps (place_of j) s f /\ loc j = x) -> Forall good_series r -> content sepf seps s f os t ->
  exists ms fs els, members sepf seps s f r ms /\ firsts L ms fs /\ reads t els /\ Forall2 (shape_is num points) fs els.
Proof.
  induction 1 as [done|done i r os S T IH|done i r os S T IH]; intros t L KH HL G C.
  - inversion C; subst. exists [], [], []. repeat split; try constructor. apply reads_nil.
  - inversion G as [|? ? Gi Gr]; subst. change (i :: r) with ([i] ++ r) in KH. rewrite app_assoc in KH.
    assert (C' : content sepf seps s f os t) by (inversion C; subst; [discriminate | assumption | assumption]).
    destruct (home_dec (place_of i) s f) as [H|H].
    + assert (IL : In (loc i) L).
      { apply HL. destruct S as (j & Ij & K & Lj). exists j. split; [exact Ij|]. split; [|exact Lj].
        apply (KH i j); [apply in_app_iff; left; apply in_snoc; right; reflexivity | apply in_app_iff; left; apply in_snoc; left; exact Ij | exact H | exact K]. }
      destruct (IH t L KH) as (ms & fs & els & M & F & R & Sh); [|exact Gr | exact C'|].
      { intros x. rewrite HL. split.
        - intros (j & Ij & R). exists j. split; [apply in_snoc; left; exact Ij | exact R].
        - intros (j & Ij & Hj & <-). apply in_snoc in Ij as [Ij | ->]; [now exists j|]. apply HL. exact IL. }
      exists (i :: ms), fs, els. split; [now constructor|]. split; [now apply fs_again|]. split; assumption.
    + destruct (IH t L KH) as (ms & fs & els & M & F & R & Sh); [|exact Gr | exact C'|].
      { intros x. rewrite HL. split.
        - intros (j & Ij & R). exists j. split; [apply in_snoc; left; exact Ij | exact R].
        - intros (j & Ij & Hj & Q). apply in_snoc in Ij as [Ij | ->]; [now exists j | contradiction]. }
      exists ms, fs, els. split; [now constructor|]. repeat split; assumption.
  - inversion G as [|? ? Gi Gr]; subst. change (i :: r) with ([i] ++ r) in KH. rewrite app_assoc in KH.
    destruct (home_dec (place_of i) s f) as [H|H].
    + inversion C as [|? t' ? u Ho To Cr|? ? u To Cr|? ? u Ho Cr]; subst; [|discriminate To | exfalso; exact (Ho H)]. cbn [o_txt] in To. injection To as <-.
      assert (IL : ~ In (loc i) L).
      { intros I. apply S. apply HL in I as (j & Ij & Hj & Lj). exists j. split; [exact Ij|]. split; [|exact Lj].
        rewrite (home_key _ _ _ Hj), (home_key _ _ _ H). reflexivity. }
      destruct (IH u (loc i :: L) KH) as (ms & fs & els & M & F & R & Sh); [|exact Gr | exact Cr|].
      { intros x. cbn [In]. rewrite HL. split.
        - intros [<- | (j & Ij & R)]; [exists i; split; [apply in_snoc; right; reflexivity | split; [exact H | reflexivity]]|].
          exists j. split; [apply in_snoc; left; exact Ij | exact R].
        - intros (j & Ij & Hj & Q). apply in_snoc in Ij as [Ij | ->]; [right; now exists j | left; exact Q]. }
      destruct Gi as ((n & N & TN) & (l & Ll & PL) & _ & KV).
      exists (i :: ms), (i :: fs), (shape_elt i n l :: els). split; [now constructor|]. split; [now apply fs_new|]. split.
      * unfold text_of. rewrite N, Ll. change (shape_elt i n l :: els) with ([shape_elt i n l] ++ els). apply reads_app; [now apply shape_reads | exact R].
      * constructor; [now apply shape_elt_is | exact Sh].
    + assert (C' : content sepf seps s f os t) by (inversion C; subst; [exfalso; apply H; assumption | assumption | assumption]).
      destruct (IH t L KH) as (ms & fs & els & M & F & R & Sh); [|exact Gr | exact C'|].
      { intros x. rewrite HL. split.
        - intros (j & Ij & R). exists j. split; [apply in_snoc; left; exact Ij | exact R].
        - intros (j & Ij & Hj & Q). apply in_snoc in Ij as [Ij | ->]; [now exists j | contradiction]. }
      exists ms, fs, els. split; [now constructor|]. repeat split; assumption.
Qed.

Lemma firsts_In L ms fs : firsts L ms fs -> forall i, In i fs -> In i ms /\ ~ In (loc i) L.
Proof.
  induction 1 as [|L i r l N F IH|L i r l N F IH]; intros j I; [destruct I| |].
  - destruct I as [<-|I]; [split; [left; reflexivity | exact N]|]. destruct (IH j I) as [A B]. split; [right; exact A|]. intros Q. apply B. right. exact Q.
  - destruct (IH j I) as [A B]. split; [right; exact A | exact B].
Qed.
Lemma firsts_NoDup L ms fs : firsts L ms fs -> NoDup (map (fun i => loc i) fs).
Proof.
  induction 1 as [|L i r l N F IH|L i r l N F IH]; cbn [map]; [constructor | constructor; [|exact IH] | exact IH].
  intros I. apply in_map_iff in I as (j & Q & I). destruct (firsts_In _ _ _ F j I) as [_ B]. apply B. left. congruence.
Qed.
Lemma firsts_has L ms fs : firsts L ms fs -> forall i, In i ms -> In (loc i) L \/ exists j, In j fs /\ loc j = loc i.
Proof.
  induction 1 as [|L i r l N F IH|L i r l N F IH]; intros j I; [destruct I| |].
  - destruct I as [<-|I]; [right; exists i; split; [left; reflexivity | reflexivity]|]. destruct (IH j I) as [[A|A]|(k & A & B)].
    + right. exists i. split; [left; reflexivity | exact A].
    + left. exact A.
    + right. exists k. split; [right; exact A | exact B].
  - destruct I as [<-|I]; [left; exact N | exact (IH j I)].
Qed.
Lemma shapes_NoDup fs els : Forall2 (shape_is num points) fs els -> NoDup (map (fun i => loc i) fs) -> same_data fs -> NoDup (map e_name els).
Proof.
  induction 1 as [|i e fs els S F IH]; intros N D; cbn [map]; [constructor|]. inversion N as [|? ? Ni Nr]; subst. constructor.
  - intros I. apply in_map_iff in I as (e' & Q & I). apply Ni. clear - F I Q S D. 
    assert (H : exists j, In j fs /\ shape_is num points j e').
    { clear - F I. induction F as [|j e0 fs els S F IH]; [destruct I|]. destruct I as [<-|I]; [exists j; split; [left; reflexivity | exact S]|].
      destruct (IH I) as (k & A & B). exists k. split; [right; exact A | exact B]. }
    destruct H as (j & Ij & Sj). apply in_map_iff. exists j. split; [|exact Ij]. apply D; [right; exact Ij | left; reflexivity|].
    rewrite (hi_name _ _ _ _ S), (hi_name _ _ _ _ Sj), Q. reflexivity.
  - apply IH; [exact Nr|]. intros a b Ia Ib. apply D; right; assumption.
Qed.
End Shapes.
Lemma members_In sepf seps s f ts ms : members sepf seps s f ts ms -> forall i, In i ms <-> In i ts /\ home sepf seps (place_of i) s f.
Proof.
  induction 1 as [|i r l H M IH|i r l H M IH]; intros j; cbn [In]; [tauto| |]; rewrite IH; [intuition (subst; assumption)|].
  split; [tauto|]. intros [[<-|A] B]; [contradiction | tauto].
Qed.
