(** Theorems about the loads, lines and capacitors of the OpenDSS script (C81, C82, C83). *)
From Verif Require Import Base BaseFacts CsvModel DssNameModel DssCodeModel DssFileModel DssTextModel DssNameSpec DssTextSpec DssFileSpec DssLoadSpec
  DssTextProofs DssLoadProofs DssLineTextProofs DssCapTextProofs DssFileProofs DssFileProps.
From Coq Require Import QArith Lia DecimalString Permutation.
From Coq Require DecimalZ DecimalPos DecimalNat.
Local Open Scope string_scope.
Local Open Scope nat_scope.
Local Open Scope list_scope.

(** *** A way to write numbers, for the examples: numerator and denominator. *)
Definition show_q (q : Q) : string := (NilEmpty.string_of_int (Z.to_int (Qnum q)) ++ String "/" (NilEmpty.string_of_uint (Pos.to_uint (Qden q))))%string.
Definition num_q (s : string) : option Q :=
  match first_at "/" s with
  | Some (a, b) =>
    match NilEmpty.int_of_string a, NilEmpty.uint_of_string b with
    | Some i, Some u => match Pos.of_uint u with Npos p => Some (Z.of_int i # p) | N0 => None end
    | _, _ => None
    end
  | None => None
  end.
Lemma uint_noslash u : free (Ascii.eqb "/") (NilEmpty.string_of_uint u).
Proof. unfold free. induction u; cbn [NilEmpty.string_of_uint all_chars]; rewrite ?IHu; reflexivity. Qed.
Lemma faithful_q : faithful show_q num_q.
Proof.
  split; intros [n d]; unfold show_q, num_q; cbn [Qnum Qden].
  - split; [destruct (NilEmpty.string_of_int (Z.to_int n)); discriminate|]. rewrite all_app. cbn [all_chars]. rewrite uint_token.
    change (NilEmpty.string_of_int (Z.to_int n)) with (show_int n). rewrite (proj2 (int_token n)). reflexivity.
  - rewrite first_at_cut.
    + rewrite NilEmpty.isi, NilEmpty.usu, DecimalPos.Unsigned.of_to, DecimalZ.of_to. reflexivity.
    + destruct (Z.to_int n); cbn [NilEmpty.string_of_int]; [apply uint_noslash|]. unfold free. cbn [all_chars]. exact (uint_noslash _).
Qed.

Lemma concat_texts l : String.concat "" l = texts l.
Proof.
  induction l as [|x r IH]; [reflexivity|]. destruct r as [|y r]; [cbn; symmetry; apply app_nil_s|].
  change (String.concat "" (x :: y :: r)) with (x ++ "" ++ String.concat "" (y :: r))%string. rewrite IH. reflexivity.
Qed.

(** The objects of a file: those that belong to its group, in order. *)
Inductive residents {A} (sepf seps : bool) (s f : string) : list (A * obj) -> list A -> Prop :=
| rs_nil : residents sepf seps s f [] []
| rs_here a o r l : home sepf seps o s f -> residents sepf seps s f r l -> residents sepf seps s f ((a, o) :: r) (a :: l)
| rs_there a o r l : ~ home sepf seps o s f -> residents sepf seps s f r l -> residents sepf seps s f ((a, o) :: r) l.

Lemma file_reads {A} (R : list A -> list element -> Prop) (sepf seps : bool) (file : string) order out (xs : list (A * obj)) :
  R [] [] ->
  (forall a o, In (a, o) xs -> exists t e1, o_txt o = Some t /\ t <> "" /\
     (forall rest els, read_dss rest = Some els -> read_dss (t ++ rest)%string = Some (e1 ++ els)) /\ forall l els, R l els -> R (a :: l) (e1 ++ els)) ->
  (forall l, Permutation (order l) l) -> told_apart sepf seps file (map snd xs) -> plain_substations sepf seps (map snd xs) ->
  exists out', write_section sepf seps file order out (map snd xs) = Ok out' /\
    forall s f, used sepf seps (map snd xs) s f -> exists t hs els,
      dget (files out') (place sepf seps file s f) = Some t /\ residents sepf seps s f xs hs /\ read_dss t = Some els /\ R hs els.
Proof.
  intros R0 H OP TA PS.
  assert (ST : something sepf seps (map snd xs)).
  { intros s f (o & I & Ho). apply in_map_iff in I as ([a o'] & <- & I). destruct (H a o' I) as (t & e1 & T & Ne & _). exists o', t.
    split; [apply in_map_iff; exists (a, o'); split; [reflexivity | exact I]|]. repeat split; try assumption; apply Ho. }
  destruct (C67_files sepf seps file order out (map snd xs) OP ST TA PS) as (o' & W & F & _). exists o'. split; [exact W|].
  intros s f U. destruct (F s f U) as (t & C & D). exists t.
  enough (X : exists hs els, residents sepf seps s f xs hs /\ read_dss t = Some els /\ R hs els).
  { destruct X as (hs & els & X1 & X2 & X3). exists hs, els. repeat split; assumption. }
  clear - H C R0. revert t C. induction xs as [|[a o] r IH]; intros t C; cbn [map] in C.
  - inversion C; subst. exists [], []. split; [constructor|]. split; [reflexivity | exact R0].
  - destruct (H a o (or_introl eq_refl)) as (u & e1 & T & _ & Rd & St).
    assert (IH' := IH (fun b p I => H b p (or_intror I))). clear IH.
    inversion C as [|? t' ? v Ho To Cr|? ? v To Cr|? ? v Ho Cr]; subst; cbn [snd] in *.
    + rewrite T in To. injection To as <-. destruct (IH' v Cr) as (hs & els & X1 & X2 & X3).
      exists (a :: hs), (e1 ++ els). split; [constructor; assumption|]. split; [apply Rd; exact X2 | apply St; exact X3].
    + congruence.
    + destruct (IH' t Cr) as (hs & els & X1 & X2 & X3). exists hs, els. split; [constructor; assumption|]. split; assumption.
Qed.

Lemma row_ne e cs x : (row e cs ++ x)%string <> "".
Proof. discriminate. Qed.

(** *** C81: loads *)
Theorem C81_loads : forall show num datasets fmts removed ls,
  faithful show num -> Forall (good_load datasets fmts) ls ->
  exists ts els, mapM (load_text show datasets fmts removed) ls = Ok (map Some ts) /\
    read_dss (String.concat "" ts) = Some els /\ Forall2 (load_is num datasets fmts removed) ls els.
Proof.
  intros show num datasets fmts removed ls FS H. induction H as [|l r G _ (ts & els & M & R & F)]; [exists [], []; repeat split; constructor|].
  destruct (load_reads show num FS datasets fmts removed l G) as (t & e & T & I & Rd).
  exists (t :: ts), (e :: els). split; [cbn [mapM]; rewrite T, M; reflexivity|]. split; [|constructor; assumption].
  rewrite concat_texts in *. cbn [texts fold_right]. apply Rd. exact R.
Qed.
Print Assumptions C81_loads.

(** The loads of each written file are those of its feeder. *)
Theorem C81_file : forall show num datasets fmts removed sepf seps file order out (xs : list (load * obj)),
  faithful show num -> (forall l o, In (l, o) xs -> good_load datasets fmts l /\ exists t, load_text show datasets fmts removed l = Ok t /\ o_txt o = t) ->
  (forall l, Permutation (order l) l) -> told_apart sepf seps file (map snd xs) -> plain_substations sepf seps (map snd xs) ->
  exists out', write_section sepf seps file order out (map snd xs) = Ok out' /\
    forall s f, used sepf seps (map snd xs) s f -> exists t hs els,
      dget (files out') (place sepf seps file s f) = Some t /\ residents sepf seps s f xs hs /\ read_dss t = Some els /\
      Forall2 (load_is num datasets fmts removed) hs els.
Proof.
  intros show num datasets fmts removed sepf seps file order out xs FS H OP TA PS.
  apply (file_reads (Forall2 (load_is num datasets fmts removed)) sepf seps file order out xs); try assumption; [constructor|].
  intros l o I. destruct (H l o I) as (G & t' & T' & E). destruct (load_reads show num FS datasets fmts removed l G) as (t & e & T & Is & Rd).
  exists t, [e]. rewrite T in T'. injection T' as <-. split; [exact E|]. split.
  - intros ->. specialize (Rd "" [] eq_refl). discriminate Rd.
  - split; [intros rest els R; exact (Rd rest els R)|]. intros hs els F. constructor; assumption.
Qed.
Print Assumptions C81_file.

(** A wye load with the same power on each of its phases keeps it on each of them. *)
Theorem C81_power : forall num datasets fmts removed l e p x,
  load_is num datasets fmts removed l e -> ld_conn l <> Some "D" -> ld_bus l <> None ->
  (ld_kv l = None \/ exists v, ld_kv l = Some v /\ (300 <= v)%Q) ->
  (forall q, In q (ld_phases l) -> pl_phase q <> None /\ exists y, pl_p q = Some y /\ (y == x)%Q) ->
  In p (ld_phases l) ->
  exists ph n, pl_phase p = Some ph /\ at_node ph n /\ node_power num e n (x / 1000)%Q.
Proof.
  intros num datasets fmts removed l e p x LI NC NB V B I.
  destruct (B p I) as [Np _]. destruct (pl_phase p) as [ph|] eqn:P; [clear Np|contradiction Np; reflexivity].
  destruct LI as [_ _ _ (ns & (ms & F & HN) & Cn) _ _ _ KW _ _ (k & PK & HK) _ _ _].
  assert (ns = ms) as -> by (destruct HN as [(Q & _)|[_ Q]]; [contradiction | exact Q]). clear HN.
  assert (Lk : k = length (ld_phases l)).
  { destruct HK as [(v & Q & L & _)|[_ Q]]; [|exact Q]. destruct V as [V|(w & V & G)]; rewrite V in Q; [discriminate Q|]. injection Q as ->.
    exfalso. exact (Qlt_not_le _ _ L G). }
  assert (G : given (map pl_phase (ld_phases l)) <> [] -> True) by trivial. clear G.
  assert (Lm : length ms = length (ld_phases l)).
  { assert (FL : forall (A B : Type) (P : A -> B -> Prop) x y, Forall2 P x y -> length x = length y) by (intros A0 B0 P0 x0 y0 FF; induction FF; [reflexivity | cbn [length]; now f_equal]).
    rewrite <- (FL _ _ _ _ _ F). clear - B. induction (ld_phases l) as [|q r IH]; [reflexivity|]. cbn [map given].
    destruct (B q (or_introl eq_refl)) as [Nq _]. destruct (pl_phase q); [|contradiction Nq; reflexivity]. cbn [length]. f_equal. apply IH.
    intros z J. apply B. right. exact J. }
  assert (Node : exists n, at_node ph n /\ In n ms).
  { clear - F I P. revert ms F. induction (ld_phases l) as [|q r IH]; [destruct I|]. intros ms F. cbn [map given] in F. destruct I as [->|I].
    - rewrite P in F. inversion F; subst. eexists. split; [eassumption | left; reflexivity].
    - destruct (pl_phase q) as [y|].
      + inversion F; subst. destruct (IH I _ H3) as (n & A & J). exists n. split; [exact A | right; exact J].
      + exact (IH I ms F). }
  destruct Node as (n & A & J). exists ph, n. split; [reflexivity|]. split; [exact A|].
  destruct (ld_bus l) as [b|]; [|contradiction NB; reflexivity]. destruct Cn as (v & y & Pv & Tv & _).
  assert (Ne : ld_phases l <> []) by (intros Q; rewrite Q in I; destruct I).
  destruct (ld_phases l) as [|q r] eqn:L; [contradiction Ne; reflexivity|]. cbn [gives] in KW. destruct KW as (kw & Kv & Ke).
  exists v, kw, k. rewrite Tv. cbn [snd]. split; [exact Pv|]. split; [exact Kv|]. split; [exact PK|]. split; [rewrite Lk; discriminate|]. split.
  - rewrite Lk, <- Lm, firstn_all. exact J.
  - assert (Sm : forall l, (forall q, In q l -> exists y, pl_p q = Some y /\ (y == x)%Q) -> (sum (given (map pl_p l)) == inject_Z (Z.of_nat (length l)) * x)%Q).
    { clear. induction l as [|q r IH]; intros H; [cbn; ring|]. cbn [map given]. destruct (H q (or_introl eq_refl)) as (z & -> & E).
      change (sum (z :: given (map pl_p r))) with (z + sum (given (map pl_p r)))%Q. rewrite IH by (intros w K; apply H; right; exact K). rewrite E.
      cbn [length]. rewrite Nat2Z.inj_succ, <- Z.add_1_r, inject_Z_plus. ring. }
    rewrite Ke, Sm by (intros w K; apply B; exact K). rewrite Lk. field. unfold Qeq. cbn [inject_Z Qnum Qden length]. lia.
Qed.
Print Assumptions C81_power.

(** A load shape that was not written makes the whole section fail. *)
Theorem C81_missing_shape_refuted : forall show datasets fmts removed ls l t loc,
  (forall m, In m ls -> ld_name m <> None) -> In l ls -> In t (ld_ts l) -> ts_label t <> None -> ts_loc t = Some loc ->
  (forall d k f, dget datasets k = Some d -> dget d loc = Some f -> False) ->
  mapM (load_text show datasets fmts removed) ls = Err EKey.
Proof.
  intros show datasets fmts removed ls l t loc Nm I It Lb Lc No.
  assert (SE : forall u, series_text datasets fmts removed u = Err EKey \/ exists x, series_text datasets fmts removed u = Ok x).
  { intros u. unfold series_text. destruct (ts_label u), (ts_loc u); try (right; eexists; reflexivity).
    destruct (dget datasets _) as [d|]; [|left; reflexivity]. cbn [of_opt bind]. destruct (dget d _) as [g|]; [|left; reflexivity]. cbn [of_opt bind].
    destruct (dget fmts _); [right; eexists; reflexivity | left; reflexivity]. }
  assert (ME : forall us, mapM (series_text datasets fmts removed) us = Err EKey \/ exists x, mapM (series_text datasets fmts removed) us = Ok x).
  { induction us as [|u r IH]; [right; eexists; reflexivity|]. cbn [mapM]. destruct (SE u) as [-> | [x ->]]; [left; reflexivity|]. cbn [bind].
    destruct IH as [-> | [y ->]]; [left; reflexivity | right; eexists; reflexivity]. }
  assert (TE : series_text datasets fmts removed t = Err EKey).
  { unfold series_text. rewrite Lc. destruct (ts_label t); [|contradiction Lb; reflexivity]. destruct (dget datasets _) as [d|] eqn:D; [|reflexivity].
    cbn [of_opt bind]. destruct (dget d loc) as [g|] eqn:G; [destruct (No _ _ _ D G) | reflexivity]. }
  assert (LE : forall us, In t us -> mapM (series_text datasets fmts removed) us = Err EKey).
  { induction us as [|u r IH]; [intros []|]; intros [->|J]; cbn [mapM]; [rewrite TE; reflexivity|]. destruct (SE u) as [-> | [x ->]]; [reflexivity|]. cbn [bind]. rewrite (IH J). reflexivity. }
  assert (LT : forall m, ld_name m <> None -> load_text show datasets fmts removed m = Err EKey \/ exists x, load_text show datasets fmts removed m = Ok x).
  { intros m Hm. unfold load_text. destruct (ld_name m); [|contradiction Hm; reflexivity]. destruct (ME (ld_ts m)) as [-> | [x ->]]; [left; reflexivity | right; eexists; reflexivity]. }
  induction ls as [|m r IH]; [destruct I|]. destruct I as [->|I]; cbn [mapM].
  - unfold load_text at 1. pose proof (Nm l (or_introl eq_refl)) as Nl. destruct (ld_name l); [|contradiction Nl; reflexivity]. rewrite (LE _ It). reflexivity.
  - destruct (LT m (Nm m (or_introl eq_refl))) as [-> | [x ->]]; [reflexivity|]. cbn [bind]. rewrite (IH (fun z J => Nm z (or_intror J)) I). reflexivity.
Qed.
Print Assumptions C81_missing_shape_refuted.

Lemma str_of_inj a b : str_of a = str_of b -> a = b.
Proof.
  intros H. unfold str_of in H. apply (f_equal NilEmpty.uint_of_string) in H. rewrite !NilEmpty.usu in H. injection H as H.
  apply (f_equal Nat.of_uint) in H. rewrite !DecimalNat.Unsigned.of_to in H. exact H.
Qed.
Definition abc (p q : Q) : list phase_load :=
  [mkPL (Some "A") (Some p) (Some q) 1 false; mkPL (Some "B") (Some p) (Some q) 1 false; mkPL (Some "C") (Some p) (Some q) 1 false].
Definition plain_load (n : string) (ph : list phase_load) (v : Q) : load := mkLoad (Some n) (Some "Y") (Some "bus 7") (Some v) (Some (9 # 10)%Q) None ph [].

(** A name with a blank is not sanitized: the load gets another name, and the rest of the name is taken for a value. *)
Theorem C81_blank_name_refuted : exists l t e, load_text show_q [] [] false l = Ok (Some t) /\ read_dss t = Some [e] /\
  ld_name l = Some "house 3" /\ e_name e = "house" /\ prop e "" = Some "3".
Proof. exists (plain_load "house 3" (abc 1000 0) 2400). vm_compute. eexists. eexists. repeat split; reflexivity. Qed.
Print Assumptions C81_blank_name_refuted.

(** A three phase load below 300 V is written as a load of one phase: all of its power is at the first node. *)
Theorem C81_low_voltage_refuted : exists l t e, load_text show_q [] [] false l = Ok (Some t) /\ read_dss t = Some [e] /\
  ld_phases l = abc 1000 0 /\ ld_kv l = Some 208%Q /\ node_power num_q e "1" 3 /\ forall q, ~ node_power num_q e "2" q.
Proof.
  exists (plain_load "shop" (abc 1000 0) 208). eexists. eexists. split; [vm_compute; reflexivity|]. split; [vm_compute; reflexivity|].
  split; [reflexivity|]. split; [reflexivity|]. split.
  - eexists. eexists. exists 1. split; [vm_compute; reflexivity|]. split; [vm_compute; reflexivity|]. split; [reflexivity|]. split; [discriminate|]. split; [left; reflexivity | reflexivity].
  - intros q (v & kw & k & B & _ & K & _ & I & _). vm_compute in B. injection B as <-.
    match type of K with ?x = _ => assert (K1 : x = Some (str_of 1)) by (vm_compute; reflexivity) end. rewrite K1 in K. assert (k = 1) by (apply str_of_inj; congruence).
    subst k. vm_compute in I. destruct I as [I|[]]. discriminate I.
Qed.
Print Assumptions C81_low_voltage_refuted.

(** Only the total power is written: a load with all of its power on one phase reads like a balanced one. *)
Theorem C81_unbalanced_refuted : forall datasets fmts removed, exists l m, 
  map pl_p (ld_phases l) = [Some 3000%Q; Some 0%Q; Some 0%Q] /\ map pl_p (ld_phases m) = [Some 1000%Q; Some 1000%Q; Some 1000%Q] /\
  good_load datasets fmts l /\ good_load datasets fmts m /\ load_text show_q datasets fmts removed l = load_text show_q datasets fmts removed m.
Proof.
  intros datasets fmts removed.
  exists (plain_load "a" [mkPL (Some "A") (Some 3000%Q) None 1 false; mkPL (Some "B") (Some 0%Q) None 1 false; mkPL (Some "C") (Some 0%Q) None 1 false] 2400),
    (plain_load "a" [mkPL (Some "A") (Some 1000%Q) None 1 false; mkPL (Some "B") (Some 1000%Q) None 1 false; mkPL (Some "C") (Some 1000%Q) None 1 false] 2400).
  split; [reflexivity|]. split; [reflexivity|].
  assert (Gd : forall ph, (forall p x, In p ph -> pl_phase p = Some x -> exists n, at_node x n) -> good_load datasets fmts (plain_load "a" ph 2400)).
  { intros ph H. split; [exists "a"; split; [reflexivity | split; [discriminate | reflexivity]]|]. split; [discriminate|]. split; [exact H | constructor]. }
  split; [|split; [|vm_compute; reflexivity]]; apply Gd; intros p x I Q; cbn [In] in I;
    repeat (destruct I as [<-|I]; [injection Q as <-; eexists; constructor|]); destruct I.
Qed.
Print Assumptions C81_unbalanced_refuted.

(** The phases of a triplex load have no node: "None" is written. *)
Theorem C81_secondary_phase_refuted : exists l t e v b, load_text show_q [] [] false l = Ok (Some t) /\ read_dss t = Some [e] /\
  map pl_phase (ld_phases l) = [Some "s1"; Some "s2"] /\ prop e "bus1" = Some v /\ terminal v = (b, ["None"; "None"]).
Proof.
  exists (plain_load "home" [mkPL (Some "s1") (Some 1%Q) None 1 false; mkPL (Some "s2") (Some 1%Q) None 1 false] 240).
  vm_compute. eexists. eexists. eexists. eexists. repeat split; reflexivity.
Qed.
Print Assumptions C81_secondary_phase_refuted.

(** Only the model of the first phase is written. *)
Theorem C81_models_refuted : forall show datasets fmts removed n v p q x m m', 
  load_text show datasets fmts removed (plain_load n [mkPL (Some "A") p q x false; mkPL (Some "B") p q m false] v) =
  load_text show datasets fmts removed (plain_load n [mkPL (Some "A") p q x false; mkPL (Some "B") p q m' true] v).
Proof. reflexivity. Qed.
Print Assumptions C81_models_refuted.

Definition ex_sets : dict (dict string) := [("DEFAULT_DEFAULT", [("data/l1.csv", "l1"); ("data/l2.csv", "l2")])].
Definition ex_fmts : dict string := [("l1", "yearly"); ("l2", "daily")].
Definition ex_loads : list load :=
  [mkLoad (Some "house_1") (Some "Y") (Some "bus 7") (Some 2400%Q) (Some (9 # 10)%Q) None (abc 1000 200)
     [mkTs None None (Some "kw") (Some "data/l1.csv"); mkTs None None (Some "kvar") None];
   mkLoad (Some "house_2") (Some "D") (Some "b-9") (Some 480%Q) None None [mkPL (Some "C") (Some 700%Q) None 1 false] [mkTs None None (Some "kw") (Some "data/l2.csv")]].
Lemma yearly_ok : token "l1" /\ token "l2". Proof. split; (split; [discriminate | reflexivity]). Qed.
Example C81_hypotheses_met : faithful show_q num_q /\ Forall (good_load ex_sets ex_fmts) ex_loads /\
  (exists l e, load_is num_q ex_sets ex_fmts false l e /\ ld_conn l <> Some "D" /\ ld_phases l = abc 1000 200).
Proof.
  split; [exact faithful_q|].
  assert (G : Forall (good_load ex_sets ex_fmts) ex_loads).
  { assert (Sh : forall k f loc, (k, f, loc) = ("yearly", "l1", "data/l1.csv") \/ (k, f, loc) = ("daily", "l2", "data/l2.csv") ->
      shaped ex_sets ex_fmts (mkTs None None (Some "kw") (Some loc))).
    { intros k f loc H. right. exists k, f. destruct H as [H|H]; injection H as -> -> ->.
      - split; [|split; [right; reflexivity | apply yearly_ok]]. exists "data/l1.csv". eexists. split; [reflexivity|]. split; [discriminate|]. repeat split; reflexivity.
      - split; [|split; [left; reflexivity | apply yearly_ok]]. exists "data/l2.csv". eexists. split; [reflexivity|]. split; [discriminate|]. repeat split; reflexivity. }
    constructor; [|constructor; [|constructor]].
    - split; [exists "house_1"; split; [reflexivity | split; [discriminate | reflexivity]]|]. split; [discriminate|]. split.
      + intros p x I Q. cbn in I. repeat (destruct I as [<-|I]; [injection Q as <-; eexists; constructor|]). destruct I.
      + constructor; [eapply Sh; left; reflexivity|]. constructor; [|constructor]. left. right. reflexivity.
    - split; [exists "house_2"; split; [reflexivity | split; [discriminate | reflexivity]]|]. split; [discriminate|]. split.
      + intros p x I Q. cbn in I. repeat (destruct I as [<-|I]; [injection Q as <-; eexists; constructor|]). destruct I.
      + constructor; [eapply Sh; right; reflexivity | constructor]. }
  split; [exact G|].
  destruct (C81_loads show_q num_q ex_sets ex_fmts false ex_loads faithful_q G) as (ts & els & _ & _ & F). inversion F as [|l e ? ? H H0]; subst.
  eexists. exists e. split; [exact H|]. split; [discriminate | reflexivity].
Qed.
Example C81_text : mapM (load_text show_q ex_sets ex_fmts true) ex_loads = Ok [
  Some ("New Load.house_1 conn=wye bus1=bus_7.1.2.3 kV=2400/1000 Vminpu=9/10 model=1 kW=3000/1000 kvar=600/1000 Phases=3 !yearly=l1" ++ nl ++ nl)%string;
  Some ("New Load.house_2 conn=delta bus1=b_9.3.1 kV=480/1000 model=1 kW=700/1000 kvar=0/1000 Phases=1 !daily=l2" ++ nl ++ nl)%string].
Proof. reflexivity. Qed.

(** *** C82: lines *)
Theorem C82_lines : forall show num ls, faithful show num -> Forall good_line ls ->
  exists ts els, mapM (line_text show) ls = Ok (map Some ts) /\ read_dss (String.concat "" ts) = Some els /\ lines_are num ls els.
Proof.
  intros show num ls FS H. induction H as [|l r G _ (ts & els & M & R & F)]; [exists [], []; repeat split; constructor|].
  destruct (line_reads show num FS l G) as (t & e & T & I & Rd). exists (t :: ts).
  destruct Rd as [[Fu Rd]|(Fu & f & If & Rd)].
  - exists (e :: els). split; [cbn [mapM]; rewrite T, M; reflexivity|]. split; [|constructor; assumption].
    rewrite concat_texts in *. cbn [texts fold_right]. apply Rd. exact R.
  - exists (e :: f :: els). split; [cbn [mapM]; rewrite T, M; reflexivity|]. split; [|apply la_fuse; assumption].
    rewrite concat_texts in *. cbn [texts fold_right]. apply Rd. exact R.
Qed.
Print Assumptions C82_lines.

Theorem C82_file : forall show num sepf seps file order out (xs : list (dline * obj)),
  faithful show num -> (forall l o, In (l, o) xs -> good_line l /\ exists t, line_text show l = Ok t /\ o_txt o = t) ->
  (forall l, Permutation (order l) l) -> told_apart sepf seps file (map snd xs) -> plain_substations sepf seps (map snd xs) ->
  exists out', write_section sepf seps file order out (map snd xs) = Ok out' /\
    forall s f, used sepf seps (map snd xs) s f -> exists t hs els,
      dget (files out') (place sepf seps file s f) = Some t /\ residents sepf seps s f xs hs /\ read_dss t = Some els /\ lines_are num hs els.
Proof.
  intros show num sepf seps file order out xs FS H OP TA PS.
  apply (file_reads (lines_are num) sepf seps file order out xs); try assumption; [constructor|].
  intros l o I. destruct (H l o I) as (G & t' & T' & E). destruct (line_reads show num FS l G) as (t & e & T & Is & Rd).
  rewrite T in T'. injection T' as <-. exists t. destruct Rd as [[Fu Rd]|(Fu & f & If & Rd)].
  - exists [e]. split; [exact E|]. split; [intros ->; specialize (Rd "" [] eq_refl); discriminate Rd|].
    split; [intros rest els R; exact (Rd rest els R)|]. intros hs els F. apply la_line; assumption.
  - exists [e; f]. split; [exact E|]. split; [intros ->; specialize (Rd "" [] eq_refl); discriminate Rd|].
    split; [intros rest els R; exact (Rd rest els R)|]. intros hs els F. apply la_fuse; assumption.
Qed.
Print Assumptions C82_file.

(** The intermediate points of the file are those of its last line, after its name: those of the other lines are lost. *)
Theorem C82_points_refuted : forall show ls l n, ln_name l = Some n ->
  (forall ps, ln_pos l = ps -> ps <> [] -> intermediates show (ls ++ [l]) =
     (n ++ fold_right append "" (map (fun p => ";(" ++ show (fst p) ++ "," ++ show (snd p) ++ ")")%string ps) ++ String "010" (String "010" ""))%string) /\
  (ln_pos l = [] -> intermediates show (ls ++ [l]) = "").
Proof.
  intros show ls l n N. unfold intermediates. rewrite fold_left_app. cbn [fold_left]. rewrite N. split.
  - intros ps P NE. unfold points_text. rewrite P. destruct ps; [congruence|reflexivity].
  - intros P. unfold points_text. rewrite P. reflexivity.
Qed.
Print Assumptions C82_points_refuted.

Definition w3 (a b c : option bool) : list lwire := [mkLW (Some "A") a (Some 100%Q); mkLW (Some "B") b (Some 200%Q); mkLW (Some "C") c None; mkLW (Some "N") None None].
Definition plain_line (n : string) (len : option Q) (fuse : bool) (ws : list lwire) : dline :=
  mkDL (Some n) len (Some "bus 1") (Some "bus-2") true false fuse ws false (Some "code-1x") [].

(** A line that is open on one phase only is written like a closed one. *)
Theorem C82_open_phase_refuted : forall show n len fuse,
  line_text show (plain_line n len fuse (w3 (Some true) (Some false) (Some false))) = line_text show (plain_line n len fuse (w3 None None None)).
Proof. reflexivity. Qed.
Print Assumptions C82_open_phase_refuted.

(** A line shorter than one metre is written with one metre. *)
Theorem C82_short_line_refuted : forall show n fuse ws x, (0 <= x)%Q -> (x <= 1)%Q ->
  line_text show (plain_line n (Some x) fuse ws) = line_text show (plain_line n (Some 1%Q) fuse ws).
Proof.
  intros show n fuse ws x _ L. unfold line_text, plain_line. cbn [ln_name ln_geo ln_class ln_length ln_from ln_to ln_switch ln_breaker ln_fuse ln_wires opt_text].
  assert (Q : qmax (1 # 1000) (milli x) = 1 # 1000).
  { unfold qmax. assert (Qle_bool (milli x) (1 # 1000) = true) as ->; [|reflexivity]. apply Qle_bool_iff. unfold milli.
    setoid_replace (1 # 1000) with (1 * (1 # 1000))%Q at 2 by reflexivity. apply Qmult_le_compat_r; [exact L | discriminate]. }
  rewrite Q. reflexivity.
Qed.
Print Assumptions C82_short_line_refuted.

(** A line without a name class makes the section fail. *)
Theorem C82_no_class_refuted : forall show a l b, ln_name l <> None -> ln_geo l = false -> ln_class l = None -> Forall good_line a ->
  mapM (line_text show) (a ++ l :: b) = Err EType.
Proof.
  intros show a l b N G C F. induction F as [|x r H _ IH]; cbn [app mapM].
  - unfold line_text at 1. destruct (ln_name l); [|contradiction N; reflexivity]. rewrite G, C. reflexivity.
  - assert (X : exists t, line_text show x = Ok (Some t)).
    { destruct H as ((n & Nn & T) & B1 & B2 & (c & Cc & Tc) & Ph). unfold line_text. rewrite Nn, Cc. destruct (ln_geo x); cbn [of_opt bind]; eexists; reflexivity. }
    destruct X as [t ->]. cbn [bind]. rewrite IH. reflexivity.
Qed.
Print Assumptions C82_no_class_refuted.

Definition ex_lines : list dline := [plain_line "l1" (Some 250%Q) true (w3 None None None); plain_line "l2" None false (w3 (Some true) (Some true) (Some true))].
Example C82_hypotheses_met : Forall good_line ex_lines.
Proof.
  assert (G : forall n len fuse a b c, token n -> good_line (plain_line n len fuse (w3 a b c))).
  { intros n len fuse a b c T. split; [exists n; split; [reflexivity | exact T]|]. split; [discriminate|]. split; [discriminate|]. split.
    - exists "code-1x". split; [reflexivity|]. split; [discriminate | reflexivity].
    - intros w p I Q. cbn in I. repeat (destruct I as [<-|I]; [injection Q as <-; cbn; tauto|]). destruct I. }
  repeat apply Forall_cons; try apply Forall_nil; apply G; (split; [discriminate | reflexivity]).
Qed.
Example C82_text : mapM (line_text show_q) ex_lines = Ok [
  Some ("New Line.l1 Units=km Length=250/1000 bus1=bus_1.1.2.3 bus2=bus_2.1.2.3 switch=y enabled=y phases=3 Linecode=code_1x" ++ nl ++ nl ++
        "New Fuse.Fuse_l1 monitoredobj=Line.l1 enabled=y ratedcurrent=200/1" ++ nl ++ nl)%string;
  Some ("New Line.l2 Units=km bus1=bus_1.1.2.3 bus2=bus_2.1.2.3 switch=y enabled=n phases=3 Linecode=code_1x" ++ nl ++ nl)%string].
Proof. reflexivity. Qed.

(** *** C83: capacitors *)
Theorem C83_capacitors : forall show num cs, faithful show num -> Forall good_cap cs ->
  exists ts els, map (cap_text show) cs = map Some ts /\ read_dss (String.concat "" ts) = Some els /\ caps_are num cs els.
Proof.
  intros show num cs FS H. induction H as [|c r G _ (ts & els & M & R & F)]; [exists [], []; repeat split; constructor|].
  destruct (cap_reads show num FS c G) as (t & e & T & I & Rd). exists (t :: ts).
  destruct Rd as [[Fu Rd]|(Fu & f & If & Rd)].
  - exists (e :: els). split; [cbn [map]; rewrite T, M; reflexivity|]. split; [|apply ca_cap; assumption].
    rewrite concat_texts in *. cbn [texts fold_right]. apply Rd. exact R.
  - exists (e :: f :: els). split; [cbn [map]; rewrite T, M; reflexivity|]. split; [|apply ca_control; assumption].
    rewrite concat_texts in *. cbn [texts fold_right]. apply Rd. exact R.
Qed.
Print Assumptions C83_capacitors.

Theorem C83_file : forall show num sepf seps file order out (xs : list (capacitor * obj)),
  faithful show num -> (forall c o, In (c, o) xs -> good_cap c /\ o_txt o = cap_text show c) ->
  (forall l, Permutation (order l) l) -> told_apart sepf seps file (map snd xs) -> plain_substations sepf seps (map snd xs) ->
  exists out', write_section sepf seps file order out (map snd xs) = Ok out' /\
    forall s f, used sepf seps (map snd xs) s f -> exists t hs els,
      dget (files out') (place sepf seps file s f) = Some t /\ residents sepf seps s f xs hs /\ read_dss t = Some els /\ caps_are num hs els.
Proof.
  intros show num sepf seps file order out xs FS H OP TA PS.
  apply (file_reads (caps_are num) sepf seps file order out xs); try assumption; [constructor|].
  intros l o I. destruct (H l o I) as (G & E). destruct (cap_reads show num FS l G) as (t & e & T & Is & Rd).
  rewrite T in E. exists t. destruct Rd as [[Fu Rd]|(Fu & f & If & Rd)].
  - exists [e]. split; [exact E|]. split; [intros ->; specialize (Rd "" [] eq_refl); discriminate Rd|].
    split; [intros rest els R; exact (Rd rest els R)|]. intros hs els F. apply ca_cap; assumption.
  - exists [e; f]. split; [exact E|]. split; [intros ->; specialize (Rd "" [] eq_refl); discriminate Rd|].
    split; [intros rest els R; exact (Rd rest els R)|]. intros hs els F. apply ca_control; assumption.
Qed.
Print Assumptions C83_file.

Definition plain_cap (ph : list phase_cap) (mode : option string) : capacitor :=
  mkCap (Some "c1") (Some "bus 3") ph (Some 4160%Q) (Some "Y") (Some "l7") None mode (Some 118%Q) (Some 122%Q) (Some 20%Q) None (Some "B").

(** A wye capacitor on two phases is written as one capacitor between the two phases. *)
Theorem C83_two_phases_refuted : exists c t e k v b, cap_text show_q c = Some t /\ read_dss t = Some [e; k] /\
  cp_conn c = Some "Y" /\ map pc_phase (cp_phases c) = [Some "A"; Some "B"] /\ prop e "phases" = Some "1" /\ prop e "bus1" = Some v /\ terminal v = (b, ["1"; "2"]).
Proof. exists (plain_cap [mkPC (Some "A") (Some 1000%Q); mkPC (Some "B") (Some 1000%Q)] None). vm_compute. do 5 eexists. repeat split; reflexivity. Qed.
Print Assumptions C83_two_phases_refuted.

(** A capacitor without phases is written as a three phase capacitor of 0 kvar. *)
Theorem C83_no_phases_refuted : exists c t e k, cap_text show_q c = Some t /\ read_dss t = Some [e; k] /\ cp_phases c = [] /\ prop e "phases" = Some "3" /\ value num_q e "kvar" = Some (0 # 1000)%Q.
Proof. exists (plain_cap [] None). vm_compute. do 3 eexists. repeat split; reflexivity. Qed.
Print Assumptions C83_no_phases_refuted.

(** A control by admittance has the type "None". *)
Theorem C83_admittance_refuted : exists c t e k, cap_text show_q c = Some t /\ read_dss t = Some [e; k] /\ cp_mode c = Some "admittance" /\ prop k "type" = Some "None".
Proof. exists (plain_cap [] (Some "admittance")). vm_compute. do 3 eexists. repeat split; reflexivity. Qed.
Print Assumptions C83_admittance_refuted.

Definition ex_caps : list capacitor :=
  [plain_cap [mkPC (Some "A") (Some 1000%Q); mkPC (Some "B") (Some 1000%Q); mkPC (Some "C") None] (Some "currentFlow");
   mkCap (Some "c2") (Some "bus 4") [mkPC (Some "C") (Some 500%Q)] None None None None None None None None None None].
Example C83_hypotheses_met : Forall good_cap ex_caps.
Proof.
  apply Forall_cons; [|apply Forall_cons; [|apply Forall_nil]].
  - split; [exists "c1"; split; [reflexivity | split; [discriminate | reflexivity]]|]. split; [discriminate|]. split.
    + intros x Q. injection Q as <-. split; [discriminate | reflexivity].
    + split; [|intros p Q; injection Q as <-; eexists; constructor]. intros m Q. injection Q as <-. exists "current". constructor.
  - split; [exists "c2"; split; [reflexivity | split; [discriminate | reflexivity]]|]. split; [discriminate|]. repeat split; discriminate.
Qed.
Example C83_text : map (cap_text show_q) ex_caps = [
  Some ("New Capacitor.c1 bus1=bus_3 phases=3 Kv=4160/1000 conn=Wye Kvar=2000/1000" ++ nl ++ nl ++
        "New CapControl.c1 Capacitor=c1 Element=Line.l7 Terminal=1 Type=current Vmin=118/1 Vmax=122/1 Ptratio=20/1 PTPhase=2" ++ nl ++ nl)%string;
  Some ("New Capacitor.c2 bus1=bus_4.3 phases=1 Kvar=500/1000" ++ nl ++ nl)%string].
Proof. reflexivity. Qed.
