(** Theorems about the regulators of the OpenDSS script (C85). *)
From Verif Require Import Base BaseFacts CsvModel DssNameModel DssCodeModel DssFileModel DssTextModel DssTransModel DssRegModel DssNameSpec DssTextSpec DssFileSpec DssLoadSpec DssTransSpec DssRegSpec
  DssTextProofs DssLoadProofs DssLineTextProofs DssTransProofs DssRegProofs DssFileProofs DssFileProps DssTextProps DssTransProps.
From Coq Require Import QArith Lia DecimalString Permutation.
Local Open Scope string_scope.
Local Open Scope nat_scope.
Local Open Scope list_scope.

(** [pick] takes an element of a set. *)
Definition picks_one (pick : list Q -> Q) : Prop := forall l, l <> [] -> In (pick l) l.

(** *** C85 *)
Theorem C85_regulators : forall show num pick ts l, faithful show num -> picks_one pick -> Forall good_reg l ->
  exists c t cs es, reg_group show pick ts l = Ok (c, t) /\ read_dss c = Some cs /\ Forall2 (control_of num ts) l cs /\ read_dss t = Some es /\ creations num l es.
Proof.
  intros show num pick ts l FS PK G. destruct (group_reads show num FS pick PK ts l G ("", "")) as (c & t & cs & es & F & C & E & Rc & Rt).
  exists c, t, cs, es. split; [exact F|]. specialize (Rc "" [] eq_refl). specialize (Rt "" [] eq_refl). rewrite app_nil_s, app_nil_r in *. repeat split; assumption.
Qed.
Print Assumptions C85_regulators.

(** The created transformers, put at the end of the file of the transformers, are read after them. *)
Theorem C85_appended : forall show num pick taps ts l, faithful show num -> picks_one pick -> Forall (good_trans taps) ts -> Forall good_reg l ->
  exists xs c t els es, mapM (trans_text show taps) ts = Ok xs /\ reg_group show pick ts l = Ok (c, t) /\
    read_dss (String.concat "" xs ++ t)%string = Some (els ++ es) /\ Forall2 (trans_is num taps) ts els /\ creations num l es.
Proof.
  intros show num pick taps ts l FS PK GT G. destruct (C85_regulators show num pick ts l FS PK G) as (c & t & cs & es & F & _ & _ & Rt & E).
  enough (X : exists xs els, mapM (trans_text show taps) ts = Ok xs /\ read_dss (String.concat "" xs ++ t)%string = Some (els ++ es) /\ Forall2 (trans_is num taps) ts els).
  { destruct X as (xs & els & A & B & C). exists xs, c, t, els, es. repeat split; assumption. }
  clear F E G. induction GT as [|u r Gu _ (xs & els & M & R & I)]; [exists [], []; repeat split; [exact Rt | constructor]|].
  destruct (trans_reads show num taps u FS Gu) as (x & e & T & Iu & Rd).
  exists (x :: xs), (e :: els). split; [cbn [mapM]; rewrite T, M; reflexivity|]. split; [|constructor; assumption].
  rewrite concat_texts in *. cbn [texts fold_right app]. rewrite app_assoc_s. apply Rd. exact R.
Qed.
Print Assumptions C85_appended.

(** The controls of each written file are those of its feeder. *)
Theorem C85_file : forall show num pick ts sepf seps file order out (xs : list (regulator * obj)),
  faithful show num -> picks_one pick ->
  (forall l o, In (l, o) xs -> good_reg l /\ exists c t, reg_text show pick (compensator pw_x ts) (compensator pw_r ts) l = Ok (Some (c, t)) /\ o_txt o = Some c) ->
  (forall l, Permutation (order l) l) -> told_apart sepf seps file (map snd xs) -> plain_substations sepf seps (map snd xs) ->
  exists out', write_section sepf seps file order out (map snd xs) = Ok out' /\
    forall s f, used sepf seps (map snd xs) s f -> exists t hs els,
      dget (files out') (place sepf seps file s f) = Some t /\ residents sepf seps s f xs hs /\ read_dss t = Some els /\
      Forall2 (control_of num ts) hs els.
Proof.
  intros show num pick ts sepf seps file order out xs FS PK H OP TA PS.
  apply (file_reads (Forall2 (control_of num ts)) sepf seps file order out xs); try assumption; [constructor|].
  intros l o I. destruct (H l o I) as (G & c' & t' & T' & E). destruct (reg_reads show num FS pick PK ts l G) as (c & t & e & T & Is & Rd & _).
  exists c, [e]. rewrite T in T'. injection T' as <- _. split; [exact E|]. split.
  - intros ->. specialize (Rd "" [] eq_refl). discriminate Rd.
  - split; [intros rest els R; exact (Rd rest els R)|]. intros hs els F. constructor; assumption.
Qed.
Print Assumptions C85_file.

Lemma group_fails show pick xs rs r l : In r l -> (exists x, reg_text show pick xs rs r = Err x) -> forall st, exists y, foldM (reg_step show pick xs rs) l st = Err y.
Proof.
  intros I (x & E). induction l as [|a l IH]; [destruct I|]. intros st. cbn [foldM]. unfold reg_step at 1. destruct I as [->|I].
  - rewrite E. exists x. reflexivity.
  - destruct (reg_text show pick xs rs a) as [[[c t]|]|y]; cbn [bind]; [apply (IH I) | apply (IH I) | exists y; reflexivity].
Qed.

(** One regulator with no-load losses and the regulators are not written at all. *)
Theorem C85_noload_loss_refuted : forall show pick ts l r, In r l -> rg_name r <> None -> rg_noload r <> None -> exists x, reg_group show pick ts l = Err x.
Proof.
  intros show pick ts l r I N L. apply (group_fails _ _ _ _ r); [exact I|]. unfold reg_text. destruct (rg_name r) as [n|]; [|contradiction N; reflexivity].
  destruct (rg_noload r); [|contradiction L; reflexivity]. destruct (match rg_trans r with Some _ => Ok "" | None => created_text show n r end); cbn [bind]; eexists; reflexivity.
Qed.
Print Assumptions C85_noload_loss_refuted.

(** Nor are they with a regulator that has no transformer and no windings, no phase windings, or a winding without voltage. *)
Theorem C85_windings_refuted : forall show pick ts l r, In r l -> rg_name r <> None -> rg_trans r = None ->
  rg_windings r = [] \/ (exists w, nth_error (rg_windings r) 0 = Some w /\ wd_phases w = []) \/ (exists w, In w (rg_windings r) /\ wd_v w = None) ->
  exists x, reg_group show pick ts l = Err x.
Proof.
  intros show pick ts l r I N T H. apply (group_fails _ _ _ _ r); [exact I|]. unfold reg_text. destruct (rg_name r) as [n|]; [|contradiction N; reflexivity]. rewrite T.
  assert (C : exists x, created_text show n r = Err x).
  { unfold created_text. destruct (rg_windings r) as [|w1 rw] eqn:W; [exists EIndex; reflexivity|]. destruct (wd_phases w1) as [|p ps] eqn:P; [exists EType; reflexivity|].
    destruct H as [H|[(w & E & Q)|(w & J & V)]]; [discriminate H | injection E as <-; congruence|].
    assert (M : exists x, mapM (fun w => do v <- of_opt EType (wd_v w); Ok (show (milli v))) (w1 :: rw) = Err x).
    { clear - J V. induction (w1 :: rw) as [|u m IH]; [destruct J|]. cbn [mapM]. destruct J as [->|J].
      - rewrite V. exists EType. reflexivity.
      - destruct (IH J) as [x ->]. destruct (wd_v u); cbn [of_opt bind]; eexists; reflexivity. }
    destruct M as [x ->]. exists x. reflexivity. }
  destruct C as [x ->]. exists x. reflexivity.
Qed.
Print Assumptions C85_windings_refuted.

(** The settings of the compensator are looked up by the name of the regulator, not by its transformer: those of the connected transformer are lost. *)
Theorem C85_compensator_refuted : forall show num pick ts r m q, faithful show num -> picks_one pick -> good_reg r ->
  rg_trans r = Some m -> setting_of pw_x ts m q -> (forall t, In t ts -> tr_name t <> rg_name r) ->
  exists c e, reg_group show pick ts [r] = Ok (c, "") /\ read_dss c = Some [e] /\ prop e "x" = None /\ prop e "r" = None.
Proof.
  intros show num pick ts r m q FS PK G T _ H. destruct (reg_reads show num FS pick PK ts r G) as (c & t & e & E & C & R & S). rewrite T in S. subst t.
  exists c, e. split; [|split].
  - unfold reg_group. cbn [foldM]. unfold reg_step. rewrite E. reflexivity.
  - specialize (R "" [] eq_refl). rewrite app_nil_s in R. exact R.
  - assert (K : forall f y, ~ setting_of f ts (e_name e) y) by (intros f y (u & w & p & I & N & _); apply (H u I); rewrite N; symmetry; exact (co_name _ _ _ _ C)).
    split; [destruct (co_x _ _ _ _ C) as [[_ P]|(y & S & _)] | destruct (co_r _ _ _ _ C) as [[_ P]|(y & S & _)]]; try exact P; destruct (K _ _ S).
Qed.
Print Assumptions C85_compensator_refuted.

(** The emergency rating of a created transformer is in volt-amperes where kilovolt-amperes are read. *)
Theorem C85_emergency_refuted : forall num r e w v, created_is num r e -> nth_error (rg_windings r) 0 = Some w -> wd_emerg w = Some v -> ~ (v == 0)%Q ->
  ~ gives num e "emerghkva" (Some (v / 1000)%Q).
Proof.
  intros num r e w v [_ _ _ (u & W & _ & G & _) _ _ _ _ _ _ _] W' E NZ (y & V & Y). rewrite W in W'. injection W' as ->. rewrite E in G. destruct G as (z & V' & Z).
  rewrite V in V'. injection V' as ->. apply NZ. rewrite Z in Y. assert (X : (v * 1000 == v)%Q) by (transitivity (v / 1000 * 1000)%Q; [rewrite <- Y; reflexivity | field]).
  assert (X' : (v * 999 == 0)%Q) by (setoid_replace (v * 999)%Q with (v * 1000 - v)%Q by ring; rewrite X; ring). apply Qmult_integral in X' as [X'|X']; [exact X' | discriminate X'].
Qed.
Print Assumptions C85_emergency_refuted.

(** A winding without a known connection gets the connection of the next one. *)
Theorem C85_connections_refuted : forall num r e w1 w2 c d, created_is num r e -> rg_windings r = [w1; w2] -> wd_conn w1 = None -> wd_conn w2 = Some c -> conn_is c d ->
  exists v, prop e "conns" = Some v /\ nth_error (items v) 0 = Some d /\ nth_error (items v) 1 = None.
Proof.
  intros num r e w1 w2 c d [_ _ _ _ C _ _ _ _ _ _] W C1 C2 D. rewrite W in C. cbn [map known_conns] in C. rewrite C1, C2 in C. cbn [known_conns] in C.
  assert (X : existsb (String.eqb c) ["Y"; "D"; "Z"] = true) by (destruct D; reflexivity). rewrite X in C. destruct C as (v & P & F).
  inversion F as [|? y ? ys Y Ys E1 E2]; subst. inversion Ys; subst. exists v. split; [exact P|]. rewrite <- E2.
  split; [destruct D; inversion Y; reflexivity | reflexivity].
Qed.
Print Assumptions C85_connections_refuted.

Definition rwd (c : option string) (v s : option Q) (ps : list phase_winding) : winding := mkWd c v s None None false ps.
Definition bare_reg (n : string) (tr : option string) (ws : list winding) : regulator :=
  mkReg (Some n) tr (Some "sub 1") (Some "bus.7") ws [] None None None None None None None None None None.
(** A created transformer of which no rated power is known gets the stray value "kvas)", without a keyword. *)
Theorem C85_kvas_refuted : exists r c t, rg_name r = Some "reg1" /\ rg_noload r = None /\
  reg_group show_q (hd 0%Q) [] [r] = Ok (c, t) /\ read_dss c <> None /\
  exists e, read_dss t = Some [e] /\ prop e "kvas" = None /\ In ("", "kvas)") (e_props e).
Proof.
  exists (bare_reg "reg1" None [rwd (Some "Y") (Some 7200%Q) None [mkPW (Some "A") None None None]; rwd (Some "Y") (Some 7200%Q) None [mkPW (Some "A") None None None]]).
  eexists _, _. split; [reflexivity|]. split; [reflexivity|]. split; [vm_compute; reflexivity|]. split; [vm_compute; discriminate|].
  eexists. split; [vm_compute; reflexivity|]. split; [vm_compute; reflexivity | cbn; tauto].
Qed.
Print Assumptions C85_kvas_refuted.

Definition reg_a : regulator := mkReg (Some "reg_a") None (Some "sub 1") (Some "bus.7")
  [rwd (Some "Y") (Some 7200%Q) (Some 100000%Q) [mkPW (Some "A") None None None; mkPW (Some "C") None None None]; rwd (Some "D") (Some 7200%Q) None []] [1%Q]
  None (Some 300%Q) None (Some 15%Q) (Some 60%Q) (Some 2%Q) (Some 122%Q) (Some "C") None (Some 102%Q).
Definition reg_b : regulator := mkReg (Some "t9") (Some "t9") None None [] [] (Some 2%Z) None None None None None (Some 124%Q) None (Some 130%Q) None.
Definition trans_9 : transformer := mkTr (Some "t9") (Some "a") (Some "b") None None None
  [mkWd (Some "Y") None None None None false [mkPW (Some "A") None (Some 3%Q) (Some 7%Q)]; mkWd (Some "Y") None None None None false [mkPW (Some "A") None None (Some 7%Q)]] None false.
Example C85_hypotheses_met : Forall good_reg [reg_a; reg_b] /\ faithful show_q num_q /\ picks_one (hd 0%Q) /\ good_trans false trans_9.
Proof.
  split; [|split; [exact faithful_q|split]].
  - apply Forall_cons; [|apply Forall_cons; [|apply Forall_nil]].
    + split; [exists "reg_a"; split; [reflexivity | split; [discriminate | reflexivity]]|]. split; [reflexivity|].
      split; [intros p Q; injection Q as <-; eexists; constructor|]. cbn [rg_trans reg_a]. split; [|split].
      * do 3 eexists. split; [reflexivity|]. split; [reflexivity|]. intros q [<-|[<-|[]]]; (do 2 eexists; split; [reflexivity | constructor]).
      * intros w [<-|[<-|[]]]; discriminate.
      * discriminate.
    + split; [exists "t9"; split; [reflexivity | split; [discriminate | reflexivity]]|]. split; [reflexivity|]. split; [intros p Q; discriminate Q|]. split; [discriminate | reflexivity].
  - intros [|q l] H; [contradiction H; reflexivity | left; reflexivity].
  - left. split; [split; [exists "t9"; split; [reflexivity | split; [discriminate | reflexivity]]|split; [exists "a" | exists "b"]; (split; [reflexivity | discriminate])]|].
    split; [reflexivity|]. split; repeat (apply Forall_cons); try apply Forall_nil; try (intros p x [<-|[]] Q; injection Q as <-; eexists; constructor); intros Q; discriminate Q.
Qed.
Example C85_text : reg_group show_q (hd 0%Q) [trans_9] [reg_a; reg_b] = Ok (
  ("New RegControl.reg_a transformer=trans_reg_a winding=2 CTprim=300/1 delay=15/1 ptratio=60/1 band=24/10 vreg=122/1 Ptphase=3 vreg = 12240/100" ++ nl ++ nl ++
   "New RegControl.t9 transformer=t9 winding=2 vreg=124/1 vlimit=130/1 X=7/1 R=3/1" ++ nl ++ nl)%string,
  ("New Transformer.trans_reg_a phases=2 windings=2 buses=(sub_1.1.3,bus_7.1.3) conns=(Wye, Delta) kvs=(7200/1000, 7200/1000) kvas=(100000/1000) XHL=1/1" ++ nl ++ nl ++ nl ++ nl)%string).
Proof. vm_compute. reflexivity. Qed.
