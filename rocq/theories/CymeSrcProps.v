(** C111: the sources of the CYME reader. *)
From Coq Require Import List String Ascii Bool Arith Reals Lra Lia.
From Verif Require Import Base BaseFacts CymeMapModel CymeParseModel CymeSrcModel CymeSrcSpec.
Import ListNotations.
Local Open Scope string_scope.
Local Open Scope nat_scope.
Local Open Scope list_scope.

Section Proofs.
Variable num : string -> option R.
Variable sections : list (string * record).
Hypothesis WH : Forall (fun e => whole (snd e)) sections.

Lemma float_iff d k x : float_of num d k = Ok x <-> number_in num d k x.
Proof.
  unfold float_of, number_in. destruct (dget d k) as [t|]; cbn; [|split; [discriminate|intros (t & E & _); discriminate]].
  destruct (num t) eqn:N; cbn; (split; [intros H; exists t; split; [reflexivity|congruence]|intros (t' & E & H); congruence]).
Qed.
Lemma attempt_spec d k : thousands num d k (attempt (kilo (float_of num d k))).
Proof.
  destruct (float_of num d k) as [x|e] eqn:E.
  - left. exists x. split; [now apply float_iff|reflexivity].
  - right. split; [|reflexivity]. intros x H. apply float_iff in H. congruence.
Qed.
Lemma impedance_iff d r x r' x' z : impedance num d r x r' x' = Ok z <-> impedance_is num d r x r' x' z.
Proof.
  assert (G : forall a b, (do p <- float_of num d a; do q <- float_of num d b; Ok (p, q)) = Ok z <-> number_in num d a (fst z) /\ number_in num d b (snd z)).
  { intros a b. rewrite <- !float_iff. destruct z as [z1 z2]. destruct (float_of num d a); cbn; [|split; [discriminate|intros [H _]; discriminate]]. destruct (float_of num d b); cbn; split; try discriminate; intros; try (destruct H; congruence); injection H as -> ->; now split. }
  unfold impedance, impedance_is, dmem. destruct (dget d r) as [t|]; rewrite G; split.
  - intros H. left. split; [discriminate|exact H].
  - intros [(_ & H)|(H & _)]; [exact H|discriminate].
  - intros H. right. split; [reflexivity|exact H].
  - intros [(H & _)|(_ & H)]; [congruence|exact H].
Qed.

Lemma find_one n v d : whole d -> exists v', find_section (Some n) v d = Ok v' /\
  ((dget d "fromnodeid" = Some n \/ dget d "tonodeid" = Some n) /\ (exists ps, v' = Some (n, ps)) \/
   (dget d "fromnodeid" <> Some n /\ dget d "tonodeid" <> Some n /\ v' = v)).
Proof.
  intros (f & t & p & EF & ET & EP). unfold find_section. rewrite EF, ET, EP. cbn [of_opt bind].
  destruct (String.eqb_spec f n) as [->|NF]; destruct (String.eqb_spec t n) as [->|NT]; cbn [bind]; eexists; (split; [reflexivity|]).
  - left. split; [now left|eauto].
  - left. split; [now left|eauto].
  - left. split; [now right|eauto].
  - right. split; [congruence|]. split; [congruence|reflexivity].
Qed.
Lemma find_all n v : exists v', find_sections sections (Some n) v = Ok v' /\ ((touched sections n /\ exists ps, v' = Some (n, ps)) \/ (~ touched sections n /\ v' = v)).
Proof.
  unfold find_sections. revert v. induction WH as [|[k d] l W F IH]; intros v; cbn [map foldM].
  - exists v. split; [reflexivity|]. right. split; [intros (k & d & [] & _)|reflexivity].
  - cbn [snd] in *. destruct (find_one n v d W) as (v1 & -> & H1). destruct (IH F v1) as (v2 & -> & H2). exists v2. split; [reflexivity|].
    destruct H2 as [((k' & d' & I & T) & E2)|(NT & ->)]; [left; split; [exists k', d'; split; [now right|exact T]|exact E2]|].
    destruct H1 as [(T & E1)|(NF & NT' & ->)]; [left; split; [exists k, d; split; [now left|exact T]|exact E1]|].
    right. split; [|reflexivity]. intros (k' & d' & [E|I] & T); [injection E as <- <-; tauto|apply NT; exists k', d'; now split].
Qed.

Lemma equivalents_ok l : Forall (usable num sections) l -> forall made v, exists r out v',
  those is_default l r /\ foldM (equivalent_step num sections) l (made, v) = Ok (made ++ out, v') /\ Forall2 (from_equivalent num) r out.
Proof.
  induction l as [|d l IH]; intros F made v; [exists [], [], v; split; [constructor|]; split; [cbn; now rewrite app_nil_r|constructor]|].
  inversion F as [|? ? (m & EM & U) F']; subst. cbn [foldM]. unfold equivalent_step at 1. rewrite EM. cbn [of_opt bind].
  destruct (String.eqb_spec (lower m) "default") as [D|ND].
  - destruct (U D) as (n & p & z & EN & T & P & Z). rewrite EN. destruct (find_all n v) as (v1 & -> & H). destruct H as [(_ & ps & ->)|(NT & _)]; [|tauto]. cbn [of_opt bind].
    apply impedance_iff in P. apply impedance_iff in Z. unfold positive, zero. rewrite P, Z. cbn [bind].
    destruct (IH F' (made ++ [mkSource (n ++ "_src")%string (attempt (kilo (float_of num d "voltage"))) (kept_phases ps) true (attempt (kilo (float_of num d "mva"))) 0%R p z n]) (Some (n, ps))) as (r & out & v' & TH & E & FF).
    exists (d :: r), (mkSource (n ++ "_src")%string (attempt (kilo (float_of num d "voltage"))) (kept_phases ps) true (attempt (kilo (float_of num d "mva"))) 0%R p z n :: out), v'.
    split; [constructor; [now exists m|exact TH]|]. split; [rewrite E, <- app_assoc; reflexivity|]. constructor; [|exact FF]. exists n. split; [exact EN|]. split; [|apply attempt_spec].
    repeat split; cbn; now apply impedance_iff.
  - destruct (IH F' made v) as (r & out & v' & TH & E & FF). exists r, out, v'. split; [|now split]. apply those_out; [|exact TH]. intros (m' & EM' & D). congruence.
Qed.

Lemma sources_ok equivalents subs l : Forall (fun e => substation_of subs e -> fed num sections equivalents e) l -> forall made v, exists r out v',
  those (substation_of subs) l r /\ foldM (source_step num sections equivalents subs) l (made, v) = Ok (made ++ out, v') /\ Forall2 (from_source num equivalents subs) r out.
Proof.
  induction l as [|[sid d] l IH]; intros F made v; [exists [], [], v; split; [constructor|]; split; [cbn; now rewrite app_nil_r|constructor]|].
  inversion F as [|? ? U F']; subst. cbn [foldM]. unfold source_step at 1. unfold substation_of in U. cbn [fst snd] in U. destruct (dget subs sid) as [sub|] eqn:ES.
  - destruct U as (n & q & p & z & EN & EQ & T & P & Z); [discriminate|]. cbn [fst snd] in *. rewrite EN, EQ. destruct (find_all n v) as (v1 & -> & H). destruct H as [(_ & ps & ->)|(NT & _)]; [|tauto]. cbn [of_opt bind].
    apply impedance_iff in P. apply impedance_iff in Z. unfold positive, zero. rewrite P, Z. cbn [bind]. cbv zeta.
    match goal with |- context [foldM _ l (made ++ [?s], ?w)] => destruct (IH F' (made ++ [s]) w) as (r & out & v' & TH & E & FF); exists ((sid, d) :: r), (s :: out), v' end.
    split; [constructor; [unfold substation_of; cbn; congruence|exact TH]|]. split; [rewrite E, <- app_assoc; reflexivity|]. constructor; [|exact FF]. exists n, q, sub. cbn [fst snd]. do 3 (split; [assumption|]). split; [|split].
    + repeat split; cbn; now apply impedance_iff.
    + apply attempt_spec.
    + cbn [s_nominal]. unfold dmem. destruct (dget d "desiredvoltage") eqn:DV; [left; split; [discriminate|apply attempt_spec]|right; split; [reflexivity|apply attempt_spec]].
  - destruct (IH F' made v) as (r & out & v' & TH & E & FF). exists r, out, v'. split; [|now split]. apply those_out; [|exact TH]. unfold substation_of. cbn. congruence.
Qed.
End Proofs.

(** Without a table of sources, every default source equivalent becomes a source at its node. *)
Theorem C111_equivalents : forall num sections equivalents subs, Forall (fun e => whole (snd e)) sections -> Forall (usable num sections) (map snd equivalents) ->
  exists l used, parse_sources num sections [] equivalents subs = Ok l /\ those is_default (map snd equivalents) used /\ Forall2 (from_equivalent num) used l.
Proof.
  intros num sections equivalents subs W U. destruct (equivalents_ok num sections W _ U [] None) as (r & out & v & T & E & F). exists out, r. cbn [parse_sources]. setoid_rewrite E. now repeat split.
Qed.
Print Assumptions C111_equivalents.

(** With one, every source of a known substation becomes a source at its node. *)
Theorem C111_sources : forall num sections sources equivalents subs, sources <> [] -> Forall (fun e => whole (snd e)) sections ->
  Forall (fun e => substation_of subs e -> fed num sections equivalents e) sources ->
  exists l used, parse_sources num sections sources equivalents subs = Ok l /\ those (substation_of subs) sources used /\ Forall2 (from_source num equivalents subs) used l.
Proof.
  intros num sections sources equivalents subs NE W U. destruct (sources_ok num sections W equivalents subs _ U [] None) as (r & out & v & T & E & F). exists out, r. unfold parse_sources. destruct sources; [congruence|]. setoid_rewrite E. now repeat split.
Qed.
Print Assumptions C111_sources.

(** No source has phases or an angle, whatever the tables say. *)
Theorem C111_phases_refuted : forall num sections sources equivalents subs l, parse_sources num sections sources equivalents subs = Ok l -> Forall (fun s => s_phases s = [] /\ s_angle s = 0%R) l.
Proof.
  intros num sections sources equivalents subs l.
  assert (KP : forall ps, kept_phases ps = []) by (intros []; reflexivity).
  assert (A : forall es st st', Forall (fun s => s_phases s = [] /\ s_angle s = 0%R) (fst st) -> foldM (equivalent_step num sections) es st = Ok st' -> Forall (fun s => s_phases s = [] /\ s_angle s = 0%R) (fst st')).
  { induction es as [|d es IH]; intros [made v] st' F E; cbn [foldM] in E; [injection E as <-; exact F|]. destruct (equivalent_step num sections (made, v) d) as [[made1 v1]|] eqn:S; [|discriminate]. eapply IH; [|exact E]. cbn [fst] in *. clear E IH. unfold equivalent_step in S.
    destruct (dget d "loadmodelname"); cbn [of_opt bind] in S; [|discriminate]. destruct (lower s =? "default")%string; [|injection S as <- _; exact F]. destruct (find_sections sections (dget d "nodeid") v) as [[[n ps]|]|]; cbn [of_opt bind] in S; try discriminate.
    destruct (positive num d); cbn [bind] in S; [|discriminate]. destruct (zero num d); cbn [bind] in S; [|discriminate]. injection S as <- _. apply Forall_app. split; [exact F|]. constructor; [|constructor]. split; [apply KP|reflexivity]. }
  assert (B : forall es st st', Forall (fun s => s_phases s = [] /\ s_angle s = 0%R) (fst st) -> foldM (source_step num sections equivalents subs) es st = Ok st' -> Forall (fun s => s_phases s = [] /\ s_angle s = 0%R) (fst st')).
  { induction es as [|[sid d] es IH]; intros [made v] st' F E; cbn [foldM] in E; [injection E as <-; exact F|]. destruct (source_step num sections equivalents subs (made, v) (sid, d)) as [[made1 v1]|] eqn:S; [|discriminate]. eapply IH; [|exact E]. cbn [fst] in *. clear E IH. unfold source_step in S. cbv zeta in S.
    destruct (dget subs sid); [|injection S as <- _; exact F]. destruct (find_sections sections (dget d "nodeid") v) as [[[n ps]|]|]; cbn [of_opt bind] in S; try discriminate. destruct (match dget d "nodeid" with Some n0 => dget equivalents n0 | None => None end) as [q|]; cbn [of_opt bind] in S; [|discriminate].
    destruct (positive num q); cbn [bind] in S; [|discriminate]. destruct (zero num q); cbn [bind] in S; [|discriminate]. injection S as <- _. apply Forall_app. split; [exact F|]. constructor; [|constructor]. split; [apply KP|reflexivity]. }
  unfold parse_sources. destruct sources as [|e sources].
  - destruct (foldM (equivalent_step num sections) (map snd equivalents) ([], None)) as [[m w]|] eqn:E; cbn [bind]; [|discriminate]. intros H. injection H as <-. exact (A _ ([], None) (m, w) (Forall_nil _) E).
  - destruct (foldM (source_step num sections equivalents subs) (e :: sources) ([], None)) as [[m w]|] eqn:E; cbn [bind]; [|discriminate]. intros H. injection H as <-. exact (B _ ([], None) (m, w) (Forall_nil _) E).
Qed.
Print Assumptions C111_phases_refuted.

(** A source equivalent at a node without sections becomes a second source at the node of the one before. *)
Theorem C111_stale_refuted : forall num sections k1 k2 d1 d2 n1 n2 subs p z, Forall (fun e => whole (snd e)) sections -> is_default d1 -> is_default d2 -> usable num sections d1 -> dget d1 "nodeid" = Some n1 ->
  dget d2 "nodeid" = Some n2 -> ~ touched sections n2 -> positive_is num d2 p -> zero_is num d2 z ->
  exists s1 s2, parse_sources num sections [] [(k1, d1); (k2, d2)] subs = Ok [s1; s2] /\ s_element s1 = n1 /\ s_element s2 = n1 /\ s_name s2 = s_name s1 /\ s_positive s2 = p.
Proof.
  intros num sections k1 k2 d1 d2 n1 n2 subs p z W (m1 & EM1 & D1) (m2 & EM2 & D2) (m & EM & U) EN1 EN2 NT P Z. assert (m = m1) by congruence. subst m. destruct (U D1) as (n & p1 & z1 & EN & T & P1 & Z1). assert (n = n1) by congruence. subst n.
  apply impedance_iff in P. apply impedance_iff in Z. apply impedance_iff in P1. apply impedance_iff in Z1.
  cbn [parse_sources map snd foldM]. unfold equivalent_step at 1. rewrite EM1. cbn [of_opt bind]. rewrite (proj2 (String.eqb_eq _ _) D1), EN1. destruct (find_all num sections W n1 None) as (v1 & -> & [(_ & ps & ->)|(X & _)]); [|tauto]. cbn [of_opt bind]. unfold positive, zero. rewrite P1, Z1. cbn [bind].
  unfold equivalent_step. rewrite EM2. cbn [of_opt bind]. rewrite (proj2 (String.eqb_eq _ _) D2), EN2. destruct (find_all num sections W n2 (Some (n1, ps))) as (v2 & -> & [(X & _)|(_ & ->)]); [tauto|]. cbn [of_opt bind]. unfold positive, zero. rewrite P, Z. cbn [bind app].
  eexists _, _. split; [reflexivity|]. now repeat split.
Qed.
Print Assumptions C111_stale_refuted.

(** The first one at such a node stops the reader. *)
Theorem C111_first_refuted : forall num sections k d n rest subs, Forall (fun e => whole (snd e)) sections -> is_default d -> dget d "nodeid" = Some n -> ~ touched sections n ->
  parse_sources num sections [] ((k, d) :: rest) subs = Err EName.
Proof.
  intros num sections k d n rest subs W (m & EM & D) EN NT. cbn [parse_sources map snd foldM]. unfold equivalent_step at 1. rewrite EM. cbn [of_opt bind]. rewrite (proj2 (String.eqb_eq _ _) D), EN. destruct (find_all num sections W n None) as (v1 & -> & [(X & _)|(_ & ->)]); [tauto|]. reflexivity.
Qed.
Print Assumptions C111_first_refuted.

Lemma fold_stuck {A S} (f : S -> A -> res S) l x : In x l -> (forall s, exists e, f s x = Err e) -> forall s, exists e, foldM f l s = Err e.
Proof.
  intros I H. induction l as [|y l IH]; [destruct I|]. intros s. cbn [foldM]. destruct I as [->|I]; [destruct (H s) as (e & ->); now exists e|]. destruct (f s y); [now apply IH|eauto].
Qed.
(** A source of a known substation without a source equivalent stops the reader. *)
Theorem C111_equivalent_refuted : forall num sections sources equivalents subs e n, Forall (fun e => whole (snd e)) sections -> In e sources -> substation_of subs e -> dget (snd e) "nodeid" = Some n -> dget equivalents n = None ->
  exists err, parse_sources num sections sources equivalents subs = Err err.
Proof.
  intros num sections sources equivalents subs [sid d] n W I S EN NQ. cbn [fst snd] in *. unfold parse_sources. destruct sources as [|e0 l]; [destruct I|].
  destruct (fold_stuck (source_step num sections equivalents subs) (e0 :: l) (sid, d) I) with (s := (@nil source, @None (string * list string))) as [err ->]; [|now exists err].
  intros [made v]. unfold source_step. rewrite EN, NQ. unfold substation_of in S. cbn [fst] in S. destruct (dget subs sid); [|congruence]. destruct (find_all num sections W n v) as (v1 & -> & _). cbn [bind]. destruct v1 as [[f ps]|]; cbn; eauto.
Qed.
Print Assumptions C111_equivalent_refuted.

(** Sources of substations that are not in the equipment file are dropped, and their source equivalents with them. *)
Theorem C111_substations_refuted : forall num sections sources equivalents subs, sources <> [] -> Forall (fun e => ~ substation_of subs e) sources -> parse_sources num sections sources equivalents subs = Ok [].
Proof.
  intros num sections sources equivalents subs NE F. assert (E : foldM (source_step num sections equivalents subs) sources ([], None) = Ok ([], None)).
  { clear NE. induction F as [|[sid d] l N F IH]; [reflexivity|]. cbn [foldM source_step]. unfold substation_of in N. cbn [fst] in N. destruct (dget subs sid); [destruct N; discriminate|exact IH]. }
  unfold parse_sources. destruct sources; [congruence|]. now rewrite E.
Qed.
Print Assumptions C111_substations_refuted.

(** The power of a source is a thousandth of that of its substation in volt-amperes. *)
Theorem C111_power_refuted : forall num equivalents subs e s x sub, from_source num equivalents subs e s -> dget subs (fst e) = Some sub -> number_in num sub "mva" x -> (x <> 0)%R -> s_power s = Some (1000 * x)%R /\ s_power s <> Some (1000000 * x)%R.
Proof.
  intros num equivalents subs e s x sub (n & q & sub' & _ & _ & ES & _ & [(y & (t & E1 & E2) & EP)|(N & _)] & _) ES' (t' & E1' & E2') NZ; assert (sub' = sub) by congruence; subst sub'.
  - assert (y = x) by congruence. subst y. split; [exact EP|]. rewrite EP. intros H. injection H as H. lra.
  - exfalso. apply (N x). now exists t'.
Qed.
Print Assumptions C111_power_refuted.

(** ** The hypotheses can be met *)
Definition num0 (s : string) : option R := if String.eqb s "2" then Some 2%R else if String.eqb s "7.2" then Some (7.2)%R else None.
Definition sections0 : list (string * record) := [("s1", [("fromnodeid", "n1"); ("tonodeid", "n2"); ("phase", "ABC")]); ("s2", [("fromnodeid", "n3"); ("tonodeid", "n2"); ("phase", "A")])].
Definition equivalent0 (n m : string) : record := [("nodeid", n); ("voltage", "7.2"); ("positivesequenceresistance", "2"); ("positivesequencereactance", "2"); ("firstlevelr0", "2"); ("firstlevelx0", "7.2"); ("loadmodelname", m)].
Lemma touched0 n : In n ["n1"; "n2"; "n3"] -> touched sections0 n.
Proof. intros [<-|[<-|[<-|[]]]]; [exists "s1"|exists "s1"|exists "s2"]; eexists; (split; [cbn; eauto|]); [left|right|left]; reflexivity. Qed.
Lemma impedances0 n m : positive_is num0 (equivalent0 n m) (2%R, 2%R) /\ zero_is num0 (equivalent0 n m) (2%R, 7.2%R).
Proof. split; [left; split; [discriminate|]; split; eexists; split; reflexivity|right; split; [reflexivity|]; split; eexists; split; reflexivity]. Qed.
Example C111_hypotheses_met :
  Forall (fun e => whole (snd e)) sections0 /\ Forall (usable num0 sections0) (map snd [("n2", equivalent0 "n2" "DEFAULT"); ("n2*", equivalent0 "n2" "peak"); ("n3", equivalent0 "n3" "Default")]) /\
  (exists l, parse_sources num0 sections0 [] [("n2", equivalent0 "n2" "DEFAULT"); ("n2*", equivalent0 "n2" "peak"); ("n3", equivalent0 "n3" "Default")] [] = Ok l /\ map s_name l = ["n2_src"; "n3_src"]) /\
  Forall (fun e => substation_of [("a", [("mva", "2")])] e -> fed num0 sections0 [("n2", equivalent0 "n2" "DEFAULT")] e) [("a", [("sourceid", "a"); ("nodeid", "n2")]); ("b", [("nodeid", "n9")])] /\
  (exists l, parse_sources num0 sections0 [("a", [("sourceid", "a"); ("nodeid", "n2")]); ("b", [("nodeid", "n9")])] [("n2", equivalent0 "n2" "DEFAULT")] [("a", [("mva", "2")])] = Ok l /\ map s_name l = ["n2_src"]) /\
  ~ touched sections0 "n9".
Proof.
  split; [repeat constructor; eexists _, _, _; repeat split|]. split.
  { assert (U : forall n m, In n ["n1"; "n2"; "n3"] -> usable num0 sections0 (equivalent0 n m)). { intros n m I. exists m. split; [reflexivity|]. intros _. exists n, (2%R, 2%R), (2%R, 7.2%R). split; [reflexivity|]. split; [now apply touched0|]. apply impedances0. }
    cbn [map snd]. apply Forall_cons; [apply U; cbn; auto|]. apply Forall_cons; [apply U; cbn; auto|]. apply Forall_cons; [apply U; cbn; auto|constructor]. }
  split; [eexists; split; reflexivity|]. split.
  { apply Forall_cons; [|apply Forall_cons; [|constructor]]; intros S; [|now destruct S]. exists "n2", (equivalent0 "n2" "DEFAULT"), (2%R, 2%R), (2%R, 7.2%R). split; [reflexivity|]. split; [reflexivity|]. split; [apply touched0; cbn; auto|]. apply impedances0. }
  split; [eexists; split; reflexivity|]. intros (k & d & [E|[E|[]]] & H); injection E as <- <-; cbn in H; intuition discriminate.
Qed.
