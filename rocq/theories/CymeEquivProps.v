(** C119: the network equivalents of the CYME reader. *)
From Coq Require Import List String Ascii Bool Arith ZArith Reals Lra Lia.
From Verif Require Import Base BaseFacts CymeMapModel CymeMapSpec CymeParseModel CymeParseSpec CymeLoadModel CymeLoadSpec CymeLoadProofs CymeEquivModel CymeEquivSpec.
Import ListNotations.
Local Open Scope string_scope.
Local Open Scope nat_scope.
Local Open Scope list_scope.

Section Proofs.
Variable num : string -> option R.
Notation record := CymeParseModel.record.

Lemma float_iff d k x : float_of num d k = Ok x <-> number num d k x.
Proof.
  unfold float_of, number. destruct (dget d k) as [t|]; cbn; [|split; [discriminate|intros (t & E & _); discriminate]].
  destruct (num t) eqn:N; cbn; (split; [intros H; exists t; split; [reflexivity|congruence]|intros (t' & E & H); congruence]).
Qed.
Lemma letter_lower p l : letter p l -> lower p = l /\ In l ["a"; "b"; "c"].
Proof. intros [H|[H|[H|[]]]]; injection H as <- <-; split; try reflexivity; cbn; auto. Qed.
Lemma phases_spec d : readable num d -> exists ps, phases_of num d = Ok ps /\ phases_say num d ps /\ Forall (fun p => exists l, letter p l) ps.
Proof.
  intros [Z _]. assert (N : forall l, In l ["a"; "b"; "c"] -> exists x, number num d ("zr" ++ l ++ l)%string x /\ nonzero num d ("zr" ++ l ++ l)%string = Ok (if Req_EM_T x 0 then false else true)).
  { intros l I. destruct (Z l l I I) as (r & _ & N & _). exists r. split; [exact N|]. unfold nonzero. apply float_iff in N. now rewrite N. }
  destruct (N "a") as (x & X & EX); [cbn; auto|]. destruct (N "b") as (y & Y & EY); [cbn; auto|]. destruct (N "c") as (z & ZZ & EZ); [cbn; auto|]. cbn [append] in *. unfold phases_of. rewrite EX, EY, EZ. cbn [bind]. eexists. split; [reflexivity|].
  split.
  - exists (if Req_EM_T x 0 then false else true), (if Req_EM_T y 0 then false else true), (if Req_EM_T z 0 then false else true). split; [reflexivity|].
    apply Forall_cons; [exists x; split; [exact X|cbn [snd]; destruct (Req_EM_T x 0); split; congruence]|]. apply Forall_cons; [exists y; split; [exact Y|cbn [snd]; destruct (Req_EM_T y 0); split; congruence]|]. apply Forall_cons; [exists z; split; [exact ZZ|cbn [snd]; destruct (Req_EM_T z 0); split; congruence]|constructor].
  - apply Forall_app. split; [destruct (Req_EM_T x 0); [constructor|apply Forall_cons; [exists "a"; now left|constructor]]|]. apply Forall_app. split; [destruct (Req_EM_T y 0); [constructor|apply Forall_cons; [exists "b"; right; now left|constructor]]|]. destruct (Req_EM_T z 0); [constructor|apply Forall_cons; [exists "c"; right; right; now left|constructor]].
Qed.
Lemma mapM_forall {A B} (f : A -> res B) (P : A -> B -> Prop) l : (forall a, In a l -> exists b, f a = Ok b /\ P a b) -> exists r, mapM f l = Ok r /\ Forall2 P l r.
Proof.
  induction l as [|a l IH]; intros H; [exists []; split; [reflexivity|constructor]|]. destruct (H a (or_introl eq_refl)) as (b & EB & PB). destruct IH as (r & E & F); [intros x I; apply H; now right|]. exists (b :: r). cbn [mapM]. rewrite EB, E. split; [reflexivity|now constructor].
Qed.
Lemma matrix_spec d ps : readable num d -> Forall (fun p => exists l, letter p l) ps -> exists m, matrix_of num d ps = Ok m /\ matrix_says num d ps m.
Proof.
  intros [Z _] L. rewrite Forall_forall in L. apply mapM_forall. intros p IP. apply mapM_forall. intros q IQ. destruct (L p IP) as (l & LP). destruct (L q IQ) as (l' & LQ). destruct (letter_lower _ _ LP) as [EP I]. destruct (letter_lower _ _ LQ) as [EQ I'].
  destruct (Z l l' I I') as (r & x & R & X). unfold entry. rewrite EP, EQ. apply float_iff in R as R', X as X'. rewrite R', X'. eexists. split; [reflexivity|]. exists l, l'. auto.
Qed.
Lemma length_spec d : readable num d -> exists x, length_of num d = Ok x /\ length_says num d x.
Proof.
  intros [_ C]. destruct (C "a" "totallength") as (a & A); [cbn; auto|cbn; auto|]. destruct (C "b" "totallength") as (b & B); [cbn; auto|cbn; auto|]. destruct (C "c" "totallength") as (c & CC); [cbn; auto 6|cbn; auto|]. cbn [append] in *.
  unfold length_of. apply float_iff in A as A', B as B', CC as C'. rewrite A', B', C'. eexists. split; [reflexivity|]. exists a, b, c. split; [exact A|]. split; [exact B|]. split; [exact CC|]. split.
  - unfold Rmax. destruct (Rle_dec a b); destruct (Rle_dec _ c); cbn; auto.
  - pose proof (Rmax_l a b). pose proof (Rmax_r a b). pose proof (Rmax_l (Rmax a b) c). pose proof (Rmax_r (Rmax a b) c). lra.
Qed.
Lemma totals_spec d kw kvar ps : readable num d -> Forall (fun p => exists l, letter p l) ps -> In kw ["loadfromkw"; "loadfromkvar"; "loadtokw"; "loadtokvar"] -> In kvar ["loadfromkw"; "loadfromkvar"; "loadtokw"; "loadtokvar"] ->
  exists p q, totals num d kw kvar ps = Ok (p, q) /\ sum num d kw ps p /\ sum num d kvar ps q.
Proof.
  intros [_ C] L IK IV. unfold totals.
  assert (G : forall s0 s1 : R, exists p q, foldM (fun s p => do a <- float_of num d (kw ++ lower p)%string; do b <- float_of num d (kvar ++ lower p)%string; Ok (fst s + a, snd s + b)%R) ps (s0, s1) = Ok (s0 + p, s1 + q)%R /\ sum num d kw ps p /\ sum num d kvar ps q).
  { induction L as [|p ps (l & LP) L IH]; intros s0 s1.
    - exists 0%R, 0%R. cbn [foldM]. rewrite !Rplus_0_r. split; [reflexivity|]. split; constructor.
    - destruct (letter_lower _ _ LP) as [EP I]. destruct (C l kw I) as (x & X); [right; exact IK|]. destruct (C l kvar I) as (y & Y); [right; exact IV|]. apply float_iff in X as X', Y as Y'. cbn [foldM]. rewrite EP, X', Y'. cbn [bind fst snd]. destruct (IH (s0 + x)%R (s1 + y)%R) as (p' & q' & E & P & Q). exists (x + p')%R, (y + q')%R. rewrite E, !Rplus_assoc. split; [reflexivity|]. split; econstructor; eassumption. }
  destruct (G 0 0)%R as (p & q & E & P & Q). exists p, q. rewrite E, !Rplus_0_l. auto.
Qed.
Lemma load_spec d ps sid suffix node feeder kw kvar test p q : readable num d -> Forall (fun p => exists l, letter p l) ps -> In kw ["loadfromkw"; "loadfromkvar"; "loadtokw"; "loadtokvar"] -> In kvar ["loadfromkw"; "loadfromkvar"; "loadtokw"; "loadtokvar"] ->
  sum num d kw ps p -> sum num d test ps q -> load_says num d ps (sid ++ suffix)%string node feeder kw kvar test (make_load num sid suffix node feeder d kw kvar ps (p, q)).
Proof.
  intros [_ C] L IK IV P Q. exists p, q. split; [exact P|]. split; [exact Q|]. unfold make_load. cbn [fst snd]. destruct (Rlt_dec 0 p); [destruct (Rlt_dec 0 q)|]; (split; [|tauto || (intros N; exfalso; tauto)]); try tauto. intros _. eexists. split; [reflexivity|]. cbn [o_name o_element o_feeder o_phases]. split; [reflexivity|]. split; [reflexivity|]. split; [reflexivity|].
  clear P Q. induction L as [|ph ps (l & LP) L IH]; cbn [map]; constructor; [|exact IH]. destruct (letter_lower _ _ LP) as [EP I]. destruct (C l kw I) as (x & X); [right; exact IK|]. destruct (C l kvar I) as (y & Y); [right; exact IV|]. exists l, x, y. split; [exact LP|]. split; [exact X|]. split; [exact Y|]. unfold phase_load. apply float_iff in X, Y. now rewrite EP, X, Y.
Qed.
Lemma int_spec (int_ : string -> option Z) s k : index_says int_ s k (int_of int_ s k).
Proof. intros z. unfold int_of. destruct (dget s k) as [t|]; [split; [intros H; now exists t|intros (t' & E & H); congruence]|split; [discriminate|intros (t' & E & _); discriminate]]. Qed.
End Proofs.

Lemma filter_equivalents l m : equivalents l m <-> m = filter is_equivalent l.
Proof.
  assert (D : forall e, is_equivalent e = true <-> equivalent e). { intros e. unfold is_equivalent, equivalent. destruct (dget (snd e) "type") as [t|]; [rewrite String.eqb_eq; split; congruence|split; discriminate]. }
  split.
  - induction 1 as [|e l m E _ IH|e l m E _ IH]; cbn [filter]; [reflexivity|apply D in E; now rewrite E, IH|]. destruct (is_equivalent e) eqn:F; [apply D in F; contradiction|exact IH].
  - intros ->. induction l as [|e l IH]; cbn [filter]; [constructor|]. destruct (is_equivalent e) eqn:F; constructor; try exact IH; [now apply D|]. intros E. apply D in E. congruence.
Qed.

(** Every network equivalent becomes a line with its impedances and a load at each end with power, in order; other settings become nothing. *)
Theorem C119_equivalents : forall num int_ section_phase section_feeder settings eqs, equivalents settings eqs -> Forall (fun e => placed section_phase section_feeder e /\ readable num (snd e)) eqs ->
  exists rs, parse_network_equivalent num int_ section_phase section_feeder settings = Ok rs /\ Forall2 (equivalent_says num int_ section_phase section_feeder) eqs rs.
Proof.
  intros num int_ sp sf settings eqs EQ F. apply filter_equivalents in EQ. unfold parse_network_equivalent. rewrite <- EQ. clear EQ settings. rewrite Forall_forall in F. apply mapM_forall. intros e I. destruct (F e I) as ((id & k & s & f & t & n & EK & B & ES & EF & ET & EN) & RD). clear F I. destruct e as [key d]. cbn [fst snd] in *.
  destruct (phases_spec num d RD) as (ps & EP & SP & L). destruct (matrix_spec num d ps RD L) as (m & EM & SM). destruct (length_spec num d RD) as (x & EL & SL).
  destruct (totals_spec num d "loadfromkw" "loadfromkvar" ps RD L) as (p1 & q1 & E1 & P1 & Q1); [cbn; auto|cbn; auto|]. destruct (totals_spec num d "loadtokw" "loadfromkvar" ps RD L) as (p2 & q2 & E2 & P2 & Q2); [cbn; auto|cbn; auto|].
  unfold one_equivalent. cbn [fst snd]. rewrite EK, (strip_bare id k B), ES. cbn [of_opt bind]. rewrite EF. cbn [of_opt bind]. rewrite ET. cbn [of_opt bind]. rewrite EN. cbn [of_opt bind]. rewrite EP. cbn [bind]. rewrite EM. cbn [bind]. rewrite EL. cbn [bind]. rewrite E1. cbn [bind]. rewrite E2. cbn [bind].
  eexists. split; [reflexivity|]. exists id, k, s, ps. eexists _, _. cbn [fst snd n_name n_from n_to n_from_index n_to_index n_feeder n_class n_wires n_matrix n_length].
  split; [reflexivity|]. split; [exact B|]. split; [exact ES|]. split; [reflexivity|]. split; [exact EF|]. split; [exact ET|]. split; [apply int_spec|]. split; [apply int_spec|]. split; [exact EN|]. split; [reflexivity|]. split; [exact SP|]. split; [reflexivity|]. split; [exact SM|]. split; [exact SL|]. split; [reflexivity|].
  split; (apply load_spec; [exact RD|exact L|cbn; auto 6|cbn; auto 6|assumption|assumption]).
Qed.
Print Assumptions C119_equivalents.

Lemma letter_fun p l l' : letter p l -> letter p l' -> l = l'.
Proof. intros H H'. apply letter_lower in H, H'. destruct H, H'. congruence. Qed.
Lemma sum_fun num d k ps s s' : sum num d k ps s -> sum num d k ps s' -> s = s'.
Proof.
  intros S. revert s'. induction S as [|p l x ps s L (t & E & N) S IH]; intros s' S'; inversion S' as [|? l' x' ? s1 L' (t' & E' & N') S1]; subst; [reflexivity|]. rewrite (letter_fun _ _ _ L' L) in *. assert (x' = x) by congruence. subst. f_equal. now apply IH.
Qed.
(** The load at the far end is lost if the one at the near end has no reactive power. *)
Theorem C119_far_load_refuted : forall num d ps name node feeder ls q, load_says num d ps name node feeder "loadtokw" "loadtokvar" "loadfromkvar" ls -> sum num d "loadfromkvar" ps q -> (q <= 0)%R -> ls = [].
Proof. intros num d ps name node feeder ls q (p & q' & P & Q & _ & N) S L. apply N. intros [_ Z]. rewrite (sum_fun _ _ _ _ _ _ Q S) in Z. lra. Qed.
Print Assumptions C119_far_load_refuted.

(** Active power alone is lost as well. *)
Theorem C119_active_refuted : forall num d ps name node feeder ls p q, load_says num d ps name node feeder "loadfromkw" "loadfromkvar" "loadfromkvar" ls -> sum num d "loadfromkw" ps p -> (0 < p)%R -> sum num d "loadfromkvar" ps q -> (q <= 0)%R -> ls = [].
Proof. intros num d ps name node feeder ls p q (p' & q' & P & Q & _ & N) _ _ S L. apply N. intros [_ Z]. rewrite (sum_fun _ _ _ _ _ _ Q S) in Z. lra. Qed.
Print Assumptions C119_active_refuted.

(** The load of a phase without resistance is lost: no load has it. *)
Theorem C119_phase_refuted : forall num d ps name node feeder kw kvar test ls, phases_say num d ps -> load_says num d ps name node feeder kw kvar test ls -> number num d "zraa" 0 -> forall o pl, In o ls -> In pl (o_phases o) -> fst pl <> "A".
Proof.
  intros num d ps name node feeder kw kvar test ls (a & b & c & -> & F) (p & q & _ & _ & Y & N) Z o pl IO IP E. inversion F as [|? ? (x & (t & ET & NX) & A) _]; subst. cbn [fst snd] in *. destruct Z as (t' & ET' & NZ). assert (x = 0%R) by congruence. subst x. assert (a = false) by (destruct a; [exfalso; now apply A|reflexivity]). subst a.
  destruct (Rlt_dec 0 p) as [LP|NP]; [destruct (Rlt_dec 0 q) as [LQ|NQ]|]; [|rewrite N in IO by tauto; destruct IO|rewrite N in IO by tauto; destruct IO]. destruct (Y (conj LP LQ)) as (o' & -> & _ & _ & _ & F2). destruct IO as [->|[]].
  assert (G : forall l r, Forall2 (fun ph (pl : string * option (R * R)) => exists l x y, letter ph l /\ number num d (kw ++ l)%string x /\ number num d (kvar ++ l)%string y /\ pl = (ph, Some (1000 * x, 1000 * y)%R)) l r -> In pl r -> In (fst pl) l).
  { induction 1 as [|ph pl' l r (u1 & u2 & u3 & u4 & u5 & u6 & ->) _ IH]; intros IN; [destruct IN|]. destruct IN as [H|H]; [subst; now left|right; auto]. }
  apply (G _ _ F2) in IP. rewrite E in IP. cbn [app] in IP. destruct b, c; cbn in IP; intuition discriminate.
Qed.
Print Assumptions C119_phase_refuted.

Lemma mapM_stuck {A B} (f : A -> res B) l x e : In x l -> f x = Err e -> exists err, mapM f l = Err err.
Proof. intros I E. induction l as [|y l IH]; [destruct I|]. cbn. destruct I as [->|I]; [rewrite E; eauto|]. destruct (f y); [|eauto]. destruct (IH I) as [err ->]. eauto. Qed.
(** An empty cell among the lengths stops the reader, even of a phase that is not there. *)
Theorem C119_empty_refuted : forall num int_ section_phase section_feeder settings e k, num "" = None -> In e settings -> equivalent e -> In k ["totallengtha"; "totallengthb"; "totallengthc"] -> dget (snd e) k = Some "" ->
  exists err, parse_network_equivalent num int_ section_phase section_feeder settings = Err err.
Proof.
  intros num int_ sp sf settings e k NE I EQ IK EK. unfold parse_network_equivalent. assert (IF : In e (filter is_equivalent settings)). { apply filter_In. split; [exact I|]. unfold is_equivalent. now rewrite EQ. }
  destruct (one_equivalent num int_ sp sf e) as [r|err] eqn:E; [|eapply mapM_stuck; eassumption]. exfalso. unfold one_equivalent in E. cbv zeta in E.
  repeat match type of E with bind ?r _ = _ => let X := fresh in destruct r eqn:X; cbn [bind] in E; [|discriminate] end.
  match goal with X : length_of num _ = Ok _ |- _ => unfold length_of in X; repeat match type of X with bind ?r _ = _ => let Y := fresh in destruct r eqn:Y; cbn [bind] in X; [|discriminate] end end.
  assert (Z : forall x, float_of num (snd e) k = Ok x -> False). { intros x HX. unfold float_of in HX. rewrite EK in HX. cbn in HX. rewrite NE in HX. discriminate. }
  destruct IK as [<-|[<-|[<-|[]]]]; eapply Z; eassumption.
Qed.
Print Assumptions C119_empty_refuted.

(** ** The hypotheses can be met *)
Definition num0 (s : string) : option R := if String.eqb s "1" then Some 1%R else if String.eqb s "0" then Some 0%R else None.
Definition one_zero (ab : list string) (l : string) : string := if smem l ab then "1" else "0".
Definition d0 : CymeParseModel.record :=
  ("type", "network_equivalent") :: flat_map (fun l => flat_map (fun l' => [(("zr" ++ l ++ l')%string, if String.eqb l l' then one_zero ["a"; "b"] l else "0"); (("zx" ++ l ++ l')%string, "1")]) ["a"; "b"; "c"]) ["a"; "b"; "c"] ++
  flat_map (fun k => map (fun l => ((k ++ l)%string, one_zero ["a"] l)) ["a"; "b"; "c"]) ["totallength"; "loadfromkw"; "loadfromkvar"; "loadtokw"; "loadtokvar"].
Lemma d0_readable : readable num0 d0.
Proof.
  split.
  - intros l l' [<-|[<-|[<-|[]]]] [<-|[<-|[<-|[]]]]; eexists _, _; (split; (eexists; split; [vm_compute; reflexivity|reflexivity])).
  - intros l k [<-|[<-|[<-|[]]]] [<-|[<-|[<-|[<-|[<-|[]]]]]]; eexists; (eexists; split; [vm_compute; reflexivity|reflexivity]).
Qed.
Definition sections0 : list (string * CymeParseModel.record) := [("s1", [("fromnodeid", "n1"); ("tonodeid", "n2"); ("phase", "AB")])].
Example C119_hypotheses_met : Forall (fun e => placed sections0 [("s1", "f")] e /\ readable num0 (snd e)) [("S1*", d0)] /\ equivalents [("S1", [("sectionid", "S1")]); ("S1*", d0)] [("S1*", d0)] /\
  exists r, parse_network_equivalent num0 (fun _ => None) sections0 [("s1", "f")] [("S1", [("sectionid", "S1")]); ("S1*", d0)] = Ok [r] /\ n_wires (fst r) = ["A"; "B"] /\ length (snd r) = 2.
Proof.
  assert (P : Forall (fun e => placed sections0 [("s1", "f")] e /\ readable num0 (snd e)) [("S1*", d0)]).
  { constructor; [|constructor]. split; [|exact d0_readable]. exists "S1", 1. eexists _, _, _, _. split; [reflexivity|]. split; [|repeat (split; [reflexivity|]); reflexivity]. split; [intros t H; discriminate|]; intros t H; destruct t as [|a [|b [|c t]]]; discriminate. }
  assert (Q : equivalents [("S1", [("sectionid", "S1")]); ("S1*", d0)] [("S1*", d0)]). { apply equivalents_out; [intros H; discriminate|]. apply equivalents_in; [reflexivity|constructor]. }
  split; [exact P|]. split; [exact Q|]. destruct (C119_equivalents num0 (fun _ => None) sections0 [("s1", "f")] _ _ Q P) as (rs & E & F). inversion F as [|? r ? l S F']; subst. inversion F'; subst. exists r. split; [exact E|].
  destruct S as (id & k & s & ps & l1 & l2 & _ & _ & _ & _ & _ & _ & _ & _ & _ & _ & (a & b & c & -> & FZ) & -> & _ & _ & -> & (p1 & q1 & P1 & Q1 & Y1 & _) & (p2 & q2 & P2 & Q2 & Y2 & _)). cbn [snd] in *.
  inversion FZ as [|? ? (x & (t1 & T1 & N1) & A) FZ1]; subst. inversion FZ1 as [|? ? (y & (t2 & T2 & N2) & B) FZ2]; subst. inversion FZ2 as [|? ? (z & (t3 & T3 & N3) & C) _]; subst. cbn [fst snd] in *. vm_compute in T1, T2, T3. injection T1 as <-. injection T2 as <-. injection T3 as <-. cbn in N1, N2, N3. injection N1 as <-. injection N2 as <-. injection N3 as <-.
  assert (a = true) as -> by (apply A; lra). assert (b = true) as -> by (apply B; lra). assert (c = false) as -> by (destruct c; [exfalso; now apply C|reflexivity]). cbn [app] in *. split; [reflexivity|].
  assert (SU : forall k s, In k ["loadfromkw"; "loadfromkvar"; "loadtokw"; "loadtokvar"] -> sum num0 d0 k ["A"; "B"] s -> s = 1%R).
  { intros k0 s0 I S. inversion S as [|? ? x ? s1 L1 (u1 & U1 & M1) S1]; subst. inversion S1 as [|? ? y ? s2 L2 (u2 & U2 & M2) S2]; subst. inversion S2; subst. destruct (letter_lower _ _ L1) as [<- _]. destruct (letter_lower _ _ L2) as [<- _]. destruct I as [<-|[<-|[<-|[<-|[]]]]]; vm_compute in U1, U2; injection U1 as <-; injection U2 as <-; cbn in M1, M2; injection M1 as <-; injection M2 as <-; lra. }
  rewrite (SU "loadfromkw" p1), (SU "loadfromkvar" q1) in Y1 by (assumption || (cbn; auto)). rewrite (SU "loadtokw" p2), (SU "loadfromkvar" q2) in Y2 by (assumption || (cbn; auto)). destruct Y1 as (o1 & -> & _); [lra|]. destruct Y2 as (o2 & -> & _); [lra|]. reflexivity.
Qed.
