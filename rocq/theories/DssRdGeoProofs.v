(** Lemmas about the wires of lines with a geometry. *)
From Verif Require Import Base BaseFacts CsvModel TextModel UnitsModel UnitsSpec UnitsProofs DssTextModel DssTextSpec DssTextProofs DssLoadSpec DssNodeProofs
  DssRdLoadModel DssRdLoadSpec DssRdLoadProofs DssRdTransModel DssRdTransProofs DssRdLineModel DssRdLineSpec DssRdLineProofs DssRdGeoSpec.
From Verif Require DssRdRegProofs.
From Coq Require Import QArith Lia.
Local Open Scope string_scope.
Local Open Scope nat_scope.
Local Open Scope list_scope.

Lemma space_plain s : ~ has " " s -> pieces (Ascii.eqb " ") s = [s].
Proof.
  induction s as [|c s IH]; intros H; [reflexivity|]. cbn [has] in H.
  assert (P : String.prefix " " (String c s) = Ascii.eqb " " c). { cbn [String.prefix]. destruct (Ascii.ascii_dec " " c) as [<-|N]; [now destruct s|]. symmetry. now apply Ascii.eqb_neq. }
  rewrite P in H. cbn [pieces]. destruct (Ascii.eqb " " c); [destruct H; now left|]. rewrite IH; [reflexivity|]. intros X. apply H. now right.
Qed.
Lemma find_unique k t l : NoDup (map fst l) -> In (k, t) l -> find_data k l = Some t.
Proof.
  induction l as [|[n d] l IH]; intros N I; [destruct I|]. inversion N as [|? ? N1 N2]; subst. cbn [find_data]. destruct I as [E|I]; [injection E as -> ->; now rewrite String.eqb_refl|].
  destruct (String.eqb_spec n k) as [->|_]; [destruct N1; exact (in_map fst _ _ I)|]. exact (IH N2 I).
Qed.
Lemma find_none k l : (forall x, In x l -> fst x <> k) -> find_data k l = None.
Proof. induction l as [|[n d] l IH]; intros H; [reflexivity|]. cbn [find_data]. destruct (String.eqb_spec n k) as [->|_]; [destruct (H _ (or_introl eq_refl) eq_refl)|]. apply IH. intros x X. apply H. now right. Qed.
Lemma sapp_eq a b c : (a ++ b)%string = (a ++ c)%string -> b = c.
Proof. induction a as [|x a IH]; cbn; intros H; [exact H|]. injection H as H. auto. Qed.
Lemma cable_piece m : ~ has "." m -> nth_error (split_on "." ("CNData." ++ m)) 1 = Some m.
Proof. intros H. rewrite split_pieces. change ("CNData." ++ m)%string with ("CNData" ++ String "." m)%string. rewrite pieces_cut by reflexivity. cbn [nth_error]. rewrite DssRdRegProofs.pieces_plain by exact H. reflexivity. Qed.
Lemma lower_nonempty w : w <> "" -> lower w <> "".
Proof. destruct w; [congruence|discriminate]. Qed.

Section Geo.
Variable int_ : string -> option Z.
Variable num : string -> option Q.
Variable source : string.
Variables fuses reclosers linecodes geometries wiredata cndata : list (string * data).

Lemma geometry_found d g ws : geometry int_ num geometries d g ws -> geometry_of geometries d = Some g.
Proof. intros [(n & D & N & I) O _ _ _ _]. unfold geometry_of, text_of. rewrite D. destruct (String.eqb_spec n "") as [->|_]; [congruence|]. now apply find_unique. Qed.
Lemma conductors_found d g ws : geometry int_ num geometries d g ws -> conductors int_ d (Some g) = Ok (Z.of_nat (length ws)).
Proof. intros [_ _ (s & D & Hs) _ _ _]. unfold conductors. rewrite D, Hs. reflexivity. Qed.
Lemma code_found d g ws v p w : geometry int_ num geometries d g ws -> nth_error ws p = Some w -> geo_code v g p = Ok (Some (lower w)) /\ geo_class g p = Some w.
Proof.
  intros [_ _ _ (s & D & P) F _] N. rewrite Forall_forall in F. pose proof (lower_nonempty w (F w (nth_error_In _ _ N))) as NE. unfold geo_code, geo_class. rewrite D. rewrite split_pieces, P. split; [|exact N].
  destruct (within " " s) eqn:W.
  - rewrite N. cbn [of_opt bind]. destruct (String.eqb_spec (lower w) ""); [congruence|reflexivity].
  - apply within_not in W; [|discriminate]. rewrite space_plain in P by exact W. subst ws. destruct p as [|p]; [|destruct p; discriminate N]. injection N as ->. cbn [Nat.eqb bind]. destruct (String.eqb_spec (lower w) ""); [congruence|reflexivity].
Qed.

(** *** Finding wire data *)
Lemma scan_none c l st : (forall x, In x l -> exists m, fst x = ("CNData." ++ m)%string /\ ~ has "." m) -> (forall x, In x l -> fst x <> ("CNData." ++ c)%string) -> cable_scan cndata c l st = (st, true).
Proof.
  revert st. induction l as [|[n d] l IH]; intros st H N; [reflexivity|]. cbn [cable_scan]. destruct (H _ (or_introl eq_refl)) as (m & E & M). cbn [fst] in E. subst n. rewrite cable_piece by exact M.
  destruct (String.eqb_spec c m) as [->|_]; [destruct (N _ (or_introl eq_refl) eq_refl)|]. apply IH; intros x X; [apply H|apply N]; now right.
Qed.
Lemma scan_some c t l st : (forall x, In x l -> exists m, fst x = ("CNData." ++ m)%string /\ ~ has "." m) -> find_data ("CNData." ++ c) cndata = Some t -> (exists x, In x l /\ fst x = ("CNData." ++ c)%string) ->
  cable_scan cndata c l st = (Some (Some t), true, Some "underground", true).
Proof.
  intros H F. revert st H. assert (G : forall st, st = (Some (Some t), true, Some "underground") -> (forall x, In x l -> exists m, fst x = ("CNData." ++ m)%string /\ ~ has "." m) -> cable_scan cndata c l st = (Some (Some t), true, Some "underground", true)).
  { induction l as [|[n d] l IH]; intros st -> H; [reflexivity|]. cbn [cable_scan]. destruct (H _ (or_introl eq_refl)) as (m & E & M). cbn [fst] in E. subst n. rewrite cable_piece by exact M.
    destruct (String.eqb_spec c m) as [<-|_]; [rewrite F|]; (apply IH; [reflexivity|intros x X; apply H; now right]). }
  induction l as [|[n d] l IH]; intros st H (x & I & X); [destruct I|]. cbn [cable_scan]. destruct (H _ (or_introl eq_refl)) as (m & E & M). cbn [fst] in E. subst n. rewrite cable_piece by exact M.
  destruct (String.eqb_spec c m) as [<-|N].
  - rewrite F. specialize (G (Some (Some t), true, Some "underground") eq_refl H). cbn [cable_scan] in G. rewrite cable_piece, String.eqb_refl, F in G by exact M. exact G.
  - apply IH.
    + intros st' E' H'. specialize (G st' E' H). cbn [cable_scan] in G. rewrite cable_piece in G by exact M. destruct (String.eqb_spec c m); [congruence|exact G].
    + intros y Y. apply H. now right.
    + destruct I as [<-|I]; [cbn [fst] in X; apply (sapp_eq "CNData.") in X; congruence|eauto].
Qed.
Lemma bare_lookup v ty w t : NoDup (map fst wiredata) -> names_cables cndata -> bare wiredata cndata w t -> wire_lookup wiredata cndata v ty (Some (lower w)) = (Some (Some t), false, Some "overhead").
Proof. intros N [_ C] [I X]. unfold wire_lookup. rewrite scan_none by assumption. cbn [fst snd andb negb]. now rewrite (find_unique _ t _ N I). Qed.
Lemma unknown_lookup v ty w : names_cables cndata -> unknown wiredata cndata w -> wire_lookup wiredata cndata v ty (Some (lower w)) = (v, false, ty).
Proof. intros [_ C] [I X]. unfold wire_lookup. rewrite scan_none by assumption. cbn [fst snd andb negb]. now rewrite (find_none _ _ I). Qed.
Lemma cable_lookup v ty w t : names_cables cndata -> cable cndata w t -> wire_lookup wiredata cndata v ty (Some (lower w)) = (Some (Some t), true, Some "underground").
Proof. intros [N C] I. unfold wire_lookup. rewrite (scan_some (lower w) t); [reflexivity|exact C|exact (find_unique _ t _ N I)|]. exists (("CNData." ++ lower w)%string, t). split; [exact I|reflexivity]. Qed.

(** *** Values *)
Lemma qfloat_number d k q : qnumber num d k q -> qfloat num d k = Some q.
Proof. intros (s & D & N). unfold qfloat, text_of. now rewrite D. Qed.
Lemma qfloat_spec d k : qstates num d k (qfloat num d k).
Proof. unfold qstates. destruct (qfloat num d k) as [q|] eqn:E. { unfold qfloat, text_of in E. destruct (d k) as [[s|]|] eqn:D; try discriminate. now exists s. } intros q H. rewrite (qfloat_number _ _ _ H) in E. discriminate. Qed.
Lemma meters_value q u f : unit_worth u f -> exists x, meters (Some q) u = Some x /\ (x == q * f)%Q.
Proof. intros W. destruct (to_meters_value u f q KwAbsent W) as (x & X & V). exists x. auto. Qed.
Lemma worth_same u f f' : unit_worth u f -> unit_worth u f' -> f = f'.
Proof. intros A B. apply unit_worth_lower in A, B. unfold metre_table in *. cbn in A, B. repeat (destruct A as [A|A]; [injection A as A1 <-; rewrite <- A1 in B; cbn in B; repeat (destruct B as [B|B]; [first [discriminate B|injection B as <-; reflexivity]|]); destruct B|]). destruct A. Qed.
Lemma place_read g k p : (exists q f, placed num g k p q f) -> exists u o, geo_unit g p = Ok u /\ geo_at num g k u p = Ok o /\ forall q f, placed num g k p q f -> exists x, o = Some x /\ (x == q * f)%Q.
Proof.
  intros (q & f & (v & s & D & A & N) & (v' & u & D' & A' & W)). unfold geo_unit, geo_at. rewrite D, D'. cbn [of_opt bind]. exists u. destruct (meters_value q u f W) as (x & X & V). exists (Some x).
  split. { destruct v'; cbn in A'; [now subst|now rewrite A']. } split. { destruct v; cbn in A; [subst; now rewrite N; cbn [of_opt bind]; rewrite X|now rewrite A, N, X]. }
  intros q' f' ((w & s' & E & B & N') & (w' & u' & E' & B' & W')). rewrite D in E. injection E as <-. rewrite D' in E'. injection E' as <-.
  assert (s' = s) as -> by (destruct v; cbn in *; congruence). assert (u' = u) as -> by (destruct v'; cbn in *; congruence). exists x. split; [reflexivity|]. rewrite N in N'. injection N' as <-. now rewrite (worth_same _ _ _ W' W).
Qed.
Lemma measure_read d k ku : (exists q f, measured num d k ku q f) -> exists u, d ku = Some (PText u) /\ is_meters num d k ku (meters (qfloat num d k) u).
Proof.
  intros (q & f & N & u & D & W). exists u. split; [exact D|]. intros q' f' (N' & u' & D' & W'). rewrite D in D'. injection D' as <-. rewrite (qfloat_number _ _ _ N'). now apply meters_value.
Qed.
Lemma no_amps_rates o d k : o = qfloat num d k -> match no_amps o with Some q => rates num d k q | None => forall q, ~ rates num d k q end.
Proof.
  intros ->. pose proof (qfloat_spec d k) as S. destruct (qfloat num d k) as [q|] eqn:E; cbn [no_amps qstates] in *.
  - destruct (Qeq_bool q (-1)) eqn:A; [|destruct (Qeq_bool q 0) eqn:B]; cbn [orb].
    + intros q' (N & _ & X). rewrite (qfloat_number _ _ _ N) in E. injection E as ->. apply X. now apply Qeq_bool_iff.
    + intros q' (N & X & _). rewrite (qfloat_number _ _ _ N) in E. injection E as ->. apply X. now apply Qeq_bool_iff.
    + split; [exact S|]. split; intros X; apply Qeq_bool_iff in X; [congruence|]. change (- (1))%Q with (-1)%Q in X. congruence.
  - intros q (N & _). exact (S q N).
Qed.
Lemma no_amps_twice o : no_amps (no_amps o) = no_amps o.
Proof. destruct o as [q|]; [|reflexivity]. cbn. destruct (Qeq_bool q (-1) || Qeq_bool q 0) eqn:E; [reflexivity|]. cbn. now rewrite E. Qed.
Lemma rating_read t d k a : a = qfloat num d k -> rating num t d k (amps_again num d k (no_amps (or_else (qfloat num t k) a))).
Proof.
  intros ->. unfold amps_again. pose proof (no_amps_rates _ t k eq_refl) as T. pose proof (no_amps_rates _ d k eq_refl) as D. destruct (qfloat num t k) as [q|]; cbn [or_else].
  - destruct (no_amps (Some q)) as [x|] eqn:E.
    + left. exists x. split; [exact T|]. rewrite <- E. rewrite no_amps_twice. reflexivity.
    + right. split; [exact T|exact D].
  - right. cbn in T. split; [exact T|]. destruct (no_amps (qfloat num d k)) as [x|] eqn:E; [rewrite <- E, no_amps_twice, E; exact D|rewrite E; exact D].
Qed.
Lemma values_read t len a e : wire_data num t -> exists diam gmr r, wire_values num t len a e = Ok (diam, gmr, no_amps (or_else (qfloat num t "normamps") a), no_amps (or_else (qfloat num t "emergamps") e), r) /\
  is_meters num t "diam" "radunits" diam /\ is_meters num t "GMRac" "GMRunits" gmr /\ forall q f l, measured num t "Rac" "Runits" q f -> len = Some l -> exists x, r = Some x /\ (x * f == q * l)%Q.
Proof.
  intros [A B (q & f & N & u & D & W)]. destruct (measure_read _ _ _ A) as (ua & Ua & Va). destruct (measure_read _ _ _ B) as (ub & Ub & Vb). unfold wire_values, text_must. rewrite Ua, Ub. cbn [of_opt bind].
  rewrite (qfloat_number _ _ _ N), D. cbn [of_opt bind]. destruct (to_meters_value u f q (KwBool true) W) as (x & X & V). cbn [inverse_flag] in V.
  exists (meters (qfloat num t "diam") ua), (meters (qfloat num t "GMRac") ub). destruct len as [len|].
  - unfold per_meter. rewrite X. cbn [of_opt bind]. exists (Some (x * len)%Q). split; [reflexivity|]. split; [exact Va|]. split; [exact Vb|]. intros q' f' l (N' & u' & D' & W') L. injection L as <-. rewrite D in D'. injection D' as <-.
    assert (q' = q) as -> by (pose proof (qfloat_number _ _ _ N) as Y; rewrite (qfloat_number _ _ _ N') in Y; congruence). rewrite (worth_same _ _ _ W' W). exists (x * len)%Q. split; [reflexivity|].
    rewrite V. unfold Qdiv. rewrite (Qmult_comm (q * / f * len) f), <- !Qmult_assoc, (Qmult_comm f), <- !Qmult_assoc. rewrite (Qmult_comm len f), (Qmult_assoc (/ f)), (Qmult_comm (/ f) f), Qmult_inv_r by exact (worth_pos _ _ W). now rewrite Qmult_1_l.
  - exists None. split; [reflexivity|]. split; [exact Va|]. split; [exact Vb|]. discriminate.
Qed.

(** *** One wire *)
(** What [plain_wire] gives, as far as [geo_wire] uses it *)
Record starts (d : data) (zs : list Z) (kind : option lkind) (p : nat) (w : rwire) : Prop := {
  st_wire : reads_wire num d zs kind p w;
  st_amp : rw_amp w = qfloat num d "normamps";
  st_emamp : rw_emamp w = qfloat num d "emergamps" }.
Lemma plain_starts fs full kind zs d p : d "enabled" <> None \/ kind <> Some KSwitch -> exists w, plain_wire num fs full kind zs d p = Ok w /\ starts d zs kind p w.
Proof.
  intros E. unfold plain_wire. assert (X : exists o, (if kind_is KSwitch kind then do v <- of_opt EKey (d "enabled"); Ok (Some (negb (is_yes v))) else Ok None) = Ok o /\ (kind = Some KSwitch -> o = Some (negb (enabled d))) /\ (kind <> Some KSwitch -> o = None)).
  { destruct kind as [[]|]; cbn [kind_is]; try (exists None; split; [reflexivity|]; split; [discriminate|reflexivity]). unfold enabled. destruct (d "enabled") as [v|]; [|destruct E; congruence]. cbn [of_opt bind]. eexists. split; [reflexivity|]. split; [intros _; destruct v; reflexivity|congruence]. }
  destruct X as (o & -> & O1 & O2). cbn [bind]. eexists. split; [reflexivity|]. constructor; [|reflexivity|reflexivity]. constructor; cbn [rw_node rw_amp rw_emamp rw_switch rw_open rw_breaker rw_recloser]; try apply qfloat_spec.
  - destruct (nth_error zs p) as [z|] eqn:N; [left; exists z; split; [reflexivity|apply phase_read]|right; split; [now apply nth_error_None|reflexivity]].
  - destruct kind as [[]|]; cbn; split; congruence.
  - auto.
  - destruct kind as [[]|]; cbn; split; congruence.
  - destruct kind as [[]|]; cbn; split; congruence.
Qed.
(** The wire [w] at place [p] takes the data [t], found or left by the wires before. *)
Lemma geo_wire_read kind len d0 d g ws zs v ty p c t ty' w0 : geometry int_ num geometries d0 g ws -> nth_error ws p = Some c -> wire_data num t -> wire_lookup wiredata cndata (wv_data v) ty (Some (lower c)) = (Some (Some t), false, ty') -> starts d zs kind p w0 ->
  exists w, geo_wire int_ num wiredata cndata kind len g (v, d, ty) w0 p = Ok (mkWv (Some (Some (lower c))) (Some (Some t)), d, ty', w) /\ reads_geo num d g t zs kind len c p w.
Proof.
  intros G N T L S. pose proof (code_found d0 g ws v p c G N) as [Co Cl]. assert (P : p < length ws) by (apply nth_error_Some; congruence). destruct (ge_places _ _ _ _ _ _ G p P) as [Px Py].
  destruct (place_read g "x" p Px) as (u & x & U & X & Vx). destruct (place_read g "h" p Py) as (u' & y & U' & Y & Vy). rewrite U in U'. injection U' as <-.
  unfold geo_wire. rewrite U. cbn [bind]. rewrite X. cbn [bind]. rewrite Y. cbn [bind]. rewrite Co. cbn [bind]. rewrite L. cbn [of_opt bind].
  destruct (values_read t len (rw_amp w0) (rw_emamp w0) T) as (diam & gmr & r & -> & Va & Vb & Vr). cbn [bind fst snd]. eexists. split; [reflexivity|]. destruct S as [[S1 _ _ S4 S5 S6 S7] A1 A2].
  constructor; cbn [rw_class rw_X rw_Y rw_diam rw_gmr rw_ohms rw_node rw_amp rw_emamp rw_switch rw_open rw_breaker rw_recloser rw_cn].
  - now rewrite Cl.
  - constructor; cbn [rw_X rw_Y rw_diam rw_gmr rw_ohms]; assumption.
  - exact S1.
  - now apply rating_read.
  - now apply rating_read.
  - destruct kind as [[]|]; cbn; split; congruence.
  - exact S5.
  - exact S6.
  - exact S7.
  - reflexivity.
Qed.
Lemma neutral_read t : strands int_ num t -> exists c, cn_values int_ num t = Ok c /\ forall w, rw_cn w = Some c -> neutral_of int_ num t w.
Proof.
  intros [A B C D E (z & s & K & Z)]. destruct (measure_read _ _ _ A) as (ua & Ua & Va). destruct (measure_read _ _ _ B) as (ub & Ub & Vb). destruct (measure_read _ _ _ C) as (uc & Uc & Vc). destruct (measure_read _ _ _ D) as (ud & Ud & Vd). destruct (measure_read _ _ _ E) as (ue & Ue & Ve).
  rewrite Uc in Ud. injection Ud as <-. rewrite Uc in Ue. injection Ue as <-. destruct A as (qa & fa & A & _), B as (qb & fb & B & _), C as (qc & fc & C & _), D as (qd & fd & D & _), E as (qe & fe & E & _).
  rewrite (qfloat_number _ _ _ A) in Va. rewrite (qfloat_number _ _ _ B) in Vb. rewrite (qfloat_number _ _ _ C) in Vc. rewrite (qfloat_number _ _ _ D) in Vd. rewrite (qfloat_number _ _ _ E) in Ve.
  unfold cn_values, text_must. rewrite Ua, Ub, Uc. cbn [of_opt bind]. rewrite (qfloat_number _ _ _ A), (qfloat_number _ _ _ B), (qfloat_number _ _ _ C), (qfloat_number _ _ _ D), (qfloat_number _ _ _ E), K. cbn [of_opt bind]. rewrite Z. cbn [of_opt bind].
  eexists. split; [reflexivity|]. intros w W. do 6 eexists. split; [exact W|]. repeat (split; [assumption|]). split; [|assumption]. intros z' (s' & K' & Z'). rewrite K in K'. injection K' as <-. congruence.
Qed.
Lemma neutrals_read d cs x : (forall y, In y (cs ++ [x]) -> strands int_ num (snd y)) -> exists c, foldM (cn_step int_ num) (cs ++ [x]) (d, None) = Ok (snd x, Some c) /\ cn_values int_ num (snd x) = Ok c.
Proof.
  intros H. assert (G : forall l st, (forall y, In y l -> strands int_ num (snd y)) -> exists st', foldM (cn_step int_ num) l st = Ok st').
  { induction l as [|y l IH]; intros st F; [cbn; eauto|]. cbn [foldM]. unfold cn_step at 1. destruct (neutral_read _ (F y (or_introl eq_refl))) as (c & -> & _). cbn [bind]. apply IH. intros z Z. apply F. now right. }
  rewrite foldM_app. destruct (G cs (d, None)) as (st & ->); [intros y Y; apply H, in_or_app; now left|]. cbn [bind foldM]. unfold cn_step. destruct (neutral_read (snd x)) as (c & -> & _); [apply H, in_or_app; right; now left|]. cbn [bind]. eauto.
Qed.
Lemma geo_cable_read kind len d0 d g ws zs v ty p c t cs x w0 : geometry int_ num geometries d0 g ws -> nth_error ws p = Some c -> wire_data num t -> names_cables cndata -> cable cndata c t -> cndata = cs ++ [x] -> (forall y, In y cndata -> strands int_ num (snd y)) -> starts d zs kind p w0 ->
  exists w, geo_wire int_ num wiredata cndata kind len g (v, d, ty) w0 p = Ok (mkWv (Some (Some (lower c))) (Some (Some t)), snd x, Some "underground", w) /\ rw_class w = Some c /\ sized num g t len p w /\
    rating num t d "normamps" (rw_amp w) /\ rating num t d "emergamps" (rw_emamp w) /\ neutral_of int_ num (snd x) w.
Proof.
  intros G N T Nc Ca Ex St S. pose proof (code_found d0 g ws v p c G N) as [Co Cl]. assert (P : p < length ws) by (apply nth_error_Some; congruence). destruct (ge_places _ _ _ _ _ _ G p P) as [Px Py].
  destruct (place_read g "x" p Px) as (u & xx & U & X & Vx). destruct (place_read g "h" p Py) as (u' & y & U' & Y & Vy). rewrite U in U'. injection U' as <-.
  unfold geo_wire. rewrite U. cbn [bind]. rewrite X. cbn [bind]. rewrite Y. cbn [bind]. rewrite Co. cbn [bind]. rewrite (cable_lookup _ _ c t Nc Ca). cbn [of_opt bind].
  destruct (values_read t len (rw_amp w0) (rw_emamp w0) T) as (diam & gmr & r & -> & Va & Vb & Vr). cbn [bind fst snd].
  assert (F : exists cc, foldM (cn_step int_ num) cndata (d, None) = Ok (snd x, Some cc) /\ cn_values int_ num (snd x) = Ok cc). { rewrite Ex in *. now apply neutrals_read. }
  destruct F as (cc & -> & F). cbn [bind fst snd]. eexists. split; [reflexivity|]. destruct S as [_ A1 A2]. cbn [rw_class rw_amp rw_emamp]. split; [now rewrite Cl|]. split; [constructor; cbn [rw_X rw_Y rw_diam rw_gmr rw_ohms]; assumption|].
  split; [now apply rating_read|]. split; [now apply rating_read|]. destruct (neutral_read (snd x)) as (c' & F' & Hn); [apply St; rewrite Ex; apply in_or_app; right; now left|]. rewrite F in F'. injection F' as <-. now apply Hn.
Qed.

(** *** All wires, and the line *)
Lemma fold_wires {S} (step : S * list rwire -> nat -> res (S * list rwire)) (inv : nat -> S -> Prop) (P : nat -> rwire -> Prop) k :
  (forall s ws i, i < k -> inv i s -> exists s' w, step (s, ws) i = Ok (s', ws ++ [w]) /\ inv (i + 1) s' /\ P i w) ->
  forall m i s ws, i + m <= k -> inv i s -> exists s' new, foldM step (seq i m) (s, ws) = Ok (s', ws ++ new) /\ length new = m /\ inv (i + m) s' /\ forall j w, nth_error new j = Some w -> P (i + j) w.
Proof.
  intros H. induction m as [|m IH]; intros i s ws L I; cbn [seq foldM].
  - exists s, []. rewrite app_nil_r, Nat.add_0_r. split; [reflexivity|]. split; [reflexivity|]. split; [exact I|]. intros [|j]; discriminate.
  - destruct (H s ws i) as (s1 & w & -> & I1 & P1); [lia|exact I|]. cbn [bind]. destruct (IH (Datatypes.S i) s1 (ws ++ [w])) as (s' & new & -> & Ln & I' & Pn); [lia|now replace (Datatypes.S i) with (i + 1) by lia|].
    exists s', (w :: new). rewrite <- app_assoc. split; [reflexivity|]. split; [cbn; lia|]. split; [now replace (i + Datatypes.S m) with (Datatypes.S i + m) by lia|]. intros [|j] x X; [injection X as <-; now rewrite Nat.add_0_r|]. replace (i + Datatypes.S j) with (Datatypes.S i + j) by lia. exact (Pn _ _ X).
Qed.
Lemma with_geometry fs rs v full d v0 l0 g : parse_line int_ num source linecodes [] wiredata cndata fs rs v full d = Ok (v0, Some l0) -> geometry_of geometries d = Some g ->
  parse_line int_ num source linecodes geometries wiredata cndata fs rs v full d =
    do k <- conductors int_ d (Some g);
    do st <- foldM (wire_step int_ num wiredata cndata fs full (rn_kind l0) (rn_length l0) (Some g) (snd (end_of int_ d "bus1"))) (seq 0 (Z.to_nat k)) (v, d, None, []);
    let '(v', _, ty, ws) := st in Ok (v', Some (mkRline (rn_name l0) (rn_feeder l0) (rn_class l0) (rn_length l0) (rn_from l0) (rn_to l0) (rn_kind l0) (rn_fault l0) (rn_Z l0) (rn_C l0) ty ws)).
Proof.
  intros E G. unfold parse_line in *. destruct (d "Switch") as [sw|]; [|discriminate]. cbn [of_opt bind] in *. match type of E with (do x <- ?y; _) = _ => destruct y as [on|]; [|discriminate] end. cbn [bind] in *. destruct (negb on); [discriminate|].
  destruct (second_piece "ine." full) as [n|]; [|discriminate]. cbn [of_opt bind] in *. destruct (code_of linecodes d) as [code|]; [|discriminate]. cbn [bind] in *. destruct (unit_of d _) as [u|]; [|discriminate]. cbn [bind] in *.
  destruct (end_of int_ d "bus1") as [from zs]. destruct (check_ends int_ d); [|discriminate]. cbn [bind] in *. destruct (imped_of _ _ _ _) as [z|]; [|discriminate]. cbn [bind] in *. destruct (cap_of _ _ _ _) as [c|]; [|discriminate]. cbn [bind] in *.
  destruct (conductors int_ d (geometry_of [] d)) as [k0|]; [|discriminate]. cbn [bind] in E. match type of E with (do x <- ?y; _) = _ => destruct y as [[[[v1 d1] ty1] ws1]|]; [|discriminate] end. cbn [bind] in E. injection E as <- <-. rewrite G. cbn [rn_name rn_feeder rn_class rn_length rn_from rn_to rn_kind rn_fault rn_Z rn_C snd]. reflexivity.
Qed.
End Geo.
