(** Theorems about the loads of the OpenDSS reader (C95). *)
From Verif Require Import Base BaseFacts CsvModel TextModel DssNameModel DssNameSpec DssTextModel DssTextSpec DssTextProofs DssLoadSpec DssNodeSpec DssNodeProofs DssRdLoadModel DssRdLoadSpec DssRdLoadProofs.
From Coq Require Import Reals QArith Qreals Lra Lia.
Local Open Scope string_scope.
Local Open Scope nat_scope.
Local Open Scope list_scope.

(** One load is read for each enabled load of the circuit, in order, with
    its bus, its connection and its voltages; the phases are the nodes that
    it is connected to, and each has an equal share of the active and of the
    reactive power. *)
Theorem C95_loads : forall int_ num source loads, reads_nodes int_ -> Forall (good_report int_ num) loads ->
  exists l, parse_loads int_ num source loads = Ok l /\ Forall2 (read_of int_ num source) (filter (fun x => enabled (snd x)) loads) l.
Proof.
  intros int_ num source loads I G. unfold parse_loads.
  assert (X : exists os, mapM (fun x => parse_load int_ num source (fst x) (snd x)) loads = Ok os /\ Forall2 (read_of int_ num source) (filter (fun x => enabled (snd x)) loads) (kept_loads os)); [|destruct X as (os & -> & F); cbn [bind]; eauto].
  induction G as [|[full d] loads (Ge & Gr) G (os & E & F)]; [exists []; split; [reflexivity|constructor]|]. cbn [fst snd] in *. cbn [mapM filter fst snd]. destruct (enabled d) eqn:En.
  - destruct (Gr eq_refl) as (n & b & conn & ps & kw & kvar & Rp). destruct (load_read int_ num source I full d n b conn ps kw kvar En Rp) as (l & El & Rl). rewrite El. cbn [bind]. rewrite E. cbn [bind]. eexists. split; [reflexivity|].
    cbn [kept_loads]. constructor; [|exact F]. exists n, b, conn, ps, kw, kvar. auto.
  - assert (Ed : parse_load int_ num source full d = Ok None). { unfold parse_load. unfold enabled in En. destruct (d "enabled") as [[s|s]|]; [|reflexivity|congruence]. cbn [of_opt bind]. now rewrite En. }
    rewrite Ed. cbn [bind]. rewrite E. cbn [bind]. eexists. split; [reflexivity|]. exact F.
Qed.
Print Assumptions C95_loads.
(** The shares of the phases add up to the power of the load. *)
Theorem C95_total : forall int_ num source d n b conn ps kw kvar l, reads_load int_ num source d n b conn ps kw kvar l -> ps <> [] ->
  total (map rp_p (rl_phases l)) = (kw * 1000)%R /\ exists qs, map rp_q (rl_phases l) = map Num qs /\ total qs = (kvar * 1000)%R.
Proof.
  intros int_ num source d n b conn ps kw kvar l [_ _ _ _ _ _ _ _ Ph Pw _] N. assert (L : length (rl_phases l) = length ps) by (rewrite <- (map_length rp_phase), Ph; apply map_length).
  assert (Nl : rl_phases l <> []) by (intros E; rewrite E in L; destruct ps; [congruence|discriminate L]). split.
  - apply share_total; [exact Nl|]. intros x Hx. rewrite L. now apply Pw.
  - set (f := fun x => match rp_q x with Num q => q | NotFinite => 0%R end). exists (map f (rl_phases l)). split.
    + rewrite map_map. apply map_ext_in. intros x Hx. unfold f. destruct (Pw x Hx) as (_ & q & -> & _). reflexivity.
    + apply share_total; [exact Nl|]. intros x Hx. rewrite L. unfold f. destruct (Pw x Hx) as (_ & q & -> & Q). exact Q.
Qed.
Print Assumptions C95_total.
(** Loads with different names keep different names. *)
Theorem C95_names : forall int_ num source loads l, Forall2 (read_of int_ num source) loads l -> NoDup (map (fun x => lower (fst x)) loads) -> NoDup (map rl_name l).
Proof.
  intros int_ num source loads l F. induction F as [|x r loads l H F IH]; intros N; [constructor|]. cbn [map] in *. inversion N as [|? ? N1 N2]; subst. constructor; [|auto]. clear IH N N2.
  intros Hin. apply N1. clear N1. destruct H as (n & b & conn & ps & kw & kvar & Rp & Rl). rewrite (re_name _ _ _ _ _ _ _ _ _ _ Rp). rewrite (rd_name _ _ _ _ _ _ _ _ _ _ _ Rl) in Hin.
  induction F as [|y r' loads l H' F IH]; [destruct Hin|]. cbn [map] in *. destruct Hin as [Hin|Hin]; [left|right; auto]. destruct H' as (n' & b' & conn' & ps' & kw' & kvar' & Rp' & Rl'). rewrite (re_name _ _ _ _ _ _ _ _ _ _ Rp'). rewrite (rd_name _ _ _ _ _ _ _ _ _ _ _ Rl') in Hin.
  cbn in Hin. injection Hin as Hin. cbn. now rewrite Hin.
Qed.
Print Assumptions C95_names.

Lemma number_gives num e k q d K : gives num e k (Some q) -> (forall s r, prop e k = Some s -> real_of num s = Some r -> number (real_of num) d K r) -> number (real_of num) d K (Q2R q).
Proof.
  intros (y & V & E) H. unfold value in V. destruct (prop e k) as [s|] eqn:P; [|discriminate]. rewrite <- (Qeq_eqR _ _ E). apply (H s); [reflexivity|]. unfold real_of. now rewrite V.
Qed.
Lemma given_some {A} (l : list A) : given (map Some l) = l.
Proof. induction l as [|x l IH]; [reflexivity|]. cbn. now rewrite IH. Qed.
Lemma same_number num d k q o : states num d k o -> number num d k q -> o = Some q.
Proof. intros S (s & D & N). destruct o as [r|]; [|destruct (S q); exists s; auto]. destruct S as (s' & D' & N'). congruence. Qed.

(** A load that the writer wrote comes back: its bus, its connection, its
    voltages, its phases and its total power are those of the load, and the
    name has a prefix. *)
Theorem C95_read_back : forall int_ num source datasets fmts removed l e d n ps m,
  reads_ints int_ -> load_is num datasets fmts removed l e -> engine (real_of num) e d ->
  ld_name l = Some n -> ~ has "oad." n -> ld_bus l <> None -> ld_conn l = Some "Y" \/ ld_conn l = Some "D" ->
  map pl_phase (ld_phases l) = map Some ps -> ps <> [] -> (forall p, In p ps -> In p ["A"; "B"; "C"]) -> (forall v, ld_kv l = Some v -> (v < 300)%Q -> length ps = 1) ->
  hd_error (map pl_model (ld_phases l)) = Some m -> m <> 8%Z -> ~ (sum (given (map pl_p (ld_phases l))) == 0)%Q ->
  exists l' x y, parse_load int_ (real_of num) source ("Load." ++ n) d = Ok (Some l') /\
    rl_name l' = ("load_" ++ lower n)%string /\ ld_bus l = Some x /\ kept x y /\ rl_bus l' = Some y /\ rl_conn l' = ld_conn l /\
    equal_to (ld_kv l) (rl_kv l') /\ equal_to (ld_vmin l) (rl_vmin l') /\ equal_to (ld_vmax l) (rl_vmax l') /\
    map rp_phase (rl_phases l') = map pl_phase (ld_phases l) /\ (forall x, In x (rl_phases l') -> rp_model x = m) /\
    total (map rp_p (rl_phases l')) = Q2R (sum (given (map pl_p (ld_phases l)))) /\
    (exists qs, map rp_q (rl_phases l') = map Num qs /\ total qs = Q2R (sum (given (map pl_q (ld_phases l))))) /\
    forall x, In x (rl_phases l') -> (rp_p x * INR (length ps) = Q2R (sum (given (map pl_p (ld_phases l)))))%R.
Proof.
  intros int_ num source datasets fmts removed l e d n ps m (Iz & Is) L En Nm Plain Bus Conn Ph Ne Abc Kv Mo M8 P0.
  assert (I : reads_nodes int_) by (split; [apply (Iz 1%Z)|split; [apply (Iz 2%Z)|apply (Iz 3%Z)]]).
  destruct L as [_ Ln Lc (ns & Lnodes & Lb) Lkv Lmin Lmax Lkw Lkvar Lm (k & Lp & Lk) _ _ _].
  assert (Nl : ld_phases l <> []) by (intros E; rewrite E in Ph; destruct ps; [congruence|discriminate Ph]).
  assert (Len : length (ld_phases l) = length ps) by (rewrite <- (map_length pl_phase), Ph; apply map_length).
  assert (Ek : k = length ps). { destruct Lk as [(v & V & V3 & ->)|(_ & ->)]; [symmetry; now apply (Kv v)|exact Len]. }
  destruct (ld_bus l) as [x|] eqn:Eb; [|congruence]. destruct Lb as (t & y & Pb & T & Kx).
  set (conn := if match ld_conn l with Some c => String.eqb c "D" | None => false end then "delta" else "wye").
  assert (Hl : forall p q, In p ["A"; "B"; "C"] -> at_node p q -> node_letter q p) by (intros p q Hp H; destruct H; [constructor|constructor|constructor|destruct Hp as [Hp|[Hp|[Hp|[]]]]; discriminate]).
  assert (On : on_phases conn k ns ps).
  { left. destruct Lnodes as (ms & F & H). rewrite Ph, given_some in F. assert (F' : Forall2 node_letter ms ps). { clear -F Hl Abc. induction F as [|p q ps ms H F IH]; constructor; [apply Hl; [apply Abc; now left|exact H]|apply IH; intros r Hr; apply Abc; now right]. }
    assert (Lm' : length ms = length ps) by (apply F2_length in F'; exact F'). split; [rewrite Ek; destruct ps; [congruence|discriminate]|]. destruct H as [(D & L1 & a & b & -> & Nx & ->)|(D & ->)].
    - cbn in Lm'. rewrite Ek, <- Lm'. split; [cbn; lia|]. split; [left; unfold conn; now rewrite D|]. inversion F' as [|? p ? ps' H1 F1]; subst. inversion F1; subst. destruct Nx.
      + exists [p; "B"]. split; [repeat constructor; exact H1|reflexivity].
      + exists [p; "C"]. split; [repeat constructor; exact H1|reflexivity].
      + exists [p; "A"]. split; [repeat constructor; exact H1|reflexivity].
    - rewrite Ek, Lm'. split; [lia|]. split; [now right|]. exists ps. split; [exact F'|]. now rewrite firstn_all. }
  destruct (ld_phases l) as [|p1 rest] eqn:El; [congruence|]. rewrite <- El in *.
  set (kw := Q2R (sum (given (map pl_p (ld_phases l))) / 1000)). set (kvar := Q2R (sum (given (map pl_q (ld_phases l))) / 1000)).
  assert (K1 : (kw * 1000 = Q2R (sum (given (map pl_p (ld_phases l)))))%R). { unfold kw. rewrite Q2R_div by (intros X; discriminate X). assert (Q2R 1000 = 1000%R) as -> by (unfold Q2R; cbn; lra). field. }
  assert (K2 : (kvar * 1000 = Q2R (sum (given (map pl_q (ld_phases l)))))%R). { unfold kvar. rewrite Q2R_div by (intros X; discriminate X). assert (Q2R 1000 = 1000%R) as -> by (unfold Q2R; cbn; lra). field. }
  assert (Nkw : kw <> 0%R). { intros X. rewrite X, Rmult_0_l in K1. apply P0. apply eqR_Qeq. rewrite <- K1. unfold Q2R. cbn. lra. }
  destruct En as [Eon Ebus Econn Ephases Emodel Ekv Evmin Evmax Ekw Ekvar Ekva Epf].
  assert (Rw : number (real_of num) d "kW" kw). { apply (number_gives num e "kw"); [|exact Ekw]. exact Lkw. }
  assert (Rv : number (real_of num) d "kvar" kvar). { apply (number_gives num e "kvar"); [|exact Ekvar]. exact Lkvar. }
  assert (Wz : whole int_ d "model" m). { eexists. split; [exact Emodel|]. unfold defaults. rewrite Lm. rewrite El in Mo. cbn in Mo. injection Mo as ->. apply Iz. }
  assert (Rp : reports int_ (real_of num) ("Load." ++ n) d n y conn ps kw kvar).
  { constructor; try assumption; try reflexivity.
    - eexists. split; [exact Econn|]. unfold defaults, conn. rewrite Lc. destruct Conn as [-> | ->]; cbn; auto.
    - exists t, ns, k. split; [rewrite Ebus, Pb; reflexivity|]. split; [exact T|]. split; [|exact On]. eexists. split; [exact Ephases|]. unfold defaults. rewrite Lp. apply Is.
    - apply Epf; assumption.
    - exists m, None. split; [exact Wz|]. left. auto. }
  assert (En : enabled d = true) by (unfold enabled; now rewrite Eon).
  destruct (load_read int_ (real_of num) source I _ d n y conn ps kw kvar En Rp) as (l' & El' & Rl). destruct (C95_total _ _ _ _ _ _ _ _ _ _ _ Rl Ne) as (Tp & Tq). destruct Rl as [R1 R2 R3 R4 (v & R5 & R5') R6 R7 R8 R9 R10 R11].
  exists l', x, y. split; [exact El'|]. split; [exact R1|]. split; [reflexivity|]. split; [exact Kx|]. split; [exact R3|].
  split; [rewrite R4; unfold conn; destruct Conn as [-> | ->]; reflexivity|].
  split. { intros q Q. rewrite Q in Lkv. pose proof (same_number _ _ _ _ _ R5 (number_gives num e "kv" _ d "kV" Lkv Ekv)) as E. rewrite R5', E. cbn [option_map]. f_equal. rewrite Q2R_div by (intros X; discriminate X). assert (Q2R 1000 = 1000%R) as -> by (unfold Q2R; cbn; lra). field. }
  split. { intros q Q. rewrite Q in Lmin. exact (same_number _ _ _ _ _ R7 (number_gives num e "vminpu" _ d "Vminpu" Lmin Evmin)). }
  split. { intros q Q. rewrite Q in Lmax. exact (same_number _ _ _ _ _ R8 (number_gives num e "vmaxpu" _ d "Vmaxpu" Lmax Evmax)). }
  split; [now rewrite R9|]. split. { intros z Hz. destruct (R11 z Hz) as ((s & S1 & S2) & _). destruct Wz as (s' & S1' & S2'). congruence. }
  split; [now rewrite Tp|]. split. { destruct Tq as (qs & Q1 & Q2). exists qs. split; [exact Q1|]. now rewrite Q2. }
  intros z Hz. rewrite <- K1. now apply R10.
Qed.
Print Assumptions C95_read_back.

(** A load whose phases have different powers comes back with equal ones. *)
Theorem C95_unbalanced_refuted : forall int_ num source datasets fmts removed l e d n ps m a b qa qb,
  reads_ints int_ -> load_is num datasets fmts removed l e -> engine (real_of num) e d ->
  ld_name l = Some n -> ~ has "oad." n -> ld_bus l <> None -> ld_conn l = Some "Y" \/ ld_conn l = Some "D" ->
  map pl_phase (ld_phases l) = map Some ps -> ps <> [] -> (forall p, In p ps -> In p ["A"; "B"; "C"]) -> (forall v, ld_kv l = Some v -> (v < 300)%Q -> length ps = 1) ->
  hd_error (map pl_model (ld_phases l)) = Some m -> m <> 8%Z -> ~ (sum (given (map pl_p (ld_phases l))) == 0)%Q ->
  In a (ld_phases l) -> In b (ld_phases l) -> pl_p a = Some qa -> pl_p b = Some qb -> ~ (qa == qb)%Q ->
  exists l', parse_load int_ (real_of num) source ("Load." ++ n) d = Ok (Some l') /\ ~ Forall2 (fun p x => forall q, pl_p p = Some q -> rp_p x = Q2R q) (ld_phases l) (rl_phases l').
Proof.
  intros int_ num source datasets fmts removed l e d n ps m a b qa qb I L En Nm Plain Bus Conn Ph Ne Abc Kv Mo M8 P0 Ha Hb Qa Qb D.
  destruct (C95_read_back int_ num source datasets fmts removed l e d n ps m I L En Nm Plain Bus Conn Ph Ne Abc Kv Mo M8 P0) as (l' & x & y & E & H). exists l'. split; [exact E|]. destruct H as (_ & _ & _ & _ & _ & _ & _ & _ & _ & _ & _ & _ & S).
  intros F. apply D. apply eqR_Qeq. assert (K : INR (length ps) <> 0%R) by (apply not_0_INR; destruct ps; [congruence|discriminate]).
  assert (X : forall c q, In c (ld_phases l) -> pl_p c = Some q -> (Q2R q * INR (length ps) = Q2R (sum (given (map pl_p (ld_phases l)))))%R).
  { intros c q Hc Qc. assert (Y : exists z, In z (rl_phases l') /\ rp_p z = Q2R q). { clear -F Hc Qc. induction F as [|p z ls lr H F IH]; [destruct Hc|]. destruct Hc as [->|Hc]; [exists z; split; [now left|auto]|]. destruct (IH Hc) as (w & W & W'). exists w. split; [now right|exact W']. }
    destruct Y as (z & Hz & <-). now apply S. }
  apply (Rmult_eq_reg_r (INR (length ps))); [|exact K]. now rewrite (X a qa Ha Qa), (X b qb Hb Qb).
Qed.
Print Assumptions C95_unbalanced_refuted.

(** A load without active power has no reactive power after reading, or one
    that is no number, whatever OpenDSS reports as its kvar. *)
Theorem C95_reactive_refuted : forall int_ num source full d l x, number num d "kW" 0 -> parse_load int_ num source full d = Ok (Some l) -> In x (rl_phases l) -> rp_q x = NotFinite \/ rp_q x = Num 0.
Proof.
  intros int_ num source full d l x W E Hx. unfold parse_load in E. destruct (d "enabled") as [en|]; [|discriminate]. cbn [of_opt bind] in E. destruct (match en with PText s => String.eqb s "Yes" | PList _ => false end); [|discriminate].
  rewrite (float_number _ _ _ _ W) in E. cbn [of_opt bind] in E. match type of E with context [length ?l =? 0] => set (phs := l) in * end. destruct (length phs =? 0); [discriminate|].
  destruct (float_of num d "kVA"); [|discriminate]. cbn [of_opt bind] in E. destruct (mapM _ phs) as [pls|] eqn:M; [|discriminate]. cbn [bind] in E. injection E as <-. cbn [rl_phases] in Hx.
  apply mapM_Forall2 in M. clear -M Hx; clearbody phs; induction M as [|p y phs1 pls1 H M IH]; [destruct Hx|]. destruct Hx as [->|Hx]; [|auto]. unfold phase_of in H. destruct (float_of num d "pf") as [f|]; [|discriminate]. cbn [of_opt bind] in H.
  match type of H with context [bind ?r _] => destruct r as [sh|]; [|discriminate] end. cbn [bind] in H. injection H as <-. cbn [rp_q]. unfold reactive. destruct (Rlt_dec _ 0); [auto|]. destruct (Req_EM_T f 0); [auto|]. right. f_equal. unfold Rdiv. now rewrite !Rmult_0_l.
Qed.
Print Assumptions C95_reactive_refuted.
(** A wye load between a phase and the ground is given two phases, one
    without letter, and half of its power on each. *)
Theorem C95_ground_refuted : forall int_ num source full d t b m p kw kva f z, reads_nodes int_ -> int_ "0" = Some 0%Z ->
  enabled d = true -> d "conn" = Some (PText "wye") -> d "bus1" = Some (PText t) -> terminal t = (b, [m; "0"]) -> node_letter m p -> whole int_ d "phases" 1 ->
  number num d "kW" kw -> number num d "kVA" kva -> number num d "pf" f -> whole int_ d "model" z -> z <> 8%Z ->
  exists l, parse_load int_ num source full d = Ok (Some l) /\ map rp_phase (rl_phases l) = [Some p; None] /\ forall x, In x (rl_phases l) -> (rp_p x = kw * 1000 / 2)%R.
Proof.
  intros int_ num source full d t b m p kw kva f z (I1 & I2 & I3) I0 En Cn Bs T Hm W1 Kw Ka Pf Wz Z8.
  assert (At : at_of int_ d = Some (b, [Some p; None])).
  { unfold at_of, text_of. rewrite Bs, split_pieces. unfold terminal in T. destruct (pieces (Ascii.eqb ".") t) as [|b1 ns'] eqn:Ep; [destruct (pieces_nonempty _ _ Ep)|]. injection T as <- ->. cbn [mapM]. destruct Hm; rewrite ?I1, ?I2, ?I3, I0; reflexivity. }
  eexists. split. { apply (load_shape int_ num source full d b [Some p; None] [Some p; None] kw kva f z None); try assumption; [|discriminate|left; auto]. unfold conn_of, text_of. rewrite Cn, (int_whole _ _ _ _ W1). reflexivity. }
  split; [reflexivity|]. intros x [<-|[<-|[]]]; cbn; lra.
Qed.
Print Assumptions C95_ground_refuted.
Lemma mapM_ext {A B} (f g : A -> res B) l : (forall x, f x = g x) -> mapM f l = mapM g l.
Proof. intros H. induction l as [|x l IH]; [reflexivity|]. cbn [mapM]. now rewrite H, IH. Qed.
(** A delta load between the phases A and B and one between A and C are read
    as the same load. *)
Theorem C95_delta_refuted : forall int_ num source full d d' t t' b, reads_nodes int_ ->
  (forall k, k <> "bus1" -> d k = d' k) -> d "conn" = Some (PText "delta") -> whole int_ d "phases" 1 ->
  d "bus1" = Some (PText t) -> d' "bus1" = Some (PText t') -> terminal t = (b, ["1"; "2"]) -> terminal t' = (b, ["1"; "3"]) ->
  parse_load int_ num source full d = parse_load int_ num source full d'.
Proof.
  intros int_ num source full d d' t t' b (I1 & I2 & I3) Eq Cn W1 B B' T T'.
  assert (At : at_of int_ d = Some (b, [Some "A"; Some "B"])).
  { unfold at_of, text_of. rewrite B, split_pieces. unfold terminal in T. destruct (pieces (Ascii.eqb ".") t) as [|b1 ns'] eqn:Ep; [destruct (pieces_nonempty _ _ Ep)|]. injection T as <- ->. cbn [mapM]. rewrite I1, I2. reflexivity. }
  assert (At' : at_of int_ d' = Some (b, [Some "A"; Some "C"])).
  { unfold at_of, text_of. rewrite B', split_pieces. unfold terminal in T'. destruct (pieces (Ascii.eqb ".") t') as [|b1 ns'] eqn:Ep; [destruct (pieces_nonempty _ _ Ep)|]. injection T' as <- ->. cbn [mapM]. rewrite I1, I3. reflexivity. }
  assert (Ft : forall k, k <> "bus1" -> float_of num d k = float_of num d' k) by (intros k Hk; unfold float_of, text_of; now rewrite (Eq k Hk)).
  assert (It : forall k, k <> "bus1" -> int_of int_ d k = int_of int_ d' k) by (intros k Hk; unfold int_of, text_of; now rewrite (Eq k Hk)).
  assert (Ct : conn_of d = conn_of d') by (unfold conn_of, text_of; now rewrite (Eq "conn" ltac:(discriminate))). assert (Cd : conn_of d' = Some "D") by (rewrite <- Ct; unfold conn_of, text_of; now rewrite Cn).
  assert (Sh : shares_of num d = shares_of num d') by (unfold shares_of; now rewrite (Eq "ZIPV" ltac:(discriminate))).
  unfold parse_load. rewrite (Eq "enabled" ltac:(discriminate)), At, At', Ct, Cd. rewrite <- (It "phases" ltac:(discriminate)), (int_whole _ _ _ _ W1), !Ft by discriminate.
  change (phases_of 1 (Some "D") [Some "A"; Some "B"]) with [Some "A"]. change (phases_of 1 (Some "D") [Some "A"; Some "C"]) with [Some "A"].
  destruct (of_opt EKey (d' "enabled")) as [en|]; [|reflexivity]. cbn [bind]. destruct (match en with PText s => String.eqb s "Yes" | PList _ => false end); [|reflexivity]. destruct (float_of num d' "kW") as [kw|]; [|reflexivity]. cbn [of_opt bind length Nat.eqb].
  destruct (float_of num d' "kVA"); [|reflexivity]. cbn [of_opt bind]. rewrite (mapM_ext (phase_of int_ num d _ _) (phase_of int_ num d' (kw / INR 1)%R (float_of num d' "pf"))); [reflexivity|].
  intros q. unfold phase_of. now rewrite (It "model" ltac:(discriminate)), Sh.
Qed.
Print Assumptions C95_delta_refuted.
(** Names are cut at the letters "oad.": all loads with a name that begins
    with "broad." are read under one name. *)
Theorem C95_name_refuted : forall int_ num source s d l, parse_load int_ num source ("Load.broad." ++ s) d = Ok (Some l) -> rl_name l = "load_br".
Proof.
  intros int_ num source s d l E.
  assert (X : second_piece "oad." ("Load.broad." ++ s) = Some "br"). { unfold second_piece. cbn. rewrite substring_all by lia. cbn. assert (String.prefix "" s = true) as -> by now destruct s. reflexivity. }
  unfold parse_load in E. rewrite X in E. destruct (d "enabled") as [en|]; [|discriminate]. cbn [of_opt bind] in E. destruct (match en with PText s => String.eqb s "Yes" | PList _ => false end); [|discriminate].
  destruct (float_of num d "kW"); [|discriminate]. cbn [of_opt bind] in E. match type of E with context [length ?l =? 0] => destruct (length l =? 0); [discriminate|] end.
  destruct (float_of num d "kVA"); [|discriminate]. cbn [of_opt bind] in E. match type of E with context [bind ?r _] => destruct r as [pls|]; [|discriminate] end. cbn [bind] in E. injection E as <-. cbn [rl_name].
  reflexivity.
Qed.
Print Assumptions C95_name_refuted.

(** ** Cases *)
From Verif Require DssStoreModel DssStoreProps DssTextProps.
From Coq Require Import Nnat.
From Coq Require DecimalNat DecimalPos DecimalString.
Lemma little_same u : N.of_nat (DecimalNat.Unsigned.of_lu u) = DecimalPos.Unsigned.of_lu u.
Proof. induction u; cbn [DecimalNat.Unsigned.of_lu DecimalPos.Unsigned.of_lu]; rewrite ?Nat2N.inj_add, ?Nat2N.inj_mul, ?IHu; try reflexivity; lia. Qed.
Lemma ints_read : reads_ints DssStoreModel.read_int.
Proof.
  split; [exact DssStoreProps.int_read|]. intros n. unfold DssStoreModel.read_int, str_of.
  change (DecimalString.NilEmpty.string_of_uint (Nat.to_uint n)) with (DecimalString.NilEmpty.string_of_int (Decimal.Pos (Nat.to_uint n))). rewrite DecimalString.NilEmpty.isi. cbn [option_map Z.of_int]. f_equal. unfold Z.of_uint.
  rewrite DecimalPos.Unsigned.of_uint_alt, <- little_same, <- DecimalNat.Unsigned.of_uint_alt, DecimalNat.Unsigned.of_to. lia.
Qed.
Definition tbl (l : list (string * string)) : data := fun k => match find (fun x => String.eqb (fst x) k) l with Some x => Some (PText (snd x)) | None => None end.
Definition num_r : string -> option R := real_of DssTextProps.num_q.
Definition ex_shop : data := tbl [("enabled", "Yes"); ("conn", "wye"); ("bus1", "b1"); ("phases", "3"); ("kV", "4/1"); ("kW", "30/1"); ("kvar", "-40/1"); ("kVA", "50/1"); ("pf", "-3/5"); ("model", "1")].
Definition ex_pump : data := tbl [("enabled", "Yes"); ("conn", "Delta"); ("bus1", "b2.3.1"); ("phases", "1"); ("kV", "1/2"); ("kW", "3/1"); ("kvar", "4/1"); ("kVA", "5/1"); ("pf", "3/5"); ("model", "5")].
Definition ex_off : data := tbl [("enabled", "No")].
Definition ex_reports : list (string * data) := [("Load.shop", ex_shop); ("Load.old", ex_off); ("Load.Pump", ex_pump)].
Ltac qr := unfold Q2R, power_factor; cbn; lra.
Lemma shop_reports : reports DssStoreModel.read_int num_r "Load.shop" ex_shop "shop" "b1" "wye" ["A"; "B"; "C"] (Q2R (30 # 1)) (Q2R (-40 # 1)).
Proof.
  constructor; try (eexists; split; reflexivity); try reflexivity.
  - cbn. intuition discriminate.
  - exists "wye". repeat split. now left.
  - exists "b1", [], 3. split; [reflexivity|]. split; [reflexivity|]. split; [exists "3"; split; reflexivity|]. right. repeat split.
  - exists (Q2R (50 # 1)). eexists. split; reflexivity.
  - exists (Q2R (-3 # 5)). split; [eexists; split; reflexivity|]. split; [qr|]. split; qr.
  - exists 1%Z, None. split; [eexists; split; reflexivity|]. left. split; [discriminate|reflexivity].
Qed.
Lemma pump_reports : reports DssStoreModel.read_int num_r "Load.Pump" ex_pump "Pump" "b2" "delta" ["C"] (Q2R (3 # 1)) (Q2R (4 # 1)).
Proof.
  constructor; try (eexists; split; reflexivity); try reflexivity.
  - cbn. intuition discriminate.
  - exists "Delta". repeat split. now right.
  - exists "b2.3.1", ["3"; "1"], 1. split; [reflexivity|]. split; [reflexivity|]. split; [exists "1"; split; reflexivity|]. left. split; [discriminate|]. split; [cbn; lia|]. split; [now left|]. exists ["C"; "A"]. split; [repeat constructor|reflexivity].
  - exists (Q2R (5 # 1)). eexists. split; reflexivity.
  - exists (Q2R (3 # 5)). split; [eexists; split; reflexivity|]. split; [qr|]. split; qr.
  - exists 5%Z, None. split; [eexists; split; reflexivity|]. left. split; [discriminate|reflexivity].
Qed.
Example C95_hypotheses_met : reads_nodes DssStoreModel.read_int /\ Forall (good_report DssStoreModel.read_int num_r) ex_reports /\
  exists a b, parse_loads DssStoreModel.read_int num_r "src" ex_reports = Ok [a; b] /\ rl_name a = "load_shop" /\ rl_name b = "load_pump" /\ map rp_phase (rl_phases b) = [Some "C"] /\ NoDup (map rl_name [a; b]) /\
    total (map rp_p (rl_phases a)) = 30000%R.
Proof.
  assert (I : reads_nodes DssStoreModel.read_int) by (repeat split). split; [exact I|].
  assert (G : Forall (good_report DssStoreModel.read_int num_r) ex_reports).
  { constructor; [split; [discriminate|intros _; exists "shop", "b1", "wye", ["A"; "B"; "C"], (Q2R (30 # 1)), (Q2R (-40 # 1)); exact shop_reports]|].
    constructor; [split; [discriminate|intros X; discriminate X]|]. constructor; [split; [discriminate|intros _; exists "Pump", "b2", "delta", ["C"], (Q2R (3 # 1)), (Q2R (4 # 1)); exact pump_reports]|constructor]. }
  split; [exact G|].
  destruct (load_read DssStoreModel.read_int num_r "src" I "Load.shop" ex_shop "shop" "b1" "wye" ["A"; "B"; "C"] _ _ eq_refl shop_reports) as (a & Ea & Ra). destruct (load_read DssStoreModel.read_int num_r "src" I "Load.Pump" ex_pump "Pump" "b2" "delta" ["C"] _ _ eq_refl pump_reports) as (b & Eb & Rb).
  exists a, b. assert (Na : rl_name a = "load_shop") by exact (rd_name _ _ _ _ _ _ _ _ _ _ _ Ra). assert (Nb : rl_name b = "load_pump") by exact (rd_name _ _ _ _ _ _ _ _ _ _ _ Rb).
  split. { unfold parse_loads, ex_reports. cbn [mapM fst snd]. rewrite Ea. cbn [bind]. change (parse_load DssStoreModel.read_int num_r "src" "Load.old" ex_off) with (Ok (@None rload)). cbn [bind]. rewrite Eb. reflexivity. }
  split; [exact Na|]. split; [exact Nb|]. split; [exact (rd_phases _ _ _ _ _ _ _ _ _ _ _ Rb)|]. split; [cbn [map]; rewrite Na, Nb; repeat constructor; cbn; intuition discriminate|].
  rewrite (proj1 (C95_total _ _ _ _ _ _ _ _ _ _ _ Ra ltac:(discriminate))). unfold Q2R. cbn. lra.
Qed.
(** a load, its text and what OpenDSS reports of it *)
Definition ex_home : load := mkLoad (Some "home") (Some "Y") (Some "b 1") (Some 2400%Q) None None [mkPL (Some "B") (Some 1000%Q) (Some 2000%Q) 1 false; mkPL (Some "C") (Some 2000%Q) (Some 2000%Q) 1 false] [].
Definition ex_home_data : data := tbl [("enabled", "Yes"); ("conn", "wye"); ("bus1", "b_1.2.3"); ("phases", "2"); ("kV", "12/5"); ("kW", "3/1"); ("kvar", "4/1"); ("kVA", "5/1"); ("pf", "3/5"); ("model", "1")].
Example C95_read_back_met : exists t e l', load_text DssTextProps.show_q [] [] false ex_home = Ok (Some t) /\ read_dss t = Some [e] /\ load_is DssTextProps.num_q [] [] false ex_home e /\ engine num_r e ex_home_data /\
  parse_load DssStoreModel.read_int num_r "src" "Load.home" ex_home_data = Ok (Some l') /\ map rp_phase (rl_phases l') = [Some "B"; Some "C"] /\ total (map rp_p (rl_phases l')) = 3000%R /\
  ~ Forall2 (fun p x => forall q, pl_p p = Some q -> rp_p x = Q2R q) (ld_phases ex_home) (rl_phases l').
Proof.
  assert (G : good_load [] [] ex_home).
  { split; [exists "home"; split; [reflexivity|split; [discriminate|reflexivity]]|]. split; [discriminate|]. split; [|constructor]. intros p x H. cbn in H. destruct H as [<-|[<-|[]]]; intros Q; injection Q as <-; eexists; constructor. }
  destruct (DssTextProps.C81_loads DssTextProps.show_q DssTextProps.num_q [] [] false [ex_home] DssTextProps.faithful_q (Forall_cons _ G (Forall_nil _))) as (ts & els & M & R & F).
  inversion F as [|? e ? ? L F']; subst. inversion F'; subst. cbn [mapM] in M. destruct (load_text DssTextProps.show_q [] [] false ex_home) as [o|] eqn:T; [|discriminate]. cbn [bind] in M. injection M as M.
  destruct ts as [|t ts]; [discriminate|]. injection M as -> M. destruct ts; [|discriminate]. cbn [String.concat] in R.
  vm_compute in T. injection T as <-. 
  assert (En : engine num_r e ex_home_data).
  { vm_compute in R. injection R as <-. clear. constructor; try reflexivity; try (intros s r P; vm_compute in P; (discriminate P || (injection P as <-; intros N; vm_compute in N; injection N as <-; eexists; split; [reflexivity|]; unfold num_r, real_of; cbn; f_equal; unfold Q2R; cbn; lra))).
    - exists (Q2R (5 # 1)). eexists. split; reflexivity.
    - intros kw kvar (s & S & N) (s' & S' & N') _. exists (Q2R (3 # 5)). split; [eexists; split; reflexivity|]. vm_compute in S, S'. injection S as <-. injection S' as <-. vm_compute in N, N'. injection N as <-. injection N' as <-. split; [qr|]. split; qr. }
  assert (Kv : forall v, ld_kv ex_home = Some v -> (v < 300)%Q -> length ["B"; "C"] = 1) by (intros v V V3; injection V as <-; discriminate V3).
  assert (Ab : forall p, In p ["B"; "C"] -> In p ["A"; "B"; "C"]) by (intros p [<-|[<-|[]]]; cbn; auto).
  assert (Pl : ~ has "oad." "home") by (cbn; intuition discriminate). assert (Sm : ~ (sum (given (map pl_p (ld_phases ex_home))) == 0)%Q) by (intros X; discriminate X).
  destruct (C95_read_back DssStoreModel.read_int DssTextProps.num_q "src" [] [] false ex_home e ex_home_data "home" ["B"; "C"] 1%Z ints_read L En eq_refl Pl ltac:(discriminate) (or_introl eq_refl) eq_refl ltac:(discriminate) Ab Kv eq_refl ltac:(discriminate) Sm)
    as (l' & x & y & E & _ & _ & _ & _ & _ & _ & _ & _ & Ph & _ & Tp & _).
  destruct (C95_unbalanced_refuted DssStoreModel.read_int DssTextProps.num_q "src" [] [] false ex_home e ex_home_data "home" ["B"; "C"] 1%Z _ _ 1000%Q 2000%Q ints_read L En eq_refl Pl ltac:(discriminate) (or_introl eq_refl) eq_refl ltac:(discriminate) Ab Kv eq_refl ltac:(discriminate) Sm
    (or_introl eq_refl) (or_intror (or_introl eq_refl)) eq_refl eq_refl ltac:(intros X; discriminate X)) as (l2 & E2 & Nf).
  rewrite E in E2. injection E2 as <-. eexists _, e, l'. split; [reflexivity|]. split; [exact R|]. split; [exact L|]. split; [exact En|]. split; [exact E|]. split; [exact Ph|]. split; [|exact Nf]. rewrite Tp. unfold Q2R. cbn. lra.
Qed.
Example C95_ground_met : exists l, parse_load DssStoreModel.read_int num_r "src" "Load.x" (tbl [("enabled", "Yes"); ("conn", "wye"); ("bus1", "b.2.0"); ("phases", "1"); ("kW", "3/1"); ("kVA", "5/1"); ("pf", "3/5"); ("model", "1")]) = Ok (Some l) /\ map rp_phase (rl_phases l) = [Some "B"; None].
Proof.
  destruct (C95_ground_refuted DssStoreModel.read_int num_r "src" "Load.x" (tbl [("enabled", "Yes"); ("conn", "wye"); ("bus1", "b.2.0"); ("phases", "1"); ("kW", "3/1"); ("kVA", "5/1"); ("pf", "3/5"); ("model", "1")]) "b.2.0" "b" "2" "B" (Q2R (3 # 1)) (Q2R (5 # 1)) (Q2R (3 # 5)) 1%Z) as (l & E & P & _); try reflexivity; try discriminate; try (eexists; split; reflexivity); try constructor; try (split; reflexivity).
Qed.
Example C95_reactive_met : exists l, parse_load DssStoreModel.read_int num_r "src" "Load.x" (tbl [("enabled", "Yes"); ("conn", "wye"); ("bus1", "b.2"); ("phases", "1"); ("kW", "0/1"); ("kvar", "5/1"); ("kVA", "5/1"); ("pf", "1/1"); ("model", "1")]) = Ok (Some l) /\ map rp_q (rl_phases l) = [Num 0].
Proof.
  set (d := tbl _). eexists. split; [apply (load_shape DssStoreModel.read_int num_r "src" "Load.x" d "b" [Some "B"] [Some "B"] (Q2R (0 # 1)) (Q2R (5 # 1)) (Q2R (1 # 1)) 1%Z None); try reflexivity; try discriminate; try (eexists; split; reflexivity); left; split; [discriminate|reflexivity]|].
  cbn [rl_phases map rp_q length INR]. unfold reactive. assert (Q2R (1 # 1) = 1%R) as -> by (unfold Q2R; cbn; lra). assert (Q2R (0 # 1) = 0%R) as -> by (unfold Q2R; cbn; lra).
  destruct (Rlt_dec (1 - 1 * 1) 0); [lra|]. destruct (Req_EM_T 1 0); [lra|]. do 2 f_equal. unfold Rdiv. now rewrite !Rmult_0_l.
Qed.
