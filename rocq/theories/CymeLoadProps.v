From Coq Require Import List String Ascii Bool Arith ZArith Reals Lra Lia.
From Verif Require Import Base BaseFacts TextModel CymeMapModel CymeMapSpec CymeMapProps CymeParseModel CymeParseSpec CymeParseProofs CymeNodeModel CymeLoadModel CymeLoadSpec CymeLoadProofs.
Import ListNotations.
Local Open Scope string_scope.
Local Open Scope nat_scope.
Local Open Scope list_scope.

(** Each section with adjacent customer loads, of which at least one counts, becomes one load with all of them, in the
    order of the file, and is found under its section. *)
Theorem C106_loads : forall num int_ loads classes section_phase section_feeder groups parts,
  Forall2 (group_says num int_ classes) groups parts -> NoDup (map (fun g => lower (g_id g)) groups) ->
  Forall (fun g => dget section_feeder (lower (g_id g)) <> None) groups ->
  exists ls st, make_loads num int_ loads classes section_phase section_feeder (List.concat parts) = Ok st /\
    loads_of loads section_phase section_feeder groups ls /\ st_loads st = map snd ls /\
    (forall j g l, nth_error ls j = Some (g, l) -> dget (st_index st) (lower (g_id g)) = Some j /\ dget (st_dup st) (lower (g_id g)) = Some [j]) /\
    (forall s, ~ In s (map (fun p => lower (g_id (fst p))) ls) -> dget (st_index st) s = None /\ dget (st_dup st) s = None).
Proof.
  intros num int_ loads classes sp sf groups parts F N FE. unfold make_loads.
  destruct (groups_steps num int_ loads classes sp sf (doubled_of (List.concat parts)) groups parts F N) with (st := mkState [] [] [] (mkVars None None None None))
    as (ls & st & E & LO & LS & OT & IX).
  - apply Forall_forall. intros g I. now apply (doubled_smem num int_ classes groups parts).
  - exact FE.
  - apply Forall_forall. reflexivity.
  - apply Forall_forall. reflexivity.
  - exists ls, st. split; [exact E|]. split; [exact LO|]. split; [exact LS|]. split; [exact IX|]. exact OT.
Qed.
Print Assumptions C106_loads.

(** The parts of a load file give the loads, the customer loads and the classes, in any order and with other lines between them. *)
Theorem C106_file : forall num int_ section_phase section_feeder content ps, load_file content ps -> NoDup (map (fun p => fst (fst p)) ps) ->
  exists loads customers classes,
    parse_loads num int_ section_phase section_feeder content = make_loads num int_ loads classes section_phase section_feeder customers /\
    (forall k recs, (k, recs) = (Loads, loads) \/ (k, recs) = (Customers, customers) \/ (k, recs) = (Classes, classes) ->
       (forall names body, In (k, names, body) ps -> records_of [] (map (pair (Announced (columns_of k) names)) (filter is_row body)) recs) /\
       (~ In k (map (fun p => fst (fst p)) ps) -> recs = [])).
Proof.
  intros num int_ sp sf content ps F N.
  destruct (load_file_reads content ps F N (S (length content)) ([], [], [])) as ([[l c] g] & E & P & Q); [lia|intros []; reflexivity|].
  exists l, c, g. unfold parse_loads. rewrite E. split; [reflexivity|].
  intros k recs [H|[H|H]]; injection H as -> ->; (split; [intros names body I; exact (P _ names body I)|intros I; exact (Q _ I)]).
Qed.
Print Assumptions C106_file.


Lemma lower_twice s : lower (lower s) = lower s.
Proof. induction s as [|c s IH]; cbn; [reflexivity|]. rewrite IH. f_equal. destruct c as [[] [] [] [] [] [] [] []]; reflexivity. Qed.
Lemma loads_of_says loads sp sf gs ls : loads_of loads sp sf gs ls -> forall g l, In (g, l) ls -> In g gs /\ exists u us, of_group g (u :: us) /\ load_says loads sp sf g u us l.
Proof.
  induction 1 as [|g0 gs ls O L IH|g0 u us l0 gs ls O S L IH]; intros g l I; [destruct I|destruct (IH g l I); split; [now right|assumption]|].
  destruct I as [I|I]; [injection I as <- <-; split; [now left|now exists u, us]|destruct (IH g l I); split; [now right|assumption]].
Qed.
Lemma loads_of_none loads sp sf gs ls g : loads_of loads sp sf gs ls -> In g gs -> (forall u us, ~ of_group g (u :: us)) -> NoDup (map (fun g => lower (g_id g)) gs) ->
  ~ In (lower (g_id g)) (map (fun p => lower (g_id (fst p))) ls).
Proof.
  intros L I NO N H. apply in_map_iff in H. destruct H as ([g' l] & E & H). cbn [fst] in E.
  destruct (loads_of_says _ _ _ _ _ L g' l H) as [I' (u & us & O & _)]. assert (g = g') as <-; [|now apply (NO u us)].
  revert N I I' E. clear. induction gs as [|x gs IH]; intros N I I' E; [destruct I|]. inversion N as [|? ? NI N']; subst.
  destruct I as [<-|I], I' as [<-|I']; [reflexivity|destruct NI; rewrite <- E; apply in_map_iff; now exists g'|destruct NI; rewrite E; apply in_map_iff; now exists g|now apply IH].
Qed.

(** A section whose id has capital letters has no connection: it is looked for in lower case among the ids of the file. *)
Theorem C106_connection_refuted : forall num int_ loads classes section_phase section_feeder groups parts,
  Forall2 (group_says num int_ classes) groups parts -> NoDup (map (fun g => lower (g_id g)) groups) ->
  Forall (fun g => dget section_feeder (lower (g_id g)) <> None) groups ->
  exists ls st, make_loads num int_ loads classes section_phase section_feeder (List.concat parts) = Ok st /\ st_loads st = map snd ls /\
    loads_of loads section_phase section_feeder groups ls /\
    forall g l, In (g, l) ls -> (forall k, In k (dkeys loads) -> lower k = lower (g_id g) -> k = g_id g) -> g_id g <> lower (g_id g) -> l_connection l = None.
Proof.
  intros num int_ loads classes sp sf groups parts F N FE.
  destruct (C106_loads num int_ loads classes sp sf groups parts F N FE) as (ls & st & E & LO & LS & _). exists ls, st.
  split; [exact E|]. split; [exact LS|]. split; [exact LO|]. intros g l I K C.
  destruct (loads_of_says _ _ _ _ _ LO g l I) as [_ (u & us & _ & (_ & _ & [(d & t & z & a & n & r & D & _)|[_ H]] & _))]; [|exact H].
  destruct C. symmetry. apply K; [now apply dget_Some_key in D|apply lower_twice].
Qed.
Print Assumptions C106_connection_refuted.

(** A section with several customer loads and no active power has no load, whatever its reactive power is. *)
Theorem C106_reactive_refuted : forall num int_ loads classes section_phase section_feeder groups parts g,
  Forall2 (group_says num int_ classes) groups parts -> NoDup (map (fun g => lower (g_id g)) groups) ->
  Forall (fun g => dget section_feeder (lower (g_id g)) <> None) groups ->
  In g groups -> 2 <= length (g_rows g) -> Forall (fun r => r_p r = 0%R) (g_rows g) ->
  exists ls st, make_loads num int_ loads classes section_phase section_feeder (List.concat parts) = Ok st /\
    loads_of loads section_phase section_feeder groups ls /\ st_loads st = map snd ls /\
    ~ In (lower (g_id g)) (map (fun p => lower (g_id (fst p))) ls) /\ dget (st_index st) (lower (g_id g)) = None.
Proof.
  intros num int_ loads classes sp sf groups parts g F N FE I L Z.
  destruct (C106_loads num int_ loads classes sp sf groups parts F N FE) as (ls & st & E & LO & LS & _ & OT). exists ls, st.
  assert (NI : ~ In (lower (g_id g)) (map (fun p => lower (g_id (fst p))) ls)).
  { apply (loads_of_none _ _ _ _ _ _ LO I); [|exact N]. intros u us C. unfold of_group in C. replace (Nat.eqb (length (g_rows g)) 1) with false in C by (symmetry; apply Nat.eqb_neq; lia).
    revert Z C. generalize (g_rows g). clear. intros rs Z C. remember (u :: us) as m eqn:EM. revert u us EM Z. induction C as [|r l m CT C IH|r l m CT C IH]; intros u us EM Z; [discriminate| |].
    - inversion Z; subst. destruct CT as [_ CT]. now apply CT.
    - inversion Z; subst. now apply (IH u us). }
  repeat (split; [assumption|]). apply OT, NI.
Qed.
Print Assumptions C106_reactive_refuted.

(** A generator that is given as a load of a section (both powers negative) vanishes. *)
Theorem C106_negative_refuted : forall num int_ loads classes section_phase section_feeder groups parts g,
  Forall2 (group_says num int_ classes) groups parts -> NoDup (map (fun g => lower (g_id g)) groups) ->
  Forall (fun g => dget section_feeder (lower (g_id g)) <> None) groups ->
  In g groups -> Forall (fun r => r_p r < 0 /\ r_q r < 0)%R (g_rows g) ->
  exists ls st, make_loads num int_ loads classes section_phase section_feeder (List.concat parts) = Ok st /\
    loads_of loads section_phase section_feeder groups ls /\ st_loads st = map snd ls /\
    ~ In (lower (g_id g)) (map (fun p => lower (g_id (fst p))) ls) /\ dget (st_index st) (lower (g_id g)) = None.
Proof.
  intros num int_ loads classes sp sf groups parts g F N FE I Z.
  destruct (C106_loads num int_ loads classes sp sf groups parts F N FE) as (ls & st & E & LO & LS & _ & OT). exists ls, st.
  assert (NI : ~ In (lower (g_id g)) (map (fun p => lower (g_id (fst p))) ls)).
  { apply (loads_of_none _ _ _ _ _ _ LO I); [|exact N]. intros u us C. unfold of_group in C.
    revert Z C. generalize (g_rows g), (Nat.eqb (length (g_rows g)) 1). clear. intros rs b Z C. remember (u :: us) as m eqn:EM. revert u us EM Z. induction C as [|r l m CT C IH|r l m CT C IH]; intros u us EM Z; [discriminate| |].
    - inversion Z; subst. destruct CT as [CT _]. lra.
    - inversion Z; subst. now apply (IH u us). }
  repeat (split; [assumption|]). apply OT, NI.
Qed.
Print Assumptions C106_negative_refuted.

(** The customers of a section are those of its last customer load, not all of them. *)
Theorem C106_users_refuted : forall num int_ loads classes section_phase section_feeder groups parts,
  Forall2 (group_says num int_ classes) groups parts -> NoDup (map (fun g => lower (g_id g)) groups) ->
  Forall (fun g => dget section_feeder (lower (g_id g)) <> None) groups ->
  exists ls st, make_loads num int_ loads classes section_phase section_feeder (List.concat parts) = Ok st /\
    st_loads st = map snd ls /\ loads_of loads section_phase section_feeder groups ls /\
    forall g l u us, In (g, l) ls -> of_group g (u :: us) -> us <> [] -> Forall (fun r => 0 < r_users r)%R (u :: us) ->
      (l_users l < fold_right (fun r a => r_users r + a) 0 (u :: us))%R.
Proof.
  intros num int_ loads classes sp sf groups parts F N FE.
  destruct (C106_loads num int_ loads classes sp sf groups parts F N FE) as (ls & st & E & LO & LS & _). exists ls, st.
  split; [exact E|]. split; [exact LS|]. split; [exact LO|]. intros g l u us I C NE P.
  destruct (loads_of_says _ _ _ _ _ LO g l I) as [_ (u' & us' & C' & (_ & _ & _ & _ & _ & U & _))].
  assert (X : u' :: us' = u :: us).
  { unfold of_group in C, C'. revert C C'. generalize (g_rows g), (Nat.eqb (length (g_rows g)) 1), (u :: us), (u' :: us'). clear. intros rs b m m' C C'.
    revert m' C'. induction C; intros m' C'; inversion C'; subst; try contradiction; [reflexivity|f_equal; auto|auto]. }
  injection X as -> ->. rewrite U. clear U C C' I. inversion P as [|? ? P0 P1]; subst. cbn [fold_right].
  assert (G : (r_users (last us u) <= fold_right (fun r a => r_users r + a) 0 us)%R).
  { destruct us as [|x us]; [congruence|]. clear NE. clear P P0. revert x P1. generalize u. induction us as [|y us IH]; intros v x P1; inversion P1 as [|? ? A B]; subst; cbn [fold_right last].
    - lra.
    - specialize (IH v y B). cbn [fold_right last] in IH. lra. }
  lra.
Qed.
Print Assumptions C106_users_refuted.

(** Rows of one section that are not adjacent: the later one has the shares of another section's class. *)
Theorem C106_class_refuted : forall num int_ loads classes section_phase section_feeder a b d1 d2 d3 r1 r2 r3 fa fb,
  bare a -> bare b -> lower a <> lower b -> row_says num int_ classes d1 r1 -> row_says num int_ classes d2 r2 -> row_says num int_ classes d3 r3 ->
  (0 < r_p r1)%R -> (0 < r_p r2)%R -> (0 < r_p r3)%R -> dget section_feeder (lower a) = Some fa -> dget section_feeder (lower b) = Some fb ->
  exists st la lb, make_loads num int_ loads classes section_phase section_feeder [(a, d1); (b, d2); (a ++ "*", d3)%string] = Ok st /\ st_loads st = [la; lb] /\
    map pl_shares (l_phases la) = repeat (r_shares r1) (length (r_phases r1)) ++ repeat (r_shares r2) (length (r_phases r3)).
Proof.
  intros num int_ loads classes sp sf a b d1 d2 d3 r1 r2 r3 fa fb BA BB NE R1 R2 R3 P1 P2 P3 FA FB. unfold make_loads.
  assert (D : doubled_of [(a, d1); (b, d2); ((a ++ "*")%string, d3)] = [lower a]).
  { unfold doubled_of. cbn [filter fst]. rewrite (ends_bare _ BA), (ends_bare _ BB). pose proof (ends_stars a 0) as ES. cbn [stars] in ES. rewrite ES. cbn [map fst].
    rewrite lower_app. change (lower "*") with (stars 1). now rewrite (strip_bare (lower a) 1 (bare_lower _ BA)). }
  rewrite D. clear D.
  assert (SA : smem (lower a) [lower a] = true) by (apply smem_In; now left).
  assert (SB : smem (lower b) [lower a] = false) by (apply smem_not_In; intros [H|[]]; congruence).
  assert (C : forall s r, (0 < r_p r)%R -> counts s r) by (intros s r P; split; [left; lra|intros _; lra]).
  set (s0 := mkState [] [] [] (mkVars None None None None)).
  assert (K1 : lower (strip_star a) = lower a). { pose proof (strip_bare a 0 BA) as H. cbn in H. rewrite sapp_nil in H. now rewrite H. }
  assert (K2 : lower (strip_star b) = lower b). { pose proof (strip_bare b 0 BB) as H. cbn in H. rewrite sapp_nil in H. now rewrite H. }
  assert (K3 : lower (strip_star (a ++ "*")) = lower a). { pose proof (strip_bare a 1 BA) as H. cbn in H. now rewrite H. }
  destruct (row_step num int_ loads classes sp sf [lower a] s0 a d1 r1 _ fa R1 K1 FA) as (v1 & _ & _ & W1 & _).
  specialize (W1 (C _ _ P1) (fun _ => eq_refl)). match type of W1 with _ = Ok ?s => set (s1 := s) in * end.
  destruct (row_step num int_ loads classes sp sf [lower a] s1 b d2 r2 _ fb R2 K2 FB) as (v2 & _ & _ & W2 & _).
  rewrite SB in W2. specialize (W2 (C _ _ P2) ltac:(discriminate)). match type of W2 with _ = Ok ?s => set (s2 := s) in * end.
  destruct (row_step num int_ loads classes sp sf [lower a] s2 (a ++ "*")%string d3 r3 _ fa R3 K3 FA) as (v3 & _ & _ & _ & W3).
  specialize (W3 0 (new_load loads sp (lower a) fa d1 r1) (C _ _ P3) SA). cbn [foldM]. rewrite W1. cbn [bind]. rewrite W2. cbn [bind]. rewrite W3; [|unfold s2; cbn [st_index]; rewrite dget_dset_other by congruence; unfold s1; cbn [st_index]; apply dget_dset_same|reflexivity].
  eexists _, _, _. split; [reflexivity|]. split; [reflexivity|]. cbn [fused new_load l_phases]. rewrite map_app. unfold rphases. rewrite !map_map. cbn [pl_shares].
  assert (M : forall {A} (x : list R) (l : list A), map (fun _ => x) l = repeat x (length l)) by (intros A x l; induction l; cbn; congruence).
  rewrite !M. cbn [s2 st_vars v_class]. rewrite (class_shares num classes d2 (r_shares r2)); [reflexivity|]. now destruct R2 as (_ & _ & _ & _ & ?).
Qed.
Print Assumptions C106_class_refuted.

(** Without the column of the number of customers every load stops the reading. *)
Theorem C106_customers_refuted : forall num int_ loads classes section_phase section_feeder before after st x t z v1 v2 p q kva,
  foldM (one_load num int_ loads classes section_phase section_feeder (doubled_of (before ++ x :: after))) before (mkState [] [] [] (mkVars None None None None)) = Ok st ->
  match kva with Some k => number num (snd x) "connectedkva" k | None => dget (snd x) "connectedkva" = None end ->
  dget (snd x) "valuetype" = Some t -> int_ t = Some z -> number num (snd x) "value1" v1 -> number num (snd x) "value2" v2 -> power kva z v1 v2 p q ->
  (0 < p)%R -> dget (snd x) "numberofcustomer" = None ->
  make_loads num int_ loads classes section_phase section_feeder (before ++ x :: after) = Err EKey.
Proof.
  intros num int_ loads classes sp sf before after st [key d] t z v1 v2 p q kva E HK ET EZ (t1 & E1 & N1) (t2 & E2 & N2) P PP NC. cbn [snd] in *.
  unfold make_loads. rewrite foldM_app, E. cbn [bind foldM]. unfold one_load at 1. cbn [fst snd].
  assert (KV : (match dget d "connectedkva" with Some t => do k <- of_opt EValue (num t); Ok (Some k) | None => Ok None end) = Ok kva).
  { destruct kva as [k|]; [destruct HK as (u & -> & ->); reflexivity|now rewrite HK]. }
  rewrite KV. cbn [bind]. rewrite ET, EZ. cbn [of_opt bind]. rewrite E1, E2.
  rewrite (power_ok num int_ (mkVars (Some z) (v_p (st_vars st)) (v_q (st_vars st)) (v_class (st_vars st))) kva z v1 v2 p q t1 t2 eq_refl N1 N2 P). cbn [bind with_pq v_p of_opt].
  destruct (Rle_dec 0 p); [|lra]. cbn [bind]. destruct (Req_EM_T p 0); [lra|]. rewrite andb_false_r. rewrite NC.
  destruct (dget sf (lower (strip_star key))); reflexivity.
Qed.
Print Assumptions C106_customers_refuted.

(** A power factor outside of 0 to 100 gives the load the reactive power of the load before it. *)
Theorem C106_factor_refuted : forall num int_ loads classes section_phase section_feeder a b d1 d2 r1 fa fb t v1 v2 s u,
  bare a -> bare b -> lower a <> lower b -> row_says num int_ classes d1 r1 -> (0 < r_p r1)%R -> dget section_feeder (lower a) = Some fa -> dget section_feeder (lower b) = Some fb ->
  dget d2 "connectedkva" = None -> dget d2 "valuetype" = Some t -> int_ t = Some 2%Z -> number num d2 "value1" v1 -> (0 < v1)%R -> number num d2 "value2" v2 -> (v2 < 0 \/ 100 < v2)%R ->
  dget d2 "loadphase" = Some s -> number num d2 "numberofcustomer" u ->
  exists st la lb, make_loads num int_ loads classes section_phase section_feeder [(a, d1); (b, d2)] = Ok st /\ st_loads st = [la; lb] /\
    map pl_power (l_phases lb) = repeat (Some (1000 * v1 / INR (String.length s), 1000 * r_q r1 / INR (String.length s))%R) (String.length s).
Proof.
  intros num int_ loads classes sp sf a b d1 d2 r1 fa fb t v1 v2 s u BA BB NE R1 P1 FA FB KN ET EZ (t1 & E1 & N1) VP (t2 & E2 & N2) VB ES (tu & EU & NU). unfold make_loads.
  assert (D : doubled_of [(a, d1); (b, d2)] = []) by (unfold doubled_of; cbn [filter fst]; now rewrite (ends_bare _ BA), (ends_bare _ BB)).
  rewrite D. clear D. set (s0 := mkState [] [] [] (mkVars None None None None)).
  assert (K1 : lower (strip_star a) = lower a). { pose proof (strip_bare a 0 BA) as H. cbn in H. rewrite sapp_nil in H. now rewrite H. }
  assert (K2 : lower (strip_star b) = lower b). { pose proof (strip_bare b 0 BB) as H. cbn in H. rewrite sapp_nil in H. now rewrite H. }
  assert (C : counts true r1) by (split; [left; lra|discriminate]).
  destruct (row_step num int_ loads classes sp sf [] s0 a d1 r1 _ fa R1 K1 FA) as (v & [_ VQ] & _ & W1 & _).
  specialize (W1 C (fun _ => eq_refl)). cbn [foldM]. rewrite W1. cbn [bind foldM]. unfold one_load at 1. cbn [fst snd]. rewrite K2, KN. cbn [bind]. rewrite ET, EZ. cbn [of_opt bind]. rewrite E1, E2.
  unfold power_of. rewrite N1. cbn [of_opt bind]. destruct (Req_EM_T v1 0); [lra|]. cbn [bind v_type of_opt]. cbn [Z.eqb Pos.eqb]. rewrite N2.
  assert (X : forall (x y : outcome), (if Rle_dec 0 v2 then if Rle_dec v2 1 then x else if Rle_dec v2 100 then x else y else y) = y).
  { intros x y. destruct (Rle_dec 0 v2); [|reflexivity]. destruct (Rle_dec v2 1); [lra|]. destruct (Rle_dec v2 100); [lra|reflexivity]. }
  destruct (Rle_dec 0 v2) as [L|L]; [destruct (Rle_dec v2 1); [lra|]; destruct (Rle_dec v2 100); [lra|]|].
  all: cbn [bind with_p v_p v_q v_class of_opt]; destruct (Rle_dec 0 v1); [|lra]; cbn [bind]; cbn [smem existsb andb]; rewrite FB; cbn [of_opt bind]; rewrite EU; cbn [of_opt bind]; rewrite NU; cbn [of_opt bind];
    cbn [st_vars v_q]; rewrite VQ, ES; eexists _, _, _; (split; [reflexivity|]); (split; [reflexivity|]); cbn [l_phases]; unfold phase_loads; rewrite map_map; cbn [pl_power].
  all: assert (LS : length (letters s) = String.length s) by (unfold letters; rewrite map_length; clear; induction s; cbn; congruence); rewrite LS;
    assert (M : forall {A} (x : option (R * R)) (l : list A), map (fun _ => x) l = repeat x (length l)) by (intros A x l; induction l; cbn; congruence);
    rewrite M, LS; reflexivity.
Qed.
Print Assumptions C106_factor_refuted.

(** ** The hypotheses can be met *)
Definition n0 (s : string) : option R :=
  dget [("0", 0%R); ("1", 1%R); ("2", 2%R); ("5", 5%R); ("10", 10%R); ("25", 25%R); ("40", 40%R); ("60", 60%R); ("100", 100%R); ("-5", (-5)%R); ("200", 200%R)] s.
Definition i0 (s : string) : option Z := dget [("0", 0%Z); ("1", 1%Z); ("2", 2%Z)] s.
Definition class0 : list (string * record) :=
  [("R", [("constantcurrentip", "100"); ("constantcurrentiq", "100"); ("constantpowerpp", "0"); ("constantpowerpq", "0"); ("constantimpedancezp", "0"); ("constantimpedancezq", "0")]);
   ("C", [("constantcurrentip", "40"); ("constantcurrentiq", "40"); ("constantpowerpp", "60"); ("constantpowerpq", "60"); ("constantimpedancezp", "0"); ("constantimpedancezq", "0")])].
Definition rec0 (class ty phase v1 v2 users : string) : record :=
  [("sectionid", "S"); ("loadtype", class); ("valuetype", ty); ("loadphase", phase); ("value1", v1); ("value2", v2); ("connectedkva", "25"); ("numberofcustomer", users)].
Definition sh_r : list R := [1; 1; 0; 0; 0; 0]%R.
Definition sh_c : list R := [40 / 100; 40 / 100; 60 / 100; 60 / 100; 0; 0]%R.
Lemma says_r : class_says n0 class0 (rec0 "R" "0" "AB" "10" "5" "1") sh_r.
Proof. left. eexists _, _. split; [reflexivity|]. split; [reflexivity|]. repeat (constructor; [eexists; split; [reflexivity|]; cbn; f_equal; lra|]). constructor. Qed.
Lemma says_c ty ph v1 v2 u : class_says n0 class0 (rec0 "C" ty ph v1 v2 u) sh_c.
Proof. left. eexists _, _. split; [reflexivity|]. split; [reflexivity|]. repeat (constructor; [eexists; split; [reflexivity|]; cbn; f_equal; lra|]). constructor. Qed.
Definition row_a := mkRow (Some 25%R) 10 5 ["A"; "B"] 1 sh_r.
Definition row_b := mkRow (Some 25%R) 5 0 ["C"] 2 sh_c.
Definition row_q := mkRow (Some 25%R) 0 5 ["C"] 2 sh_c.
Lemma row_a_says : row_says n0 i0 class0 (rec0 "R" "0" "AB" "10" "5" "1") row_a.
Proof.
  split; [exists "25"; now split|]. split; [exists "0", 0%Z, 10%R, 5%R; repeat (split; [first [reflexivity|eexists; split; reflexivity]|]); apply power_pq|].
  split; [exists "AB"; repeat split; discriminate|]. split; [exists "1"; now split|apply says_r].
Qed.
Lemma row_b_says : row_says n0 i0 class0 (rec0 "C" "2" "C" "5" "100" "2") row_b.
Proof.
  split; [exists "25"; now split|]. split.
  { exists "2", 2%Z, 5%R, 100%R. repeat (split; [first [reflexivity|eexists; split; reflexivity]|]). apply (power_pf _ 5 100 1 0); [right; split; lra|cbn; lra|cbn; lra]. }
  split; [exists "C"; repeat split; discriminate|]. split; [exists "2"; now split|apply says_c].
Qed.
Lemma row_q_says : row_says n0 i0 class0 (rec0 "C" "0" "C" "0" "5" "2") row_q.
Proof.
  split; [exists "25"; now split|]. split; [exists "0", 0%Z, 0%R, 5%R; repeat (split; [first [reflexivity|eexists; split; reflexivity]|]); apply power_pq|].
  split; [exists "C"; repeat split; discriminate|]. split; [exists "2"; now split|apply says_c].
Qed.
Lemma bare0 id : (forall c, In c (list_ascii_of_string id) -> c <> "*"%char) -> bare id.
Proof.
  intros H. split; intros t ->; [apply (H "*"%char); [now left|reflexivity]|]. apply (H "*"%char); [|reflexivity]. clear. induction t; cbn; [now left|now right].
Qed.
Definition groups0 := [mkGroup "S1" [row_a; row_b]; mkGroup "S2" [row_b]; mkGroup "S3" [row_q; row_q]].
Definition parts0 := [[("S1", rec0 "R" "0" "AB" "10" "5" "1"); ("S1*", rec0 "C" "2" "C" "5" "100" "2")]; [("S2", rec0 "C" "2" "C" "5" "100" "2")];
  [("S3", rec0 "C" "0" "C" "0" "5" "2"); ("S3*", rec0 "C" "0" "C" "0" "5" "2")]].
Definition feeders0 := [("s1", "f1"); ("s2", "f1"); ("s3", "f1")].
(** Three sections: two rows on different phases; one row; two rows of reactive power only. *)
Example C106_hypotheses_met : Forall2 (group_says n0 i0 class0) groups0 parts0 /\ NoDup (map (fun g => lower (g_id g)) groups0) /\
  Forall (fun g => dget feeders0 (lower (g_id g)) <> None) groups0 /\
  of_group (mkGroup "S1" [row_a; row_b]) [row_a; row_b] /\ of_group (mkGroup "S2" [row_b]) [row_b] /\ of_group (mkGroup "S3" [row_q; row_q]) [] /\
  (exists g, In g groups0 /\ 2 <= length (g_rows g) /\ Forall (fun r => r_p r = 0 /\ r_q r = 5)%R (g_rows g)).
Proof.
  assert (B : forall id, In id ["S1"; "S2"; "S3"] -> bare id).
  { intros id I. apply bare0. intros c. cbn in I. destruct I as [<-|[<-|[<-|[]]]]; cbn; intros [<-|[<-|[]]]; discriminate. }
  assert (F : Forall2 (group_says n0 i0 class0) groups0 parts0).
  { repeat (constructor; [split; [apply B; cbn; tauto|split; [discriminate|cbn [g_id g_rows group_rows fst snd]; repeat (split; [reflexivity|split; [first [apply row_a_says|apply row_b_says|apply row_q_says]|]]); exact I]]|]). constructor. }
  assert (N : NoDup (map (fun g => lower (g_id g)) groups0)) by (repeat constructor; cbn; intuition discriminate).
  assert (FE : Forall (fun g => dget feeders0 (lower (g_id g)) <> None) groups0) by (repeat constructor; discriminate).
  split; [exact F|]. split; [exact N|]. split; [exact FE|]. split; [|split; [|split]].
  - apply counted_in; [split; cbn; [lra|intros _; lra]|]. apply counted_in; [split; cbn; [lra|intros _; lra]|constructor].
  - apply counted_in; [split; cbn; [lra|discriminate]|constructor].
  - apply counted_out; [intros [_ H]; now apply H|]. apply counted_out; [intros [_ H]; now apply H|constructor].
  - exists (mkGroup "S3" [row_q; row_q]). split; [cbn; tauto|]. split; [cbn; lia|]. repeat constructor.
Qed.
(** The other hypotheses: a power factor that is out of range, a load without customers, a generator. *)
Example C106_refuted_met :
  (exists t1 t2, dget (rec0 "C" "2" "C" "5" "200" "2") "value1" = Some t1 /\ n0 t1 = Some 5%R /\ dget (rec0 "C" "2" "C" "5" "200" "2") "value2" = Some t2 /\ n0 t2 = Some 200%R) /\
  dget [("sectionid", "S1"); ("valuetype", "0"); ("loadphase", "A"); ("value1", "10"); ("value2", "5")] "numberofcustomer" = None /\
  power None 0 10 5 10 5 /\ (forall k, In k (dkeys [("S1", [("connection", "Y")])]) -> lower k = lower "S1" -> k = "S1") /\ "S1" <> lower "S1" /\
  group_says n0 i0 class0 (mkGroup "S4" [mkRow (Some 25%R) (-5) (-5) ["A"] 1 sh_c]) [("S4", rec0 "C" "0" "A" "-5" "-5" "1")].
Proof.
  split; [exists "5", "200"; repeat split|]. split; [reflexivity|]. split; [constructor|]. split; [intros k [<-|[]]; reflexivity|]. split; [discriminate|].
  split; [apply bare0; cbn; intros c [<-|[<-|[]]]; discriminate|]. split; [discriminate|]. cbn [g_rows g_id group_rows fst snd]. split; [reflexivity|]. split; [|exact I].
  split; [exists "25"; now split|]. split; [exists "0", 0%Z, (-5)%R, (-5)%R; repeat (split; [first [reflexivity|eexists; split; reflexivity]|]); apply power_pq|].
  split; [exists "A"; repeat split; discriminate|]. split; [exists "1"; now split|apply says_c].
Qed.
(** A load file with its three parts in another order. *)
Definition nl (s : string) : string := (s ++ newline)%string.
Definition file0 := nl "[SI]" :: (nl "[CUSTOMER CLASS]" :: nl "FORMAT_CUSTOMERCLASS=ID,ConstantCurrentIP" :: [nl "R,100"] ++ nl "" ::
  (nl "[LOADS]" :: nl "FORMAT_LOADS=SectionID,Connection" :: [nl "S1,Y,"] ++ nl "" ::
  (nl "[CUSTOMER LOADS]" :: nl "FORMAT_CUSTOMERLOADS=SectionID,LoadPhase,ValueType,Value1,Value2,NumberOfCustomer" :: [nl "S1,A,0,10,5,1"; nl "S1,B,0,5,0,1"] ++ nl "" :: []))).
Ltac fmt k := exists k, newline; repeat split; cbn; try discriminate; auto; repeat constructor; cbn; repeat split; discriminate.
Example C106_file_met : load_file file0 [(Classes, ["ID"; "ConstantCurrentIP"], [nl "R,100"]); (Loads, ["SectionID"; "Connection"], [nl "S1,Y,"]);
  (Customers, ["SectionID"; "LoadPhase"; "ValueType"; "Value1"; "Value2"; "NumberOfCustomer"], [nl "S1,A,0,10,5,1"; nl "S1,B,0,5,0,1"])] /\
  match read_load_file (S (length file0)) ([], [], []) file0 with
  | Ok (l, c, g) => dkeys l = ["S1"] /\ dkeys c = ["S1"; "S1*"] /\ dkeys g = ["R"]
  | Err _ => False
  end.
Proof.
  split; [|vm_compute; repeat split].
  apply file_line; [intros []; reflexivity|].
  apply (file_part Classes); [intros []; split; (reflexivity || discriminate)|reflexivity|fmt "FORMAT_CUSTOMERCLASS"|repeat constructor; cbn; lia|cbn; lia|].
  apply (file_part Loads); [intros []; split; (reflexivity || discriminate)|reflexivity|fmt "FORMAT_LOADS"|repeat constructor; cbn; lia|cbn; lia|].
  apply (file_part Customers); [intros []; split; (reflexivity || discriminate)|reflexivity|fmt "FORMAT_CUSTOMERLOADS"|repeat constructor; cbn; lia|cbn; lia|constructor].
Qed.
