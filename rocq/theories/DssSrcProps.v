(** Theorems about the power sources of the OpenDSS writer and reader (C97). *)
From Verif Require Import Base BaseFacts CsvModel TextModel DssNameModel DssTextModel DssNameSpec DssTextSpec DssLoadSpec DssTextProofs DssNodeProofs DssRdLoadModel DssRdLoadSpec DssRdLoadProofs DssRdLoadProps DssRdCapSpec DssRdCapProps DssSrcModel DssSrcSpec DssSrcProofs.
From Coq Require Import Reals QArith Qreals Lra Lia.
Local Open Scope string_scope.
Local Open Scope nat_scope.
Local Open Scope list_scope.

(** The master file of a model with one power source defines a circuit with
    the bus, the voltage and the impedances of the source. *)
Theorem C97_circuit : forall show num s b, faithful show num -> so_name s <> None -> so_pu s <> None -> at_source s b -> b <> "" ->
  exists t e, circuit_text show [s] = Ok t /\ read_dss t = Some [e] /\ circuit_is num s b e.
Proof.
  intros show num s b FS N P A B. destruct (source_row show s b N P A) as (t & T & R). eexists _, (source_element show s b). unfold circuit_text. cbn [mapM]. rewrite T. cbn [bind]. split; [reflexivity|].
  split; [|exact (source_element_is show num FS s b)]. cbn [texts fold_right]. rewrite app_nil_s, <- app_assoc_s, R. change (String "010" (String "010" "")) with (nl ++ nl ++ "")%string. apply row_read2; [apply (source_element_ok show num FS); exact B|constructor|reflexivity].
Qed.
Print Assumptions C97_circuit.

(** Each enabled source gives a power source with its bus, its voltages,
    powers and impedances, and a feeder with that bus as its head; the rest of
    the circuit belongs to the feeder of the last source. *)
Theorem C97_sources : forall num delim coordinates l, rows_ok num delim coordinates -> Forall good_source_report l ->
  exists srcs metas, parse_sources num delim coordinates l = Ok (last_name metas, srcs, metas) /\ length srcs = length metas /\
    Forall2 (source_read_of num) (filter (fun x => enabled (snd x)) l) (combine srcs metas).
Proof.
  intros num delim coordinates l Rk G. destruct (pos_ok num delim coordinates Rk) as (p & P). unfold parse_sources.
  induction l as [|x l IH] using rev_ind; [exists [], []; repeat split; constructor|]. apply Forall_app in G. destruct G as (G & Gx). inversion Gx as [|? ? (En & Gb) _]; subst. destruct (IH G) as (srcs & metas & E & L & F).
  rewrite foldM_app, E. cbn [bind foldM]. rewrite filter_app. cbn [filter]. destruct (enabled (snd x)) eqn:Ex.
  - destruct (Gb eq_refl) as (b & A). destruct (source_ok num delim coordinates _ (last_name metas, srcs, metas) x b P Ex A) as (r & m & Ep & Rr & Mr & _). rewrite Ep. cbn [bind fst snd]. exists (srcs ++ [r]), (metas ++ [m]).
    split. { unfold last_name. rewrite map_app. cbn [map]. rewrite last_last. now rewrite (proj1 Mr). }
    split; [rewrite !app_length; cbn; lia|]. assert (combine (srcs ++ [r]) (metas ++ [m]) = combine srcs metas ++ [(r, m)]) as ->.
    { clear - L. revert metas L. induction srcs as [|a srcs IH]; intros [|c metas] L; try discriminate L; [reflexivity|]. cbn. f_equal. apply IH. now injection L. }
    apply Forall2_app; [exact F|]. constructor; [|constructor]. exists b. auto.
  - rewrite app_nil_r. unfold parse_source. unfold enabled in Ex. destruct (snd x "enabled") as [[s|s]|]; [|cbn [of_opt bind]; eauto|congruence]. cbn [of_opt bind]. rewrite Ex. eauto.
Qed.
Print Assumptions C97_sources.

(** The source of a circuit that was written comes back with its bus, its
    voltage, its per unit value and its impedances. *)
Theorem C97_read_back : forall num delim coordinates s b e d, rows_ok (real_of num) delim coordinates -> circuit_is num s b e -> engine_source (real_of num) e d ->
  exists r m y, parse_sources (real_of num) delim coordinates [("Vsource.source", d)] = Ok ((y ++ "_src")%string, [r], [m]) /\ kept b y /\ rs_conn r = Some y /\ rm_head m = y /\
    equal_to (so_kv s) (rs_kv r) /\ equal_to (so_pu s) (rs_pu r) /\
    (forall z, so_z1 s = Some z -> rs_z1 r = Some (Q2R (fst z), Q2R (snd z))) /\ (forall z, so_z0 s = Some z -> rs_z0 r = Some (Q2R (fst z), Q2R (snd z))).
Proof.
  intros num delim coordinates s b e d Rk (_ & _ & (t & y & Pb & Tt & K) & Gp & Gk & G1 & G2 & G3 & G4 & _) [En Eb Ek Ep Ez1 Ez0]. destruct (pos_ok _ delim coordinates Rk) as (p & P).
  assert (On : enabled d = true) by (unfold enabled; now rewrite En). assert (A : source_at d y) by (exists t, []; split; [exact (Eb _ Pb)|exact Tt]).
  destruct (source_ok (real_of num) delim coordinates _ ("Sourcebus", [], []) ("Vsource.source", d) y P On A) as (r & m & Es & Rr & Mr & _). exists r, m, y.
  split; [unfold parse_sources; cbn [foldM]; rewrite Es; reflexivity|]. split; [exact K|]. destruct Rr as [_ R2 (kv & R3 & R3') (pu & R4 & R4') _ _ _ (Z1 & _ & _) (Z0 & _ & _)]. cbn [snd] in *. split; [exact R2|]. split; [apply Mr|].
  assert (V : forall k z, gives num e k (Some z) -> exists t q, prop e k = Some t /\ real_of num t = Some q /\ q = Q2R z).
  { intros k z (q & Vq & Eq). unfold value in Vq. destruct (prop e k) as [u|]; [|discriminate]. exists u, (Q2R q). split; [reflexivity|]. unfold real_of. rewrite Vq. split; [reflexivity|]. now apply Qeq_eqR. }
  split. { intros q Q. rewrite Q in Gk. cbn [option_map] in Gk. pose proof (same_number _ _ _ _ _ R3 (number_gives num e "basekv" _ d "basekv" Gk Ek)) as X. unfold times in R3'. rewrite R3', X. cbn [option_map]. f_equal. rewrite Q2R_div by (intros H; discriminate H). assert (Q2R 1000 = 1000%R) as -> by (unfold Q2R; cbn; lra). field. }
  split. { intros q Q. rewrite Q in Gp. pose proof (same_number _ _ _ _ _ R4 (number_gives num e "pu" _ d "pu" Gp Ep)) as X. now rewrite R4', X. }
  split.
  - intros z Q. rewrite Q in G1, G2. destruct (V _ _ G1) as (s1 & q1 & P1 & N1 & <-). destruct (V _ _ G2) as (s2 & q2 & P2 & N2 & <-). destruct (Ez1 _ _ _ _ P1 P2 N1 N2) as (a & c & D & Na & Nc). exact (Z1 _ _ _ _ D Na Nc).
  - intros z Q. rewrite Q in G3, G4. destruct (V _ _ G3) as (s1 & q1 & P1 & N1 & <-). destruct (V _ _ G4) as (s2 & q2 & P2 & N2 & <-). destruct (Ez0 _ _ _ _ P1 P2 N1 N2) as (a & c & D & Na & Nc). exact (Z0 _ _ _ _ D Na Nc).
Qed.
Print Assumptions C97_read_back.

(** Every source gets the position of the last row of the file of
    coordinates, whatever bus it stands for. *)
Theorem C97_position_refuted : forall num delim rows r b' x' y' l sn srcs metas, rows_ok num delim (Some (rows ++ [r])) -> row_at num delim r b' x' y' -> Forall good_source_report l ->
  parse_sources num delim (Some (rows ++ [r])) l = Ok (sn, srcs, metas) -> forall s, In s srcs -> rs_pos s = [(Some x', Some y')].
Proof.
  intros num delim rows r b' x' y' l sn srcs metas Rk Rw G E. assert (P : source_pos num delim (Some (rows ++ [r])) = Ok [(Some x', Some y')]). { unfold source_pos. rewrite fold_left_app. cbn [fold_left]. rewrite (row_step num delim _ _ _ _ _ Rw). reflexivity. }
  revert sn srcs metas E. induction l as [|x l IH] using rev_ind; intros sn srcs metas E s Hs; [injection E as <- <- <-; destruct Hs|]. apply Forall_app in G. destruct G as (G & Gx). inversion Gx as [|? ? (En & Gb) _]; subst.
  unfold parse_sources in *. rewrite foldM_app in E. destruct (foldM _ l _) as [[[sn' srcs'] metas']|] eqn:El; [|discriminate]. cbn [bind foldM] in E. destruct (enabled (snd x)) eqn:Ex.
  - destruct (Gb eq_refl) as (b & A). destruct (source_ok num delim _ _ (sn', srcs', metas') x b P Ex A) as (r0 & m & Ep & _ & _ & Pr & _). rewrite Ep in E. cbn [bind fst snd] in E. injection E as <- <- <-. apply in_app_or in Hs. destruct Hs as [Hs|[<-|[]]]; [exact (IH G _ _ _ eq_refl s Hs)|exact Pr].
  - assert (X : parse_source num delim (Some (rows ++ [r])) (sn', srcs', metas') x = Ok (sn', srcs', metas')). { unfold parse_source. unfold enabled in Ex. destruct (snd x "enabled") as [[u|u]|]; [|reflexivity|congruence]. cbn [of_opt bind]. now rewrite Ex. }
    rewrite X in E. injection E as <- <- <-. exact (IH G _ _ _ eq_refl s Hs).
Qed.
Print Assumptions C97_position_refuted.
(** A last row whose coordinates are no numbers stops the reading of the
    whole circuit. *)
Theorem C97_row_refuted : forall num delim rows r n xs ys l x, ~ empty_row r -> pieces (Ascii.eqb delim) r = [n; xs; ys] -> num (strip xs) = None -> Forall good_source_report (x :: l) -> enabled (snd x) = true ->
  exists e, parse_sources num delim (Some (rows ++ [r])) (x :: l) = Err e.
Proof.
  intros num delim rows r n xs ys l x Ne P N G E. exists EValue. unfold parse_sources. cbn [foldM]. unfold parse_source at 1. unfold enabled in E. destruct (snd x "enabled") as [[s|s]|]; try discriminate E. cbn [of_opt bind]. rewrite E.
  assert (source_pos num delim (Some (rows ++ [r])) = Err EValue) as ->; [|reflexivity]. unfold source_pos. rewrite fold_left_app. cbn [fold_left].
  assert (X : forall st, xy_step num delim st r = (SText (strip xs), SText (strip ys))). { intros st. unfold xy_step. destruct (String.eqb_spec (strip r) ""); [contradiction|]. rewrite split_pieces, P. cbn [map]. now rewrite N. }
  now rewrite X.
Qed.
Print Assumptions C97_row_refuted.
(** All sources have the phases A, B and C, whatever OpenDSS says. *)
Theorem C97_phases_refuted : forall num delim coordinates st x st', parse_source num delim coordinates st x = Ok st' -> enabled (snd x) = true -> exists r, snd (fst st') = snd (fst st) ++ [r] /\ rs_phases r = ["A"; "B"; "C"].
Proof.
  intros num delim coordinates [[sn srcs] metas] x st' E On. unfold parse_source in E. unfold enabled in On. destruct (snd x "enabled") as [[s|s]|]; try discriminate On. cbn [of_opt bind] in E. rewrite On in E. destruct (source_pos num delim coordinates); [|discriminate]. cbn [bind] in E.
  destruct (source_bus (snd x)); injection E as <-; eexists; split; reflexivity.
Qed.
Print Assumptions C97_phases_refuted.
(** A list of impedances that has not two items hides the resistance and the
    reactance. *)
Theorem C97_impedance_refuted : forall num delim coordinates st x st' l, parse_source num delim coordinates st x = Ok st' -> enabled (snd x) = true -> snd x "Z1" = Some (PList l) -> length l <> 2 ->
  exists r, snd (fst st') = snd (fst st) ++ [r] /\ rs_z1 r = None.
Proof.
  intros num delim coordinates [[sn srcs] metas] x st' l E On Z L. assert (Zn : z_of num (snd x) "Z1" "R1" "X1" = None) by (unfold z_of; rewrite Z; destruct l as [|? [|? [|? ?]]]; try reflexivity; now contradiction L).
  unfold parse_source in E. unfold enabled in On. destruct (snd x "enabled") as [[s|s]|]; try discriminate On. cbn [of_opt bind] in E. rewrite On in E. destruct (source_pos num delim coordinates); [|discriminate]. cbn [bind] in E.
  destruct (source_bus (snd x)); injection E as <-; eexists; split; try reflexivity; exact Zn.
Qed.
Print Assumptions C97_impedance_refuted.

Definition ex_src : source := mkSource (Some "main_src") (Some "bus 1") (Some 1%Q) (Some 12000%Q) (Some (1, 2)%Q) None.
Definition ex_src2 : source := mkSource (Some "other") (Some "bus 2") (Some 1%Q) (Some 4000%Q) None None.
(** The second source of a model is no source of the master file: its bus is
    taken for a part of the voltage of the first. *)
Theorem C97_second_refuted : exists t e, circuit_text DssTextProps.show_q [mkSource (Some "a") (Some "b1") (Some 1%Q) (Some 12000%Q) None None; ex_src2] = Ok t /\ read_dss t = Some [e] /\
  prop e "bus1" = Some "b1" /\ value DssTextProps.num_q e "basekv" = Some (4000 # 1000)%Q /\ exists rest, In ("basekV", "12000/1000bus1=bus_2") (firstn 3 (e_props e) ++ rest).
Proof. eexists _, _. split; [vm_compute; reflexivity|]. split; [vm_compute; reflexivity|]. split; [reflexivity|]. split; [reflexivity|]. exists []. vm_compute. auto. Qed.
Print Assumptions C97_second_refuted.
(** Without a connecting element, the bus is the name without its last four
    characters wherever it contains "_src". *)
Theorem C97_name_refuted : forall show a b p, exists t, source_text show (mkSource (Some (a ++ "_src" ++ b)%string) None (Some p) None None None) = Ok ("bus1=" ++ re_sub (substring 0 (String.length (a ++ b)) (a ++ "_src" ++ b)) ++ t)%string.
Proof.
  intros show a b p. unfold source_text. cbn [so_name of_opt bind so_conn so_pu so_kv so_z1 so_z0 opt_text]. unfold cleaned.
  assert (C : cut_at "_src" (a ++ "_src" ++ b) <> None).
  { induction a as [|c a IH]; [cbn; assert (String.prefix "" b = true) as -> by (now destruct b); discriminate|]. cbn [append cut_at]. destruct (String.prefix _ _); [discriminate|]. cbn [append] in IH. destruct (cut_at _ (a ++ _)) as [[x y]|]; [discriminate|contradiction]. }
  destruct (cut_at "_src" (a ++ "_src" ++ b)); [|contradiction]. assert (String.length (a ++ "_src" ++ b) - 4 = String.length (a ++ b)) as -> by (rewrite !length_app_s; cbn; lia). eexists. reflexivity.
Qed.
Print Assumptions C97_name_refuted.

(** ** Cases that meet the hypotheses *)
Definition ex_source_data : data := fun k => if String.eqb k "Z1" then Some (PList ["1/1"; "2/1"]) else tbl [("enabled", "Yes"); ("bus1", "bus_1.1.2.3"); ("basekv", "12/1"); ("pu", "1/1"); ("R0", "3/1"); ("X0", "4/1"); ("angle", "30/1"); ("baseMVA", "100/1")] k.
Example C97_hypotheses_met : exists t e, circuit_text DssTextProps.show_q [ex_src] = Ok t /\ read_dss t = Some [e] /\ circuit_is DssTextProps.num_q ex_src "bus 1" e /\ t = ("New Circuit.Full_Network bus1=bus_1 pu=1/1 basekV=12000/1000 R1=1/1 X1=2/1" ++ nl ++ nl)%string /\
  at_source (mkSource (Some "main_src") None (Some 1%Q) None None None) "main" /\ circuit_text DssTextProps.show_q [] = Ok ("New Circuit.Full_Network " ++ nl ++ nl)%string.
Proof.
  destruct (C97_circuit DssTextProps.show_q DssTextProps.num_q ex_src "bus 1" DssTextProps.faithful_q ltac:(discriminate) ltac:(discriminate) eq_refl ltac:(discriminate)) as (t & e & T & R & C). exists t, e. split; [exact T|]. split; [exact R|]. split; [exact C|]. split. { assert (T2 : circuit_text DssTextProps.show_q [ex_src] = Ok ("New Circuit.Full_Network bus1=bus_1 pu=1/1 basekV=12000/1000 R1=1/1 X1=2/1" ++ nl ++ nl)%string) by reflexivity. rewrite T in T2. now injection T2. }
  split; [exists "main_src"; split; [reflexivity|]; split; [now left|]; cbn; intuition congruence|reflexivity].
Qed.
Definition ex_rows : list string := ["Bus_1, 1/1, 2/1"; " "; "b7, 5/1, 6/1"].
Example C97_reading_met : rows_ok num_r "," (Some ex_rows) /\ Forall good_source_report [("Vsource.source", ex_source_data); ("Vsource.off", tbl [("enabled", "No")])] /\
  exists r m, parse_sources num_r "," (Some ex_rows) [("Vsource.source", ex_source_data); ("Vsource.off", tbl [("enabled", "No")])] = Ok ("bus_1_src", [r], [m]) /\ rs_conn r = Some "bus_1" /\ rs_z1 r = Some (Q2R (1 # 1), Q2R (2 # 1)) /\ rs_z0 r = Some (Q2R (3 # 1), Q2R (4 # 1)) /\
    rs_pos r = [(Some (Q2R (5 # 1)), Some (Q2R (6 # 1)))] /\ row_at num_r "," "Bus_1, 1/1, 2/1" "bus_1" (Q2R (1 # 1)) (Q2R (2 # 1)).
Proof.
  assert (R1 : row_at num_r "," "Bus_1, 1/1, 2/1" "bus_1" (Q2R (1 # 1)) (Q2R (2 # 1))) by (split; [discriminate|]; exists "Bus_1", " 1/1", " 2/1"; repeat split).
  assert (R2 : row_at num_r "," "b7, 5/1, 6/1" "b7" (Q2R (5 # 1)) (Q2R (6 # 1))) by (split; [discriminate|]; exists "b7", " 5/1", " 6/1"; repeat split).
  split. { intros rows r E H. injection E as <-. destruct H as [<-|[<-|[<-|[]]]]; [right; eauto|left; reflexivity|right; eauto]. }
  split. { constructor; [split; [discriminate|intros _; exists "bus_1", "bus_1.1.2.3", ["1"; "2"; "3"]; split; reflexivity]|]. constructor; [split; [discriminate|intros X; discriminate X]|constructor]. }
  eexists _, _. split; [reflexivity|]. repeat split; try reflexivity; apply R1.
Qed.
Definition ex_back_data : data := fun k => if String.eqb k "bus1" then Some (PText "bus_1") else ex_source_data k.
Example C97_read_back_met : exists t e, circuit_text DssTextProps.show_q [ex_src] = Ok t /\ read_dss t = Some [e] /\ engine_source num_r e ex_back_data.
Proof.
  eexists _, _. split; [vm_compute; reflexivity|]. split; [vm_compute; reflexivity|].
  assert (Q : forall a b : Q, a == b -> num_r (DssTextProps.show_q a) = Some (Q2R b)) by (intros a b E; unfold num_r, real_of; rewrite (proj2 DssTextProps.faithful_q); cbn [option_map]; f_equal; now apply Qeq_eqR).
  constructor; try reflexivity.
  - intros s P. vm_compute in P. injection P as <-. reflexivity.
  - intros s r P N. vm_compute in P. injection P as <-. vm_compute in N. injection N as <-. eexists. split; [reflexivity|]. apply (Q (12 # 1) (12000 # 1000)%Q). reflexivity.
  - intros s r P N. vm_compute in P. injection P as <-. vm_compute in N. injection N as <-. eexists. split; reflexivity.
  - intros s t r x P1 P2 N1 N2. vm_compute in P1, P2. injection P1 as <-. injection P2 as <-. vm_compute in N1, N2. injection N1 as <-. injection N2 as <-. exists "1/1", "2/1". repeat split.
  - intros s t r x P1. vm_compute in P1. discriminate P1.
Qed.
