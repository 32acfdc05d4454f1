From Coq Require Import List String Ascii Bool Arith ZArith Reals Lra Lia.
From Verif Require Import Base BaseFacts TextModel CsvSpec CsvProofs CymeMapModel CymeParseModel CymeParseSpec CymeParseProofs CymeNodeModel CymeLoadModel CymeLoadSpec CymeLoadProofs CymeLoadProps CymeWrLoadModel CymeWrLoadSpec CymeWrLoadProofs.
Import ListNotations.
Local Open Scope string_scope.
Local Open Scope nat_scope.
Local Open Scope list_scope.

Definition load_names := ["SectionID"; "DeviceNumber"; "LoadType"; "Connection"; "Location"].
Definition customer_names := ["SectionID"; "DeviceNumber"; "LoadType"; "ValueType"; "LoadPhase"; "Value1"; "Value2"; "CustomerNumber"; "CustomerType";
  "CenterTapPercent"; "CenterTapPercent2"; "LoadValue1N1"; "LoadValue1N2"; "LoadValue2N1"; "LoadValue2N2"; "ConnectionStatus"].
Definition ended (rows : list string) : list string := map (fun s => s ++ newline)%string rows.
Definition plain_date (date : string) : Prop := forall k, substr_in (header_of k) ("DATE=" ++ date ++ newline)%string = false.

Lemma concat_end cs x e : (String.concat "," (cs ++ [x]) ++ e = String.concat "," (cs ++ [(x ++ e)%string]))%string.
Proof.
  induction cs as [|a cs IH]; [reflexivity|]. destruct cs as [|b cs]; [cbn; now rewrite sassoc|].
  change (String.concat "," ((a :: b :: cs) ++ [x])) with (a ++ "," ++ String.concat "," ((b :: cs) ++ [x]))%string.
  change (String.concat "," ((a :: b :: cs) ++ [(x ++ e)%string])) with (a ++ "," ++ String.concat "," ((b :: cs) ++ [(x ++ e)%string]))%string.
  rewrite <- IH, !sassoc. reflexivity.
Qed.
Lemma ended_cells cs x line : line_of (cs ++ [x]) line -> cells (line ++ newline) (cs ++ [(x ++ newline)%string]).
Proof.
  intros ((_ & -> & F) & _). split; [destruct cs; discriminate|]. split; [apply concat_end|]. apply Forall_app in F. destruct F as [F G]. inversion G; subst. apply Forall_app. split; [exact F|]. constructor; [|constructor].
  apply free_app; [assumption|]. cbn. intuition discriminate.
Qed.
Lemma concat_length cs : length cs <= S (String.length (String.concat "," cs)).
Proof.
  assert (L : forall a b, String.length (a ++ b) = String.length a + String.length b) by (induction a; cbn; intros; [reflexivity|f_equal; auto]).
  induction cs as [|a cs IH]; [cbn; lia|]. destruct cs as [|b cs]; [cbn; lia|].
  change (String.concat "," (a :: b :: cs)) with (a ++ "," ++ String.concat "," (b :: cs))%string. rewrite !L. change (String.length ",") with 1. cbn [length] in *. lia.
Qed.
Lemma line_facts row line : line_of row line -> 5 <= length row -> 2 < String.length (line ++ newline) /\ is_row (line ++ newline) = true.
Proof.
  intros L N. assert (A : forall a b, String.length (a ++ b) = String.length a + String.length b) by (induction a; cbn; intros; [reflexivity|f_equal; auto]).
  pose proof L as ((_ & E & F) & FE & FN). split.
  - rewrite A, E. pose proof (concat_length row). change (String.length newline) with 1. lia.
  - unfold is_row. assert (substr_in "=" (line ++ newline) = false) as ->. { apply substr_char. apply free_app; [exact FE|]. cbn. intuition discriminate. }
    cbn [negb andb]. rewrite row_split. destruct (exists_last (l := row)) as (cs & x & ->); [intros ->; cbn in N; lia|].
    rewrite <- (cells_split _ _ (ended_cells cs x line L)). rewrite app_length in *. cbn [length] in *. apply Nat.ltb_lt. lia.
Qed.
Lemma load_row_length hash i row : load_row hash i row -> length row = 5.
Proof. intros (n & e & l & s & c & _ & _ & _ & ->). reflexivity. Qed.
Lemma customer_row_length str_of hash i row : customer_row str_of hash i row -> length row = 16.
Proof.
  intros (n & e & l & s & t & ts & p & q & _ & _ & _ & _ & _ & T & ->). assert (length ts = 6). { unfold taps_of in T. destruct (w_center i), (w_1n i), (w_n2 i), (w_12 i); subst; reflexivity. }
  rewrite !app_length, H. destruct (w_center i); reflexivity.
Qed.
Lemma rows_facts {A} (P : A -> list string -> Prop) n loads lines : 5 <= n -> (forall i row, P i row -> length row = n) ->
  Forall2 (fun i line => exists row, P i row /\ line_of row line) loads lines -> Forall (fun l => 2 < String.length l) (ended lines) /\ filter is_row (ended lines) = ended lines.
Proof.
  intros N H F. induction F as [|i line ls lines (row & R & L) F [IH1 IH2]]; [now split; constructor|]. pose proof (H i row R) as E.
  destruct (line_facts row line L ltac:(lia)) as [LA LB]. cbn [ended map]. split; [now constructor|]. cbn [filter]. rewrite LB. f_equal. exact IH2.
Qed.

(** What is written: a load file with one line in each of its two parts for every load, in order, and the sections,
    nodes and head nodes that the network file needs. *)
Theorem C107_lines : forall str_of hash date loads, (forall x, clean (str_of x)) -> (forall s, clean (hash s)) -> Forall clean_load loads -> loads <> [] -> plain_date date ->
  exists st lines lls cls, write_load_file str_of hash date loads = Ok (st, lines) /\
    load_file lines [(Loads, load_names, ended lls); (Customers, customer_names, ended cls)] /\
    Forall2 (fun i line => exists row, load_row hash i row /\ line_of row line) loads lls /\
    Forall2 (fun i line => exists row, customer_row str_of hash i row /\ line_of row line) loads cls.
Proof.
  intros str_of hash date loads SC HC F NE PD.
  destruct (write_all str_of hash SC HC loads F CymeWrLoadModel.start) as (ids & secs & lls & cls & nids & nodes & pq & heads & feeders & fsecs & E & R1 & R2 & R3 & R4 & _).
  unfold write_load_file. rewrite E. cbn [bind]. eexists _, _, lls, cls. split; [reflexivity|]. split; [|split; [exact R3|exact R4]].
  destruct (rows_facts _ 5 loads lls ltac:(lia) (load_row_length hash) R3) as [L1 _].
  destruct (rows_facts _ 16 loads cls ltac:(lia) (customer_row_length str_of hash) R4) as [L2 _].
  unfold load_lines. cbn [x_loads x_customers app CymeWrLoadModel.start map]. rewrite !map_app. cbn [map app]. change eol with newline. fold (ended lls). fold (ended cls).
  apply file_line; [intros []; reflexivity|]. apply file_line; [intros k; rewrite sassoc; apply PD|]. do 4 (apply file_line; [intros []; reflexivity|]).
  apply (file_part Loads); [intros []; split; (reflexivity || discriminate)|reflexivity| |exact L1|cbn; lia|].
  - exists "FORMAT_LOADS", newline. repeat split; cbn; try discriminate; auto; repeat constructor; cbn; repeat split; discriminate.
  - apply (file_last Customers); [intros []; split; (reflexivity || discriminate)|reflexivity| |exact L2|].
    + exists "FORMAT_CUSTOMERLOADS", newline. repeat split; cbn; try discriminate; auto; repeat constructor; cbn; repeat split; discriminate.
    + destruct R4; [congruence|discriminate].
Qed.
Print Assumptions C107_lines.

(** The sections of each feeder, the nodes and the head nodes that are left to the network file. *)
Theorem C107_network : forall str_of hash date loads, (forall x, clean (str_of x)) -> (forall s, clean (hash s)) -> Forall clean_load loads ->
  exists st lines ids, write_load_file str_of hash date loads = Ok (st, lines) /\
    Forall2 (fun i s => exists n e, w_name i = Some n /\ w_element i = Some e /\ section_name hash e n s) loads ids /\
    Forall2 (fun i line => exists row, section_row hash i row /\ line_of row line) loads (x_sections st) /\
    (forall f l, of_feeder f (combine loads ids) l -> dget (x_feeders st) f = Some l \/ (l = [] /\ (dget (x_feeders st) f = None \/ dget (x_feeders st) f = Some []))) /\
    (forall f l, of_feeder f (combine loads (x_sections st)) l -> dget (x_feeder_sections st) f = Some l \/ (l = [] /\ (dget (x_feeder_sections st) f = None \/ dget (x_feeder_sections st) f = Some []))) /\
    NoDup (x_node_ids st) /\ (forall n, In n (x_node_ids st) <-> exists i, In i loads /\ w_name i = Some n) /\
    Forall2 (fun n line => exists pre i post row, loads = pre ++ i :: post /\ Forall (fun j => w_name j <> Some n) pre /\ node_row str_of i n row /\ line_of row line) (x_node_ids st) (x_nodes st) /\
    (forall f t, dget (x_heads st) f = Some t <->
       exists pre i post, loads = pre ++ i :: post /\ w_feeder i = Some f /\ w_substation i = Some t /\ Forall (fun j => w_feeder j = Some f -> w_substation j = None) post).
Proof.
  intros str_of hash date loads SC HC F.
  destruct (write_all str_of hash SC HC loads F CymeWrLoadModel.start) as (ids & secs & lls & cls & nids & nodes & pq & heads & feeders & fsecs & E & R1 & R2 & _ & _ & R5 & R6 & R7 & R8 & R9 & R10).
  unfold write_load_file. rewrite E. cbn [bind]. eexists _, _, ids. split; [reflexivity|]. cbn [x_sections x_feeders x_feeder_sections x_node_ids x_nodes x_heads CymeWrLoadModel.start app] in *.
  split; [exact R1|]. split; [exact R2|].
  assert (G : forall (d : list (string * list string)) (f : string) l, default (dget d f) = [] ++ l -> dget d f = Some l \/ (l = [] /\ (dget d f = None \/ dget d f = Some []))).
  { intros d f l H. cbn [app] in H. destruct (dget d f) as [x|] eqn:EX; cbn in H; [left; congruence|right; split; [congruence|now left]]. }
  split; [intros f l H; apply G; rewrite H; apply R5|]. split; [intros f l H; apply G; rewrite H; apply R6|]. split; [exact R8|].
  assert (NM : forall n ls, In n (names_of ls) <-> exists i, In i ls /\ w_name i = Some n).
  { intros n ls. unfold names_of. rewrite in_flat_map. split; intros (i & I & H); exists i; (split; [exact I|]); destruct (w_name i); cbn in *; intuition congruence. }
  split; [|split].
  - intros n. rewrite <- NM. split; [|apply R9]. intros H. clear - R7 H NM.
    induction R7 as [|m line ms lines (pre & i & post & -> & EN & _) R7 IH]; [destruct H|]. destruct H as [<-|H]; [|now apply IH]. apply NM. exists i. split; [apply in_or_app; right; now left|exact EN].
  - clear - R7 NM. induction R7 as [|m line ms lines (pre & i & post & E & EN & NI & _ & row & NR & LO) R7 IH]; constructor; [|exact IH].
    exists pre, i, post, row. split; [exact E|]. split; [|split; assumption]. apply Forall_forall. intros j J H. apply NI, NM. now exists j.
  - intros f t. rewrite R10. cbn [dget]. split; [intros [H|[_ H]]; [exact H|discriminate]|now left].
Qed.
Print Assumptions C107_network.

Lemma foldM_stuck {A S} (f : S -> A -> res S) l x : In x l -> (forall s, exists e, f s x = Err e) -> forall s, exists e, foldM f l s = Err e.
Proof.
  intros I H. induction l as [|y l IH]; [destruct I|]. intros s. cbn [foldM]. destruct I as [->|I]; [destruct (H s) as (e & ->); now exists e|]. destruct (f s y); [now apply IH|eauto].
Qed.
Lemma announced_at names k j : nth_error (map lower names) j = Some k -> NoDup (map lower names) -> announced names k j.
Proof. intros E N. split; [exact E|]. intros i H. assert (i = j); [|lia]. apply (proj1 (NoDup_nth_error _) N); [apply nth_error_Some; congruence|congruence]. Qed.
Lemma customer_nodup : NoDup (map lower customer_names).
Proof. cbn. repeat constructor; cbn; intuition discriminate. Qed.

(** A load file that was written cannot be read: a load with active power stops the reader (there is no column with
    the number of customers), and so does a center tap load (it has no values). *)
Theorem C107_read_back_refuted : forall str_of hash date loads num int_ section_phase section_feeder i n e l,
  (forall x, clean (str_of x)) -> (forall s, clean (hash s)) -> (forall x, num (str_of x) = Some x) -> num "" = None -> int_ "0" = Some 0%Z ->
  Forall clean_load loads -> plain_date date -> In i loads -> complete i n e l ->
  w_center i = true \/ (0 < kilo (map (fun x => snd (fst x)) l))%R ->
  exists st lines err, write_load_file str_of hash date loads = Ok (st, lines) /\ parse_loads num int_ section_phase section_feeder lines = Err err.
Proof.
  intros str_of hash date loads num int_ sp sf i n e l SC HC NS N0 I0 F PD I C PW.
  assert (NE : loads <> []) by (intros ->; destruct I).
  destruct (C107_lines str_of hash date loads SC HC F NE PD) as (st & lines & lls & cls & E & LF & R3 & R4). exists st, lines.
  destruct (C106_file num int_ sp sf lines _ LF) as (ls & cs & gs & EP & RS); [repeat constructor; cbn; intuition discriminate|].
  destruct (RS Customers cs ltac:(tauto)) as [RC _]. specialize (RC customer_names (ended cls) ltac:(right; now left)).
  destruct (rows_facts _ 16 loads cls ltac:(lia) (customer_row_length str_of hash) R4) as [_ FR]. rewrite FR in RC. clear RS FR.
  apply In_nth_error in I. destruct I as [j J].
  assert (K : exists line row, nth_error cls j = Some line /\ customer_row str_of hash i row /\ line_of row line).
  { clear - J R4. revert j J. induction R4 as [|a b la lb (row & P & Q) R4 IH]; intros [|j] J; try discriminate; cbn in *; [injection J as ->; now exists b, row|now apply IH]. }
  destruct K as (line & row & JL & CR & LO). destruct RC as [RL RC].
  assert (JX : exists x, nth_error cs j = Some x).
  { destruct (nth_error cs j) as [x|] eqn:JX; [now exists x|]. apply nth_error_None in JX. rewrite RL in JX. unfold ended in JX. rewrite !map_length in JX. assert (j < length cls) by (apply nth_error_Some; congruence). lia. }
  destruct JX as [x JX]. specialize (RC j (Announced (columns_of Customers) customer_names, (line ++ newline)%string) x).
  destruct RC as (cells_ & CE & _ & LK); [unfold ended; rewrite map_map; erewrite map_nth_error by exact JL; reflexivity|exact JX|].
  destruct CR as (n' & e' & l' & s & t & ts & p & q & C' & SN & LB & EPP & EQ & TP & ER).
  assert (l' = l). { destruct C as (_ & _ & a & A1 & A2), C' as (_ & _ & b & B1 & B2). rewrite A1 in B1. injection B1 as <-. clear -A2 B2. revert l' B2. induction A2 as [|p x ps xs (H1 & H2 & H3) A2 IH]; intros l' B2; inversion B2 as [|? [[? ?] ?] ? ? (G1 & G2 & G3)]; subst; [reflexivity|]. destruct x as [[? ?] ?]. cbn in *. f_equal; [congruence|now apply IH]. }
  subst l'. assert (TL : length ts = 6) by (unfold taps_of in TP; destruct (w_center i), (w_1n i), (w_n2 i), (w_12 i); subst; reflexivity).
  set (vals := if w_center i then [""; ""] else [str_of p; str_of q]) in *.
  assert (CL : cells_ = ([s; s; "SPOT"; "0"; String.concat "" (map (fun x => fst (fst x)) l)] ++ vals ++ ["0"; t] ++ ts) ++ [("0" ++ newline)%string]).
  { apply cells_split in CE. rewrite CE. symmetry. apply cells_split. apply ended_cells. rewrite ER in LO. rewrite <- !app_assoc. exact LO. }
  assert (GET : forall k jj v, In k (columns_of Customers) -> nth_error (map lower customer_names) jj = Some k -> nth_error cells_ jj = Some v -> dget (snd x) k = Some v).
  { intros k jj v W A B. apply LK. right. split; [reflexivity|]. split; [exact W|]. exists jj. split; [|exact B]. apply announced_at; [exact A|exact customer_nodup]. }
  assert (NO : forall k, ~ In k (map lower customer_names) -> dget (snd x) k = None).
  { intros k W. destruct (dget (snd x) k) as [v|] eqn:V; [|reflexivity]. apply LK in V. destruct V as [V|(_ & _ & jj & (A & _) & _)]; [discriminate|]. destruct W. now apply nth_error_In in A. }
  assert (VT : dget (snd x) "valuetype" = Some "0") by (apply (GET _ 3); [cbn; tauto|reflexivity|rewrite CL; reflexivity]).
  assert (KV : dget (snd x) "connectedkva" = None) by (apply NO; cbn; intuition discriminate).
  assert (NC : dget (snd x) "numberofcustomer" = None) by (apply NO; cbn; intuition discriminate).
  assert (ERR : exists err, make_loads num int_ ls gs sp sf cs = Err err).
  { unfold make_loads. apply nth_error_In in JX. apply (foldM_stuck _ _ x JX). intros s0. unfold one_load. rewrite KV. cbn [bind]. rewrite VT, I0. cbn [of_opt bind].
    destruct (w_center i) eqn:CT.
    - assert (V1 : dget (snd x) "value1" = Some "") by (apply (GET _ 5); [cbn; tauto|reflexivity|rewrite CL; reflexivity]).
      assert (V2 : dget (snd x) "value2" = Some "") by (apply (GET _ 6); [cbn; tauto|reflexivity|rewrite CL; reflexivity]).
      rewrite V1, V2. unfold power_of. rewrite N0. cbn. eauto.
    - destruct PW as [PW|PW]; [discriminate|].
      assert (V1 : dget (snd x) "value1" = Some (str_of p)) by (apply (GET _ 5); [cbn; tauto|reflexivity|rewrite CL; reflexivity]).
      assert (V2 : dget (snd x) "value2" = Some (str_of q)) by (apply (GET _ 6); [cbn; tauto|reflexivity|rewrite CL; reflexivity]).
      rewrite V1, V2. rewrite (power_ok num int_ (mkVars (Some 0%Z) (v_p (st_vars s0)) (v_q (st_vars s0)) (v_class (st_vars s0))) None 0%Z p q p q (str_of p) (str_of q) eq_refl (NS p) (NS q) (power_pq None p q)). cbn [bind with_pq v_p of_opt].
      rewrite <- EPP in PW. destruct (Rle_dec 0 p); [|lra]. cbn [bind]. destruct (Req_EM_T p 0); [lra|]. rewrite andb_false_r. rewrite NC. destruct (dget sf (lower (strip_star (fst x)))); cbn; eauto. }
  destruct ERR as [err ERR]. exists err. split; [exact E|]. now rewrite EP.
Qed.
Print Assumptions C107_read_back_refuted.


Lemma skip_line fuel d l rest : (forall k, substr_in (header_of k) l = false) -> read_load_file (S fuel) d (l :: rest) = read_load_file fuel d rest.
Proof.
  intros NO. destruct d as [[l0 c0] g0]. cbn [read_load_file].
  pose proof (helper_no Loads l rest (NO Loads)) as H1. pose proof (helper_no Customers l rest (NO Customers)) as H2. pose proof (helper_no Classes l rest (NO Classes)) as H3.
  cbn [obj_of attrs_of cols_of] in H1, H2, H3. rewrite H1. cbn [bind]. rewrite H2. cbn [bind]. rewrite H3. cbn [bind]. now rewrite !update_nil.
Qed.
(** Nor can the file of a model without loads. *)
Theorem C107_empty_refuted : forall str_of hash date num int_ section_phase section_feeder, plain_date date ->
  exists st lines, write_load_file str_of hash date [] = Ok (st, lines) /\ parse_loads num int_ section_phase section_feeder lines = Err EStop.
Proof.
  intros str_of hash date num int_ sp sf PD. eexists _, _. split; [reflexivity|]. unfold parse_loads, load_lines. cbn [x_loads x_customers app map length CymeWrLoadModel.start].
  rewrite skip_line by (intros []; reflexivity). rewrite skip_line by (intros k; rewrite sassoc; apply PD). reflexivity.
Qed.
Print Assumptions C107_empty_refuted.

(** A load without a name or an element is written without its first two cells: its type stands in the column of the device. *)
Theorem C107_shift_refuted : forall str_of hash st i l, w_name i = None \/ w_element i = None -> w_phases i = Some l ->
  exists st' a b, write_load str_of hash st i = Ok st' /\ x_loads st' = x_loads st ++ [(",SPOT," ++ a)%string] /\ x_customers st' = x_customers st ++ [(",SPOT,0," ++ b)%string].
Proof.
  intros str_of hash st i l N EP. unfold write_load. rewrite EP.
  assert (ND : match w_name i, w_element i with Some n, Some e => Some (n, e) | _, _ => None end = None) by (destruct N as [N|N]; rewrite N; [reflexivity|destruct (w_name i); reflexivity]).
  rewrite ND. cbv zeta.
  destruct (taps_says_any str_of i (sum_of wp_p (kept l)) (sum_of wp_q (kept l))) as (t & ->). cbn [bind].
  destruct (code_says i) as (c & _ & _ & ->). eexists _, _, _. split; [reflexivity|]. cbn [x_loads x_customers append].
  split; rewrite ?sassoc; reflexivity.
Qed.
Print Assumptions C107_shift_refuted.

(** A center tap load without phases is written with the power of the load before it. *)
Theorem C107_stale_refuted : forall str_of hash st i l j a b c, phases_are i l -> w_center i = false ->
  w_phases j = None -> w_center j = true -> w_1n j = Some a -> w_n2 j = Some b -> w_12 j = Some c ->
  exists st' line pre, foldM (write_load str_of hash) [i; j] st = Ok st' /\ last (x_customers st') "" = line /\
    line = (pre ++ "," ++ str_of (kilo (map (fun x => snd (fst x)) l) * a)%R ++ "," ++ str_of (kilo (map snd l) * a)%R ++ "," ++ str_of (kilo (map (fun x => snd (fst x)) l) * b)%R ++ "," ++ str_of (kilo (map snd l) * b)%R ++ ",0")%string.
Proof.
  intros str_of hash st i l j a b c (all & EA & F) CI EP CJ EA1 EB EC. destruct (phases_facts _ _ F) as (_ & PP & PQ).
  cbn [foldM]. unfold write_load at 1. rewrite EA, CI. cbv zeta. cbn [bind].
  unfold write_load at 1. rewrite EP, CJ, EA1, EB, EC. cbv zeta. cbn [x_pq of_opt bind]. eexists _, _, _. split; [reflexivity|]. cbn [x_customers]. rewrite last_last. split; [reflexivity|].
  unfold kept. rewrite PP, PQ.
  match goal with |- (?s ++ ",SPOT" ++ "" ++ ",0," ++ ?t ++ (?t1 ++ ?t2 ++ ?t3 ++ ?t4 ++ _) ++ _)%string = _ => instantiate (1 := (s ++ ",SPOT" ++ "" ++ ",0," ++ t ++ t1 ++ t2 ++ t3 ++ t4)%string) end.
  rewrite !sassoc. reflexivity.
Qed.
Print Assumptions C107_stale_refuted.

(** Loads of different elements can have the same section. *)
Theorem C107_collision_refuted : forall str_of hash date i j x y z f, (forall r, clean (str_of r)) -> (forall s, clean (hash s)) -> clean_load i -> clean_load j ->
  w_element i = Some x -> w_name i = Some (y ++ "_" ++ z)%string -> w_element j = Some (x ++ "_" ++ y)%string -> w_name j = Some z -> w_feeder i = Some f -> w_feeder j = Some f ->
  exists st lines s, write_load_file str_of hash date [i; j] = Ok (st, lines) /\ dget (x_feeders st) f = Some [s; s].
Proof.
  intros str_of hash date i j x y z f SC HC CI CJ E1 N1 E2 N2 F1 F2.
  destruct (C107_network str_of hash date [i; j] SC HC) as (st & lines & ids & E & R & _ & OF & _); [repeat constructor; assumption|].
  exists st, lines. inversion R as [|? s1 ? ? (n1 & e1 & A1 & B1 & S1) R']; subst. inversion R' as [|? s2 ? ? (n2 & e2 & A2 & B2 & S2) R'']; subst. inversion R''; subst.
  assert (n1 = (y ++ "_" ++ z)%string) as -> by congruence. assert (n2 = z) as -> by congruence. assert (e1 = x) as -> by congruence. assert (e2 = (x ++ "_" ++ y)%string) as -> by congruence.
  assert (s1 = s2) as <-. { unfold section_name in S1, S2. rewrite !sassoc in S2. destruct S1 as [[L1 ->]|[L1 ->]], S2 as [[L2 ->]|[L2 ->]]; try reflexivity; lia. }
  exists s1. split; [exact E|]. destruct (OF f [s1; s1]) as [H|[H _]]; [|exact H|discriminate].
  unfold of_feeder. cbn [combine filter fst]. rewrite F1, F2, String.eqb_refl. reflexivity.
Qed.
Print Assumptions C107_collision_refuted.

(** ** The hypotheses can be met *)
Definition text0 (r : R) : string := "1".
Definition hash0 (s : string) : string := "h".
Definition load0 := mkWLoad (Some "load1") (Some "n1") (Some "f1") (Some "s1") (Some (1%R, 2%R)) (Some "D") false (Some [mkWPhase (Some "C") (Some 5000%R) (Some 1000%R) false; mkWPhase (Some "A") (Some 1%R) None true]) None None None None.
Definition load1 := mkWLoad (Some "b_c") (Some "a") (Some "f1") None None (Some "Y") true (Some [mkWPhase (Some "A") (Some 5000%R) None false; mkWPhase (Some "B") None None false]) (Some "ts") (Some 1%R) (Some 1%R) (Some 0%R).
Definition load2 := mkWLoad (Some "c") (Some "a_b") (Some "f1") None None None false (Some []) (Some "") None None None.
Ltac free_lit := repeat split; cbn; intuition discriminate.
Lemma loads0_clean : Forall clean_load [load0; load1; load2].
Proof.
  apply Forall_cons; [|apply Forall_cons; [|apply Forall_cons; [|constructor]]].
  - exists "load1", "n1", [("C", Some 5000%R, Some 1000%R)]. split; [repeat split; eexists; split; [reflexivity|]; repeat constructor|]. split; [free_lit|]. split; [free_lit|]. split; [apply Forall_cons; [free_lit|constructor]|]. intros t H; discriminate.
  - exists "b_c", "a", [("A", Some 5000%R, None); ("B", None, None)]. split; [repeat split; eexists; split; [reflexivity|]; repeat constructor|]. split; [free_lit|]. split; [free_lit|]. split; [apply Forall_cons; [free_lit|apply Forall_cons; [free_lit|constructor]]|]. intros t H; injection H as <-; free_lit.
  - exists "c", "a_b", []. split; [repeat split; eexists; split; [reflexivity|]; repeat constructor|]. split; [free_lit|]. split; [free_lit|]. split; [constructor|]. intros t H; injection H as <-; free_lit.
Qed.
(** A delta load on one phase with another dropped; a center tap load with a timeseries; a load without phases. *)
Example C107_hypotheses_met : (forall x, clean (text0 x)) /\ (forall s, clean (hash0 s)) /\ Forall clean_load [load0; load1; load2] /\ plain_date "November 15, 2026 at 10:00:00" /\
  (exists st lines, write_load_file text0 hash0 "November 15, 2026 at 10:00:00" [load0; load1; load2] = Ok (st, lines) /\
     x_sections st = ["n1_load1,n1,0,load1,0,AC"; "a_b_c,a,0,b_c,0,AB"; "a_b_c,a_b,0,c,0,"] /\
     x_customers st = ["n1_load1,n1_load1,SPOT,0,C,1,1,0,PQ,,,,,,,0"; "a_b_c,a_b_c,SPOT,0,AB,,,0,ts,1,1,1,1,1,1,0"; "a_b_c,a_b_c,SPOT,0,,1,1,0,PQ,,,,,,,0"] /\
     x_loads st = ["n1_load1,n1_load1,SPOT,2,0"; "a_b_c,a_b_c,SPOT,6,0"; "a_b_c,a_b_c,SPOT,,0"] /\
     x_nodes st = ["load1,1,1"; "b_c,0,0"; "c,0,0"]) /\
  w_center load1 = true.
Proof.
  split; [intros x; free_lit|]. split; [intros s; free_lit|]. split; [exact loads0_clean|]. split; [intros []; reflexivity|]. split; [|reflexivity].
  eexists _, _. split; [reflexivity|]. repeat split.
Qed.
