From Coq Require Import List String Ascii Bool Arith ZArith Reals Lra Lia.
From Verif Require Import Base BaseFacts TextModel CsvSpec CsvProofs CymeMapModel CymeParseModel CymeParseSpec CymeParseProofs CymeNodeModel CymeLoadModel CymeLoadSpec CymeLoadProofs CymeWrLoadModel CymeWrLoadSpec.
Import ListNotations.
Local Open Scope string_scope.
Local Open Scope nat_scope.
Local Open Scope list_scope.

Section Writer.
Variable str_of : R -> string.
Variable hash : string -> string.
Hypothesis str_clean : forall x, clean (str_of x).
Hypothesis hash_clean : forall s, clean (hash s).
Notation write_load := (write_load str_of hash).
Notation section_name := (section_name hash).

Lemma sassoc (a b c : string) : ((a ++ b) ++ c = a ++ b ++ c)%string.
Proof. induction a; cbn; congruence. Qed.
Lemma section_id_name e n : section_name e n (section_id hash e n).
Proof. unfold section_id, CymeWrLoadSpec.section_name. destruct (Nat.ltb_spec 64 (String.length (e ++ "_" ++ n))); [right|left]; split; auto; lia. Qed.
Lemma clean_app a b : clean a -> clean b -> clean (a ++ b)%string.
Proof. intros (A & B & C) (D & E & F). split; [|split]; now apply free_app. Qed.
Ltac literal := repeat split; intros []; intuition discriminate.
Lemma clean_lit s : In s [""; "0"; "1"; "2"; "5"; "6"; "_"; "SPOT"; "PQ"; "AB"; "BC"; "AC"] -> clean s.
Proof. intros I. repeat (destruct I as [<-|I]; [repeat split; cbn; intuition discriminate|]). destruct I. Qed.
Ltac lit := apply clean_lit; cbn; tauto.
Ltac cleans := repeat (apply Forall_cons; [first [assumption | apply str_clean | lit]|]); apply Forall_nil.
Lemma section_clean e n : clean e -> clean n -> clean (section_id hash e n).
Proof. intros E N. unfold section_id. destruct (Nat.ltb _ _); [apply hash_clean|]. apply clean_app; [exact E|]. apply clean_app; [lit|exact N]. Qed.
Lemma clean_concat l : Forall clean l -> clean (String.concat "" l).
Proof.
  induction 1 as [|x l X L IH]; [lit|]. destruct l as [|y l]; [exact X|].
  change (String.concat "" (x :: y :: l)) with (x ++ "" ++ String.concat "" (y :: l))%string. cbn [append]. now apply clean_app.
Qed.
Lemma line_clean cs : cs <> [] -> Forall clean cs -> line_of cs (String.concat "," cs).
Proof.
  intros NE F. split; [split; [exact NE|split; [reflexivity|]]|split; apply free_concat; try discriminate]; apply Forall_forall; intros x I; rewrite Forall_forall in F; apply (F x I).
Qed.

Lemma sum_kilo get (l : list wphase) a : Forall (fun p => wp_phase p <> None) l ->
  fold_left (fun a p => match wp_phase p, get p with Some _, Some x => a + x * (1 / 1000) | _, _ => a end)%R l a = (a + kilo (map get l))%R.
Proof.
  intros F. revert a. induction F as [|p l P F IH]; intros a; cbn [fold_left map kilo fold_right]; [lra|]. destruct (wp_phase p); [|congruence]. rewrite IH. unfold kilo. destruct (get p); [field|lra].
Qed.
Lemma phases_facts (ps : list wphase) (l : list (string * option R * option R)) :
  Forall2 (fun p x => wp_phase p = Some (fst (fst x)) /\ wp_p p = snd (fst x) /\ wp_q p = snd x) ps l ->
  phase_names ps = String.concat "" (map (fun x => fst (fst x)) l) /\ sum_of wp_p ps = kilo (map (fun x => snd (fst x)) l) /\ sum_of wp_q ps = kilo (map snd l).
Proof.
  intros F. assert (G : Forall (fun p => wp_phase p <> None) ps) by (induction F as [|? ? ? ? (H & _)]; constructor; [congruence|assumption]).
  unfold sum_of. rewrite !sum_kilo by assumption. rewrite !Rplus_0_l. unfold phase_names.
  split; [|split].
  - f_equal. clear G. induction F as [|p x ps l (H & _) F IH]; cbn; [reflexivity|]. now rewrite H, IH.
  - f_equal. clear G. induction F as [|p x ps l (_ & H & _) F IH]; cbn; [reflexivity|]. now rewrite H, IH.
  - f_equal. clear G. induction F as [|p x ps l (_ & _ & H) F IH]; cbn; [reflexivity|]. now rewrite H, IH.
Qed.
Lemma with_last_end s c f : with_last (s ++ String c "") f = (s ++ f c)%string.
Proof. induction s as [|d s IH]; cbn [append with_last]; [reflexivity|]. rewrite IH. destruct s; reflexivity. Qed.

Definition default {A} (o : option (list A)) : list A := match o with Some l => l | None => [] end.
Definition is_feeder (f : string) (i : wload) : bool := match w_feeder i with Some g => String.eqb g f | None => false end.
Lemma append_get d k x f : default (dget (append_to d k x) f) = default (dget d f) ++ (if String.eqb k f then [x] else []).
Proof.
  unfold append_to. destruct (String.eqb_spec k f) as [->|N]; [rewrite dget_dset_same|rewrite dget_dset_other by exact N]; cbn; [reflexivity|now rewrite app_nil_r].
Qed.

Lemma delta_says i (ps : list wphase) l s : complete i (match w_name i with Some n => n | None => "" end) (match w_element i with Some e => e | None => "" end) l ->
  Forall2 (fun p x => wp_phase p = Some (fst (fst x)) /\ wp_p p = snd (fst x) /\ wp_q p = snd x) ps l ->
  exists ph, delta_section ps (w_connection i) (s ++ phase_names ps)%string = (s ++ ph)%string /\
    ((w_connection i = Some "D" /\ exists p q, (l = [("A", p, q)] /\ ph = "AB") \/ (l = [("B", p, q)] /\ ph = "BC") \/ (l = [("C", p, q)] /\ ph = "AC")) \/
     (~ (w_connection i = Some "D" /\ exists p q, In l [[("A", p, q)]; [("B", p, q)]; [("C", p, q)]]) /\ ph = String.concat "" (map (fun x => fst (fst x)) l))).
Proof.
  intros _ F. destruct (phases_facts ps l F) as (PN & _).
  assert (SAME : ~ (w_connection i = Some "D" /\ exists p q, In l [[("A", p, q)]; [("B", p, q)]; [("C", p, q)]]) -> delta_section ps (w_connection i) (s ++ phase_names ps)%string = (s ++ phase_names ps)%string).
  { intros N. unfold delta_section. destruct F as [|p [[x P] Q] ps l (H & _ & _) F]; [reflexivity|]. destruct F as [|? ? ? ? ? ?]; [|reflexivity]. destruct (w_connection i) as [c|]; [|reflexivity].
    destruct (String.eqb_spec c "D") as [->|]; [|reflexivity]. rewrite H. cbn [fst] in *. unfold next_phase.
    destruct (String.eqb_spec x "A") as [->|]; [destruct N; split; [reflexivity|]; exists P, Q; cbn; tauto|].
    destruct (String.eqb_spec x "B") as [->|]; [destruct N; split; [reflexivity|]; exists P, Q; cbn; tauto|].
    destruct (String.eqb_spec x "C") as [->|]; [destruct N; split; [reflexivity|]; exists P, Q; cbn; tauto|reflexivity]. }
  destruct (w_connection i) as [c|] eqn:EC.
  2:{ exists (phase_names ps). assert (N : ~ (@None string = Some "D" /\ exists p q, In l [[("A", p, q)]; [("B", p, q)]; [("C", p, q)]])) by (intros [H _]; discriminate). split; [now apply SAME|]. right. split; [exact N|exact PN]. }
  assert (DEC : (c = "D" /\ exists p q, In l [[("A", p, q)]; [("B", p, q)]; [("C", p, q)]]) \/ ~ (Some c = Some "D" /\ exists p q, In l [[("A", p, q)]; [("B", p, q)]; [("C", p, q)]])).
  { destruct (string_dec c "D") as [->|N]; [|right; intros [H _]; congruence]. destruct l as [|[[x P] Q] [|y l]]; [right; intros (_ & p & q & H); cbn in H; intuition discriminate| |right; intros (_ & p & q & H); cbn in H; intuition discriminate].
    destruct (in_dec string_dec x ["A"; "B"; "C"]) as [I|I].
    - left. split; [reflexivity|]. exists P, Q. destruct I as [<-|[<-|[<-|[]]]]; cbn; tauto.
    - right. intros (_ & p & q & H). apply I. cbn in *. intuition congruence. }
  destruct DEC as [(-> & P & Q & I)|N].
  - assert (U : exists p, ps = [p] /\ exists x, wp_phase p = Some x /\ l = [(x, P, Q)] /\ In x ["A"; "B"; "C"]).
    { destruct F as [|p y ps l (H & _) F]; [cbn in I; intuition discriminate|]. destruct F; [|cbn in I; intuition discriminate]. exists p. split; [reflexivity|]. exists (fst (fst y)). split; [exact H|].
      cbn in I. destruct I as [E|[E|[E|[]]]]; injection E as <-; cbn; tauto. }
    destruct U as (p & -> & x & HP & -> & IX). clear I SAME. cbn [map fst String.concat] in PN. rewrite PN. unfold delta_section. rewrite HP.
    change (String.eqb "D" "D") with true. cbv iota.
    destruct IX as [<-|[<-|[<-|[]]]]; cbn [next_phase String.eqb Ascii.eqb Bool.eqb]; rewrite with_last_end; eexists; (split; [reflexivity|]); left; (split; [reflexivity|]); exists P, Q; cbn; tauto.
  - exists (phase_names ps). split; [now apply SAME|]. right. split; [exact N|exact PN].
Qed.

Lemma code_says i : exists c, code_of i c /\ clean c /\
  (match w_connection i with
   | Some c => if w_center i then ",6" else match connection_code c with Ok k => ("," ++ k)%string | Err _ => "," end
   | None => ","
   end = "," ++ c)%string.
Proof.
  unfold code_of. destruct (w_connection i) as [t|]; [|exists ""; split; [reflexivity|split; [lit|reflexivity]]].
  destruct (w_center i); [exists "6"; split; [reflexivity|split; [lit|reflexivity]]|]. unfold connection_code.
  destruct (String.eqb_spec t "Y") as [->|A]; [exists "0"; split; [tauto|split; [lit|reflexivity]]|].
  destruct (String.eqb_spec t "D") as [->|B]; [exists "2"; split; [tauto|split; [lit|reflexivity]]|].
  destruct (String.eqb_spec t "Z") as [->|C]; [exists "5"; split; [tauto|split; [lit|reflexivity]]|].
  exists "". split; [right; right; right; split; [cbn; intuition congruence|reflexivity]|split; [lit|reflexivity]].
Qed.
Lemma label_says i : (forall t, w_label i = Some t -> clean t) -> let t := match w_label i with Some s => if Nat.eqb (String.length s) 0 then "PQ" else s | None => "PQ" end in label_of i t /\ clean t.
Proof.
  intros C. unfold label_of. destruct (w_label i) as [t|]; [|split; [reflexivity|lit]]. destruct t as [|a t]; cbn; [split; [now right|lit]|split; [left; split; [discriminate|reflexivity]|now apply C]].
Qed.
Lemma taps_says i p q : exists cs, taps_of str_of i p q cs /\ Forall clean cs /\ length cs = 6 /\
  (match w_center i, w_1n i, w_n2 i, w_12 i with
   | true, Some a, Some b, Some _ =>
     do '(p, q) <- of_opt EName (Some (p, q));
     Ok ("," ++ str_of (a * 100)%R ++ "," ++ str_of (b * 100)%R ++ "," ++ str_of (p * a)%R ++ "," ++ str_of (q * a)%R ++ "," ++ str_of (p * b)%R ++ "," ++ str_of (q * b)%R)%string
   | _, _, _, _ => Ok ",,,,,,"
   end) = Ok ("," ++ String.concat "," cs)%string.
Proof.
  unfold taps_of.
  assert (N : Forall clean [""; ""; ""; ""; ""; ""]) by cleans.
  destruct (w_center i), (w_1n i) as [a|], (w_n2 i) as [b|], (w_12 i) as [c|]; try (exists [""; ""; ""; ""; ""; ""]; split; [reflexivity|]; split; [exact N|]; split; reflexivity).
  eexists. split; [reflexivity|]. split; [cbn [map]; cleans|]. split; reflexivity.
Qed.

Lemma taps_says_any i p q : exists t,
  (match w_center i, w_1n i, w_n2 i, w_12 i with
   | true, Some a, Some b, Some _ =>
     do '(p, q) <- of_opt EName (Some (p, q));
     Ok ("," ++ str_of (a * 100)%R ++ "," ++ str_of (b * 100)%R ++ "," ++ str_of (p * a)%R ++ "," ++ str_of (q * a)%R ++ "," ++ str_of (p * b)%R ++ "," ++ str_of (q * b)%R)%string
   | _, _, _, _ => Ok ",,,,,,"
   end) = Ok t.
Proof. destruct (w_center i), (w_1n i) as [a|], (w_n2 i) as [b|], (w_12 i) as [c|]; eexists; reflexivity. Qed.
(** One load. *)
Lemma write_one st i : clean_load i -> exists n e s sec ll cl pq,
  w_name i = Some n /\ w_element i = Some e /\ section_name e n s /\
  (exists row, load_row hash i row /\ line_of row ll) /\ (exists row, customer_row str_of hash i row /\ line_of row cl) /\ (exists row, section_row hash i row /\ line_of row sec) /\
  write_load st i = Ok (mkW (match w_feeder i with Some f => append_to (x_feeders st) f s | None => x_feeders st end)
    (match w_feeder i, w_substation i with Some f, Some t => dset (x_heads st) f t | _, _ => x_heads st end)
    (if smem n (x_node_ids st) then x_node_ids st else x_node_ids st ++ [n])
    (if smem n (x_node_ids st) then x_nodes st else x_nodes st ++ [match w_position i with
                                          | Some (x, y) => (n ++ "," ++ str_of x ++ "," ++ str_of y)%string
                                          | None => (n ++ ",0,0")%string
                                          end])
    (x_sections st ++ [sec]) (match w_feeder i with Some f => append_to (x_feeder_sections st) f sec | None => x_feeder_sections st end) pq
    (x_loads st ++ [ll]) (x_customers st ++ [cl])).
Proof.
  intros (n & e & l & C & CN & CE & CL & CT). pose proof C as (EN & EE & all & EA & F).
  set (s := section_id hash e n). assert (SN : section_name e n s) by apply section_id_name. assert (SC : clean s) by (now apply section_clean).
  destruct (phases_facts _ _ F) as (PN & PP & PQ).
  destruct (delta_says i (kept all) l (s ++ "," ++ e ++ ",0," ++ n ++ ",0,")%string) as (ph & DS & DP); [rewrite EN, EE; exact C|exact F|].
  destruct (code_says i) as (c & CS & CC & CE').
  destruct (label_says i CT) as (LS & LC). set (t := match w_label i with Some s => if Nat.eqb (String.length s) 0 then "PQ" else s | None => "PQ" end) in *.
  destruct (taps_says i (sum_of wp_p (kept all)) (sum_of wp_q (kept all))) as (ts & TS & TC & TL & TE).
  assert (PC : clean (String.concat "" (map (fun x => fst (fst x)) l))).
  { apply clean_concat. clear -CL. induction CL; cbn; constructor; assumption. }
  assert (PHC : clean ph).
  { destruct DP as [(_ & p & q & [(_ & ->)|[(_ & ->)|(_ & ->)]])|(_ & ->)]; try lit. exact PC. }
  set (vals := if w_center i then [""; ""] else [str_of (sum_of wp_p (kept all)); str_of (sum_of wp_q (kept all))]).
  set (row2 := [s; s; "SPOT"; "0"; String.concat "" (map (fun x => fst (fst x)) l)] ++ vals ++ ["0"; t] ++ ts ++ ["0"]).
  assert (VC : Forall clean vals) by (unfold vals; destruct (w_center i); cleans).
  exists n, e, s, (String.concat "," [s; e; "0"; n; "0"; ph]), (String.concat "," [s; s; "SPOT"; c; "0"]), (String.concat "," row2), (Some (sum_of wp_p (kept all), sum_of wp_q (kept all))).
  split; [exact EN|]. split; [exact EE|]. split; [exact SN|]. split; [|split; [|split]].
  - exists [s; s; "SPOT"; c; "0"]. split; [exists n, e, l, s, c; repeat (split; [assumption|]); reflexivity|]. apply line_clean; [discriminate|]. cleans.
  - exists row2. split.
    + exists n, e, l, s, t, ts, (sum_of wp_p (kept all)), (sum_of wp_q (kept all)). repeat (split; [assumption|]). reflexivity.
    + apply line_clean; [discriminate|]. unfold row2. repeat (apply Forall_app; split); try assumption; try cleans.
  - exists [s; e; "0"; n; "0"; ph]. split; [exists n, e, l, s, ph; repeat (split; [assumption|]); split; [reflexivity|exact DP]|]. apply line_clean; [discriminate|]. cleans.
  - unfold CymeWrLoadModel.write_load. rewrite EN, EE, EA. fold s. cbv zeta. cbn [option_map]. rewrite DS, CE', TE. cbn [bind]. fold t.
    f_equal. f_equal.
    + destruct (smem n (x_node_ids st)); reflexivity.
    + destruct (smem n (x_node_ids st)); reflexivity.
    + cbn [String.concat]. rewrite ?sassoc. cbn [append]. rewrite ?sassoc. reflexivity.
    + destruct (w_feeder i); [|reflexivity]. f_equal. cbn [String.concat]. rewrite ?sassoc. cbn [append]. rewrite ?sassoc. reflexivity.
    + cbn [String.concat]. rewrite ?sassoc. cbn [append]. rewrite ?sassoc. reflexivity.
    + f_equal. f_equal. unfold row2, vals. change (filter (fun p : wphase => negb (wp_drop p)) all) with (kept all) in PN. rewrite PN. destruct ts as [|t1 [|t2 [|t3 [|t4 [|t5 [|t6 [|]]]]]]]; try discriminate. destruct (w_center i); cbn [app String.concat]; rewrite ?sassoc; cbn [append]; rewrite ?sassoc; reflexivity.
Qed.

(** All loads. *)
Definition names_of (loads : list wload) : list string := flat_map (fun i => match w_name i with Some n => [n] | None => [] end) loads.
Definition node_line (i : wload) (n : string) : string :=
  match w_position i with Some (x, y) => (n ++ "," ++ str_of x ++ "," ++ str_of y)%string | None => (n ++ ",0,0")%string end.
Lemma node_line_says i n : w_name i = Some n -> clean n -> exists row, node_row str_of i n row /\ line_of row (node_line i n).
Proof.
  intros E C. unfold node_row, node_line. destruct (w_position i) as [[x y]|].
  - exists [n; str_of x; str_of y]. split; [now split|]. apply (line_clean [n; str_of x; str_of y]); [discriminate|cleans].
  - exists [n; "0"; "0"]. split; [now split|]. apply (line_clean [n; "0"; "0"]); [discriminate|cleans].
Qed.
Lemma write_all : forall loads, Forall clean_load loads -> forall st, exists ids secs lls cls nids nodes pq heads feeders fsecs,
  foldM write_load loads st = Ok (mkW feeders heads (x_node_ids st ++ nids) (x_nodes st ++ nodes) (x_sections st ++ secs) fsecs pq (x_loads st ++ lls) (x_customers st ++ cls)) /\
  Forall2 (fun i s => exists n e, w_name i = Some n /\ w_element i = Some e /\ section_name e n s) loads ids /\
  Forall2 (fun i line => exists row, section_row hash i row /\ line_of row line) loads secs /\
  Forall2 (fun i line => exists row, load_row hash i row /\ line_of row line) loads lls /\
  Forall2 (fun i line => exists row, customer_row str_of hash i row /\ line_of row line) loads cls /\
  (forall f, default (dget feeders f) = default (dget (x_feeders st) f) ++ map snd (filter (fun x => is_feeder f (fst x)) (combine loads ids))) /\
  (forall f, default (dget fsecs f) = default (dget (x_feeder_sections st) f) ++ map snd (filter (fun x => is_feeder f (fst x)) (combine loads secs))) /\
  Forall2 (fun n line => exists pre i post, loads = pre ++ i :: post /\ w_name i = Some n /\ ~ In n (names_of pre) /\ ~ In n (x_node_ids st) /\ exists row, node_row str_of i n row /\ line_of row line) nids nodes /\
  NoDup nids /\ (forall n, In n (names_of loads) -> In n (x_node_ids st ++ nids)) /\
  (forall f t, dget heads f = Some t <-> (exists pre i post, loads = pre ++ i :: post /\ w_feeder i = Some f /\ w_substation i = Some t /\ Forall (fun j => w_feeder j = Some f -> w_substation j = None) post) \/
                                         (Forall (fun j => w_feeder j = Some f -> w_substation j = None) loads /\ dget (x_heads st) f = Some t)).
Proof.
  induction 1 as [|i loads CL F IH]; intros st.
  - exists [], [], [], [], [], [], (x_pq st), (x_heads st), (x_feeders st), (x_feeder_sections st). rewrite !app_nil_r. split; [destruct st; reflexivity|].
    repeat (split; [first [constructor | intros f; cbn; now rewrite app_nil_r]|]). split; [intros n []|]. intros f t. split; [intros H; right; split; [constructor|exact H]|]. intros [(pre & i & post & H & _)|[_ H]]; [destruct pre; discriminate|exact H].
  - destruct (write_one st i CL) as (n & e & s & sec & ll & cl & pq1 & EN & EE & SN & LR & CR & SR & E).
    match type of E with _ = Ok ?x => set (st1 := x) in * end.
    destruct (IH st1) as (ids & secs & lls & cls & nids & nodes & pq & heads & feeders & fsecs & E' & R1 & R2 & R3 & R4 & R5 & R6 & R7 & R8 & R9 & R10).
    set (fresh := smem n (x_node_ids st)).
    exists (s :: ids), (sec :: secs), (ll :: lls), (cl :: cls), (if fresh then nids else n :: nids), (if fresh then nodes else node_line i n :: nodes), pq, heads, feeders, fsecs.
    assert (NI : x_node_ids st1 = if fresh then x_node_ids st else x_node_ids st ++ [n]) by reflexivity.
    assert (CN : clean n). { destruct CL as (n' & e' & l & (EN' & _) & CN & _). congruence. }
    split.
    { cbn [foldM]. rewrite E, E'. f_equal. cbn [st1 x_nodes x_sections x_loads x_customers x_node_ids]. rewrite <- !app_assoc. cbn [app].
      f_equal; unfold fresh; destruct (smem n (x_node_ids st)); rewrite <- ?app_assoc; reflexivity. }
    split; [constructor; [now exists n, e|exact R1]|]. split; [now constructor|]. split; [now constructor|]. split; [now constructor|].
    split; [|split; [|split; [|split; [|split]]]].
    + intros f. rewrite R5. cbn [combine filter fst]. unfold is_feeder at 2. cbn [st1 x_feeders]. destruct (w_feeder i) as [g|]; [|reflexivity]. rewrite append_get. destruct (String.eqb g f); cbn [map snd]; rewrite <- app_assoc; reflexivity.
    + intros f. rewrite R6. cbn [combine filter fst]. unfold is_feeder at 2. cbn [st1 x_feeder_sections]. destruct (w_feeder i) as [g|]; [|reflexivity]. rewrite append_get. destruct (String.eqb g f); cbn [map snd]; rewrite <- app_assoc; reflexivity.
    + assert (R7' : Forall2 (fun n0 line => exists pre j post, i :: loads = pre ++ j :: post /\ w_name j = Some n0 /\ ~ In n0 (names_of pre) /\ ~ In n0 (x_node_ids st) /\ exists row, node_row str_of j n0 row /\ line_of row line) nids nodes).
      { clear - R7 NI EN. induction R7 as [|m line ms lines (pre & j & post & -> & EM & N1 & N2 & R) R7 IH]; constructor; [|exact IH].
        exists (i :: pre), j, post. split; [reflexivity|]. split; [exact EM|]. rewrite NI in N2. unfold fresh in N2. cbn [names_of flat_map]. rewrite EN. cbn [app].
        destruct (smem n (x_node_ids st)) eqn:SM; [apply smem_In in SM; split; [intros [<-|H]; [contradiction|now apply N1]|split; [exact N2|exact R]]|].
        split; [intros [<-|H]; [apply N2, in_or_app; right; now left|now apply N1]|]. split; [intros H; apply N2, in_or_app; now left|exact R]. }
      unfold fresh in *. destruct (smem n (x_node_ids st)) eqn:SM; [exact R7'|]. constructor; [|exact R7']. exists [], i, loads. split; [reflexivity|]. split; [exact EN|]. split; [intros []|]. split; [now apply smem_not_In|]. now apply node_line_says.
    + unfold fresh in *. destruct (smem n (x_node_ids st)) eqn:SM; [exact R8|]. constructor; [|exact R8]. intros H.
      assert (G : forall m, In m nids -> ~ In m (x_node_ids st1)). { clear - R7. induction R7 as [|m line ms lines (pre & j & post & _ & _ & _ & N2 & _) R7 IH]; intros x []; [now subst|now apply IH]. }
      apply (G n H). rewrite NI. apply in_or_app; right; now left.
    + intros m H. cbn [names_of flat_map] in H. rewrite EN in H. cbn [app] in H. unfold fresh in *. destruct (smem n (x_node_ids st)) eqn:SM.
      * apply smem_In in SM. destruct H as [<-|H]; [apply in_or_app; now left|]. specialize (R9 m H). now rewrite NI in R9.
      * destruct H as [<-|H]; [apply in_or_app; right; now left|]. specialize (R9 m H). rewrite NI in R9. rewrite <- app_assoc in R9. exact R9.
    + intros f t. rewrite R10. cbn [st1 x_heads]. split.
      * intros [(pre & j & post & -> & A & B & P)|[P H]]; [left; exists (i :: pre), j, post; auto|].
        destruct (w_feeder i) as [g|] eqn:EF; [|right; split; [constructor; [congruence|exact P]|exact H]].
        destruct (w_substation i) as [u|] eqn:EU; [|right; split; [constructor; [now intros _|exact P]|exact H]].
        destruct (string_dec g f) as [->|D]; [rewrite dget_dset_same in H; injection H as ->; left; exists [], i, loads; auto|]. rewrite dget_dset_other in H by exact D.
        right. split; [constructor; [congruence|exact P]|exact H].
      * intros [(pre & j & post & H & A & B & P)|[P H]].
        -- destruct pre as [|k pre]; injection H as <- ->; [|left; now exists pre, j, post]. right. split; [exact P|]. rewrite A, B. apply dget_dset_same.
        -- inversion P as [|? ? P0 P1]; subst. right. split; [exact P1|]. destruct (w_feeder i) as [g|] eqn:EF; [|exact H]. destruct (w_substation i) as [u|] eqn:EU; [|exact H].
           destruct (string_dec g f) as [->|D]; [specialize (P0 eq_refl); congruence|]. now rewrite dget_dset_other.
Qed.
End Writer.
