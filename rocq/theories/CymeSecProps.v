From Coq Require Import List String Ascii Bool Arith Lia.
From Verif Require Import Base BaseFacts TextModel CsvModel CsvSpec GlmSpec CymeParseModel CymeParseSpec CymeSecModel CymeSecSpec CymeSecProofs.
Import ListNotations.
Local Open Scope string_scope.
Local Open Scope nat_scope.
Local Open Scope list_scope.

(** ** C104: the sections of a CYME network file

    Every section is in the network declared last before it, and has the cells of its line under the columns of the
    format announced last before it; of two sections with the same id the later one stays; nothing else is there.
    The same holds for the networks; the type of network is the one of the last. *)
Theorem C104_sections : forall t content items, network_file content items -> Forall distinct items -> goods items ->
  exists st, parse_sections t content = Ok st /\
  (forall s n, dget (s_section_feeder st) s = Some n <-> exists x, latest (with_id x_id s a_section) items x /\ x_net x = n) /\
  (forall s c v, (exists r, dget (s_section_phase st) s = Some r /\ dget r c = Some v) <->
     exists x, latest (with_id x_id s a_section) items x /\ value (x_names x) (x_cells x) c v) /\
  (forall s, dget (s_section_phase st) s = None <-> dget (s_section_feeder st) s = None) /\
  (forall n, dget (s_network_data st) n = None <-> forall w, ~ latest (with_id w_id n a_network) items w) /\
  (forall n c v, (exists r, dget (s_network_data st) n = Some r /\ dget r c = Some v) <->
     exists w, latest (with_id w_id n a_network) items w /\ value (w_names w) (w_cells w) c v) /\
  (forall w, latest a_network items w -> s_type st = Some (if String.eqb (w_kind w) "substation" then "substation" else "feeder")) /\
  ((forall w, ~ latest a_network items w) -> s_type st = t).
Proof.
  intros t content items F D G. destruct (items_says t items D G) as (st & E & [ISEC INET INOW ITYPE IHAVE IKIND IDATA INETS ILISTS IFEEDER IPHASE IKEYS]).
  exists st. rewrite (file_items t _ _ F). split; [exact E|]. split; [exact IFEEDER|]. split; [exact IPHASE|]. split; [exact IKEYS|].
  split; [exact INETS|]. split; [exact IDATA|]. split; [exact IKIND|].
  intros N. apply ITYPE. destruct (s_net st) as [n|] eqn:EN; [|reflexivity]. destruct (proj1 (INOW n) eq_refl) as (w & L & _). now apply N in L.
Qed.
Print Assumptions C104_sections.

(** A file is read if and only if every line may come where it is. *)
Theorem C104_accepted : forall t content items, network_file content items -> Forall distinct items ->
  ((exists st, parse_sections t content = Ok st) <-> goods items).
Proof.
  intros t content items F D. rewrite (file_items t _ _ F). split.
  - intros [st E]. now apply (items_good t items st).
  - intros G. destruct (items_says t items D G) as (st & E & _). now exists st.
Qed.
Print Assumptions C104_accepted.

(** A line that may not come where it is makes the whole file unreadable: a network before its formats or with another
    number of cells, a section before any network or with another number of cells. *)
Theorem C104_refused : forall t content before i after, network_file content (before ++ i :: after) ->
  Forall distinct before -> goods before -> ~ good before i -> parse_sections t content = Err EValue.
Proof.
  intros t content before i after F D G B. destruct (items_says t before D G) as (st & E & S).
  rewrite (file_items t _ _ F), foldM_app, E. cbn [foldM]. now rewrite (step_bad _ _ _ _ S B).
Qed.
Print Assumptions C104_refused.

(** A file without a section part has no sections. *)
Theorem C104_none : forall t content, Forall (fun l => substr_in "[SECTION]" l = false) content ->
  exists st, parse_sections t content = Ok st /\ s_section_feeder st = [] /\ s_section_phase st = [] /\ s_network_data st = [] /\ s_type st = t.
Proof.
  intros t content N. exists (mkSections None None None t [] [] [] []). unfold parse_sections. split; [|now repeat split].
  induction N as [|l content H N IH]; cbn [parse_sections_from]; [reflexivity|]. rewrite H. exact IH.
Qed.
Print Assumptions C104_none.

(** The documentation says that feeder_section_mapping has the sections of a network; it never has any. *)
Theorem C104_listed_refuted : forall t content items st n l, network_file content items -> Forall distinct items -> goods items ->
  parse_sections t content = Ok st -> dget (s_feeder_sections st) n = Some l -> l = [].
Proof.
  intros t content items st n l F D G E H. destruct (items_says t items D G) as (st' & E' & S). rewrite (file_items t _ _ F), E' in E.
  injection E as <-. rewrite (i_lists _ _ _ S) in H. destruct (dget (s_network_data st') n); congruence.
Qed.
Print Assumptions C104_listed_refuted.

(** A section part that reaches the end of the file without a short line cannot be read, whatever it says. *)
Theorem C104_end_refuted : forall t pre header lines items, Forall (fun l => substr_in "[SECTION]" l = false) pre ->
  substr_in "[SECTION]" header = true -> Forall2 says lines items -> Forall distinct items -> goods items ->
  parse_sections t (pre ++ header :: lines) = Err EStop.
Proof.
  intros t pre header lines items N H F D G. destruct (items_says t items D G) as (st' & E' & _). unfold parse_sections.
  induction N as [|l pre Z N IH]; cbn [app parse_sections_from]; [|rewrite Z; exact IH]. rewrite H. clear H. clear D G.
  revert E'. generalize (mkSections None None None t [] [] [] []) as st. induction F as [|line i lines items S F IH]; intros st E; cbn [section_lines foldM] in *; [reflexivity|].
  pose proof (says_long _ _ S). destruct (Nat.ltb_spec 2 (String.length line)); [|lia]. rewrite (says_step _ _ _ S).
  destruct (item_step st i) as [st1|]; [|discriminate]. cbn [bind]. now apply IH.
Qed.
Print Assumptions C104_end_refuted.

(** The header of the next part, without an empty line before it, makes a section part with two columns or more unreadable. *)
Theorem C104_header_refuted : forall t pre header lines items next rest fs, Forall (fun l => substr_in "[SECTION]" l = false) pre ->
  substr_in "[SECTION]" header = true -> Forall2 says lines items -> Forall distinct items -> goods items ->
  says next (Section [strip next]) -> latest sec_format items fs -> length fs <> 1 ->
  parse_sections t (pre ++ header :: lines ++ next :: rest) = Err EValue.
Proof.
  intros t pre header lines items next rest fs N H F D G SN LS L1. destruct (items_says t items D G) as (st' & E' & I). unfold parse_sections.
  induction N as [|l pre Z N IH]; cbn [app parse_sections_from]; [|rewrite Z; exact IH]. rewrite H. clear H.
  assert (B : item_step st' (Section [strip next]) = Err EValue).
  { apply (step_bad _ _ _ _ I). cbn [good]. intros (_ & fs' & L & _ & LL). apply (i_sec _ _ _ I) in L, LS. rewrite L in LS. injection LS as ->. cbn in LL. congruence. }
  clear I D G LS. revert E'. generalize (mkSections None None None t [] [] [] []) as st.
  induction F as [|line i lines items S F IH]; intros st E; cbn [app section_lines foldM] in *.
  - injection E as ->. pose proof (says_long _ _ SN). destruct (Nat.ltb_spec 2 (String.length next)); [|lia]. rewrite (says_step _ _ _ SN), B. reflexivity.
  - pose proof (says_long _ _ S). destruct (Nat.ltb_spec 2 (String.length line)); [|lia]. rewrite (says_step _ _ _ S).
    destruct (item_step st i) as [st1|]; [|discriminate]. cbn [bind]. now apply IH.
Qed.
Print Assumptions C104_header_refuted.

(** ** Examples *)
Definition nl := newline.
Definition demo : list string :=
  ["[GENERAL]" ++ nl; nl; "[SECTION]" ++ nl;
   "FORMAT_SECTION=SectionID,FromNodeID,ToNodeID,Phase" ++ nl; "FORMAT_FEEDER=NetworkID,HeadNodeID" ++ nl;
   "FEEDER=F1,N1" ++ nl; "S1,N1,N2,ABC" ++ nl; "s2, N2 ,N3,A" ++ nl; "Feeder=F2,M1" ++ nl; "s1,M1,M2,BC" ++ nl; nl; "[NODE]" ++ nl]%string.
Definition demo_items : list item :=
  [SecFormat ["sectionid"; "fromnodeid"; "tonodeid"; "phase"]; NetFormat ["networkid"; "headnodeid"];
   Network "feeder" ["F1"; ("N1" ++ nl)%string]; Section ["S1"; "N1"; "N2"; "ABC"]; Section ["s2"; "N2"; "N3"; "A"];
   Network "feeder" ["F2"; ("M1" ++ nl)%string]; Section ["s1"; "M1"; "M2"; "BC"]].


Lemma padded_same w : trimmed w -> padded w w.
Proof. intros T. exists "", "". rewrite CymeParseProofs.sapp_nil. repeat split; apply T. Qed.
Ltac ptrim := split; [intros c t E; injection E as <- _; reflexivity | intros c t E;
   repeat (destruct t as [|? t]; [injection E; intros; subst; reflexivity|injection E as _ E]); destruct t; discriminate].
Ltac pads := repeat (apply Forall2_cons; [|]); try apply Forall2_nil.
Lemma demo_file : network_file demo demo_items.
Proof.
  exists ["[GENERAL]" ++ nl; nl]%string, ("[SECTION]" ++ nl)%string.
  exists (firstn 7 (skipn 3 demo)), nl, ["[NODE]" ++ nl]%string.
  split; [reflexivity|]. split; [repeat constructor|]. split; [reflexivity|]. split; [|cbn; lia].
  assert (W : forall w, trimmed w -> padded w w) by apply padded_same.
  assert (WN : forall w, trimmed w -> padded (w ++ nl) w) by (intros w T; exists "", nl; repeat split; apply T).
  pads; cbn [says].
  - split; [reflexivity|]. exists "FORMAT_SECTION", ["SectionID"; "FromNodeID"; "ToNodeID"; ("Phase" ++ nl)%string], ["SectionID"; "FromNodeID"; "ToNodeID"; "Phase"].
    split; [|split; [|reflexivity]].
    + eexists. split; [reflexivity|]. split; [cbn; repeat split; discriminate|]. split; [cbn; repeat split; discriminate|].
      split; [discriminate|]. split; [reflexivity|]. repeat constructor; cbn; discriminate.
    + pads; [apply W|apply W|apply W|apply WN]; ptrim.
  - split; [reflexivity|]. split; [reflexivity|]. exists "FORMAT_FEEDER", ["NetworkID"; ("HeadNodeID" ++ nl)%string], ["NetworkID"; "HeadNodeID"].
    split; [|split; [|reflexivity]].
    + eexists. split; [reflexivity|]. split; [cbn; repeat split; discriminate|]. split; [cbn; repeat split; discriminate|].
      split; [discriminate|]. split; [reflexivity|]. repeat constructor; cbn; discriminate.
    + pads; [apply W|apply WN]; ptrim.
  - split; [reflexivity|]. split; [reflexivity|]. split; [now left|]. exists "FEEDER". split; [reflexivity|].
    eexists. split; [reflexivity|]. split; [cbn; repeat split; discriminate|]. split; [cbn; repeat split; discriminate|].
    split; [discriminate|]. split; [reflexivity|]. repeat constructor; cbn; discriminate.
  - split; [reflexivity|]. split; [reflexivity|]. split; [intros k [<-|[<-|[<-|[]]]]; reflexivity|]. split; [cbn; lia|].
    exists ["S1"; "N1"; "N2"; ("ABC" ++ nl)%string]. split.
    + split; [discriminate|]. split; [reflexivity|]. repeat constructor; cbn; discriminate.
    + pads; [apply W|apply W|apply W|apply WN]; ptrim.
  - split; [reflexivity|]. split; [reflexivity|]. split; [intros k [<-|[<-|[<-|[]]]]; reflexivity|]. split; [cbn; lia|].
    exists ["s2"; " N2 "; "N3"; ("A" ++ nl)%string]. split.
    + split; [discriminate|]. split; [reflexivity|]. repeat constructor; cbn; discriminate.
    + pads; [apply W| exists " ", " "; split; [reflexivity|]; split; [now cbn|]; split; [now cbn|] |apply W|apply WN]; ptrim.
  - split; [reflexivity|]. split; [reflexivity|]. split; [now left|]. exists "Feeder". split; [reflexivity|].
    eexists. split; [reflexivity|]. split; [cbn; repeat split; discriminate|]. split; [cbn; repeat split; discriminate|].
    split; [discriminate|]. split; [reflexivity|]. repeat constructor; cbn; discriminate.
  - split; [reflexivity|]. split; [reflexivity|]. split; [intros k [<-|[<-|[<-|[]]]]; reflexivity|]. split; [cbn; lia|].
    exists ["s1"; "M1"; "M2"; ("BC" ++ nl)%string]. split.
    + split; [discriminate|]. split; [reflexivity|]. repeat constructor; cbn; discriminate.
    + pads; [apply W|apply W|apply W|apply WN]; ptrim.
Qed.

Lemma demo_distinct : Forall distinct demo_items.
Proof.
  repeat constructor; cbn; intros H; repeat (destruct H as [H|H]; [discriminate|]); exact H.
Qed.
Lemma demo_good : goods demo_items.
Proof. eapply (items_good None); [apply demo_distinct|reflexivity]. Qed.

(** A file with two feeders, one of which takes over a section of the other. *)
Example C104_hypotheses_met : network_file demo demo_items /\ Forall distinct demo_items /\ goods demo_items /\
  exists st, parse_sections None demo = Ok st /\
    s_section_feeder st = [("s1", "f2"); ("s2", "f1")] /\ s_type st = Some "feeder" /\
    map (fun r => dget (snd r) "fromnodeid") (s_section_phase st) = [Some "M1"; Some "N2"].
Proof.
  split; [exact demo_file|]. split; [exact demo_distinct|]. split; [exact demo_good|]. eexists. split; [vm_compute; reflexivity|]. now repeat split.
Qed.

(** The feeder of the sections is named with the line ending when the id of the network is its last column. *)
Theorem C104_name_refuted : exists content st, parse_sections None content = Ok st /\
  In ("FEEDER=N1,F1" ++ nl)%string content /\ dget (s_section_feeder st) "s1" = Some ("f1" ++ nl)%string /\ dget (s_network_data st) "f1" = None.
Proof.
  exists ["[SECTION]" ++ nl; "FORMAT_SECTION=SectionID,FromNodeID,ToNodeID,Phase" ++ nl; "FORMAT_FEEDER=HeadNodeID,NetworkID" ++ nl;
   "FEEDER=N1,F1" ++ nl; "S1,N1,N2,ABC" ++ nl; nl]%string.
  eexists. split; [vm_compute; reflexivity|]. split; [do 3 right; now left|]. now split.
Qed.
Print Assumptions C104_name_refuted.

(** The refutations and the refusal apply: the file above without its last lines, with a header instead of the empty
    line, and with a section before the networks. *)
Example C104_refuted_met :
  parse_sections None (firstn 10 demo) = Err EStop /\
  parse_sections None (firstn 10 demo ++ skipn 11 demo) = Err EValue /\
  says ("[NODE]" ++ nl) (Section [strip ("[NODE]" ++ nl)]) /\
  ~ good (firstn 2 demo_items) (Section ["S1"; "N1"; "N2"; "ABC"]) /\
  exists st, parse_sections None demo = Ok st /\ dget (s_feeder_sections st) "f1" = Some [].
Proof.
  split; [reflexivity|]. split; [reflexivity|]. split; [|split].
  - split; [reflexivity|]. split; [reflexivity|]. split; [intros k [<-|[<-|[<-|[]]]]; reflexivity|]. split; [cbn; lia|].
    exists [("[NODE]" ++ nl)%string]. split.
    + split; [discriminate|]. split; [reflexivity|]. repeat constructor; cbn; discriminate.
    + pads. exists "", nl. split; [reflexivity|]. split; [exact I|]. split; [now cbn|]. change (strip ("[NODE]" ++ nl)) with "[NODE]". ptrim.
  - intros ((w & a & i & b & E & [P _] & _) & _). assert (H : In i (firstn 2 demo_items)) by (rewrite E; apply in_or_app; right; now left).
    subst i. destruct H as [H|[H|[]]]; discriminate.
  - eexists. split; [vm_compute; reflexivity|]. reflexivity.
Qed.
