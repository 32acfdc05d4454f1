From Coq Require Import List String Bool Arith QArith Lia.
From Verif Require Import Base BaseFacts CsvModel SectionModel SectionSpec SectionProofs.
Import ListNotations.
Local Open Scope string_scope.
Local Open Scope nat_scope.
Local Open Scope list_scope.

(** C43: every section with several elements and a connector becomes a chain from its from node to its to node: regulators,
    then transformers, then lines, over new nodes that are exactly the ones created; loads, storages and capacitors hang
    on the to node; everything else (other sections, sections with a single element or without a connector,
    photovoltaics) is left as it was. *)
Theorem C43_series : forall (positions : string -> res (option (list point))) (s : sections) (secs : list (list nat)),
  NoDup (concat secs) -> (forall p, In p (concat secs) -> p < length (sc_els s)) ->
  (forall sec, In sec secs -> 1 < length sec -> (exists p, In p sec /\ connects (cls (sc_els s) p)) ->
     exists f t ps, shared_ends (sc_els s) sec f t /\ positions f = Ok ps) ->
  exists s' nss, fix_section_overlaps positions s secs = (s', None) /\
    length (sc_els s') = length (sc_els s) /\
    (forall p, ~ In p (concat secs) -> el_at (sc_els s') p = el_at (sc_els s) p) /\
    sc_nodes s' = sc_nodes s ++ concat nss /\
    Forall2 (section_fixed positions (sc_els s) (sc_els s')) secs nss.
Proof. intros positions s secs ND L R. exact (fix_all_spec positions secs s ND L R). Qed.
Print Assumptions C43_series.

(** With at most one regulator the new nodes are different from each other and from the from node, so no element is
    short-circuited. *)
Theorem C43_separate_nodes : forall positions s sec f t ps,
  NoDup sec -> (forall p, In p sec -> p < length (sc_els s)) -> 1 < length sec -> shared_ends (sc_els s) sec f t ->
  positions f = Ok ps -> regulators (sc_els s) sec <= 1 ->
  exists s' ms, fix_section_overlaps positions s [sec] = (s', None) /\ in_series (sc_els s) (sc_els s') sec f t ms /\
    NoDup (f :: ms).
Proof. intros positions s sec f t ps ND L LT SH PO RG. exact (separate_nodes positions s sec f t ND L LT SH RG ps PO). Qed.
Print Assumptions C43_separate_nodes.

(** A from node that the model does not have ends the run with the exception of the lookup, before its section and the
    following ones are touched. *)
Theorem C43_unknown_node : forall positions s sec rest f t x,
  1 < length sec -> shared_ends (sc_els s) sec f t -> positions f = Err x ->
  fix_section_overlaps positions s (sec :: rest) = (s, Some x).
Proof.
  intros positions s sec rest f t x LT SH PO. unfold fix_section_overlaps. cbn [filter].
  replace (1 <? length sec) with true by (symmetry; apply Nat.ltb_lt; exact LT). cbn [fix_all].
  unfold fix_section. cbv zeta. rewrite (ends_some _ _ _ _ SH), PO. reflexivity.
Qed.
Print Assumptions C43_unknown_node.

(** A section with a line, a regulator, a load, a transformer and a photovoltaic; another with a single line. *)
Definition line f t := mkElement "Line" (Some f) (Some t) None.
Definition reg f t := mkElement "Regulator" (Some f) (Some t) None.
Definition xsec : sections := mkSections
  [line "a" "b"; reg "a" "b"; mkElement "Load" None None (Some "a"); mkElement "PowerTransformer" (Some "a") (Some "b") None;
   mkElement "Photovoltaic" None None (Some "a"); line "b" "c"] [].
Definition xpos (s : string) : res (option (list point)) := Ok (Some [(Some 1%Q, Some 2%Q)]).
Definition xsecs := [[0; 1; 2; 3; 4]; [5]].

Example C43_hypotheses_met :
  (NoDup (concat xsecs) /\ (forall p, In p (concat xsecs) -> p < length (sc_els xsec)) /\
   (forall sec, In sec xsecs -> 1 < length sec -> (exists p, In p sec /\ connects (cls (sc_els xsec) p)) ->
     exists f t ps, shared_ends (sc_els xsec) sec f t /\ xpos f = Ok ps)) /\
  (NoDup [0; 1; 2; 3; 4] /\ shared_ends (sc_els xsec) [0; 1; 2; 3; 4] "a" "b" /\ regulators (sc_els xsec) [0; 1; 2; 3; 4] <= 1) /\
  fix_section_overlaps xpos xsec xsecs = (mkSections
    [line "a_sec_1" "b"; reg "a" "a_reg"; mkElement "Load" None None (Some "b");
     mkElement "PowerTransformer" (Some "a_reg") (Some "a_sec_1") None; mkElement "Photovoltaic" None None (Some "a"); line "b" "c"]
    [("a_reg", Some [(Some 1%Q, Some 2%Q)]); ("a_sec_1", Some [(Some 1%Q, Some 2%Q)])], None).
Proof.
  assert (SH : shared_ends (sc_els xsec) [0; 1; 2; 3; 4] "a" "b").
  { split; [exists 0; split; [left; reflexivity|discriminate]|].
    intros p [<-|[<-|[<-|[<-|[<-|[]]]]]] C; try (split; reflexivity); exfalso; apply C; reflexivity. }
  split; [split; [|split]|split; [split; [|split]|]].
  - cbn. repeat constructor; cbn; intuition congruence.
  - cbn. intros p H. intuition lia.
  - intros sec [<-|[<-|[]]] LT E; [|cbn in LT; lia]. exists "a", "b", (Some [(Some 1%Q, Some 2%Q)]). split; [exact SH|reflexivity].
  - repeat constructor; cbn; intuition congruence.
  - exact SH.
  - cbn. lia.
  - vm_compute. reflexivity.
Qed.

(** A bank of regulators (one Regulator per phase, lines 5127-5295) is not put between the same two nodes: the first one goes
    to the node "_reg", the following ones are loops at that node, and the node is created again for each. *)
Theorem C43_regulator_bank_refuted :
  fix_section_overlaps xpos (mkSections [line "a" "b"; reg "a" "b"; reg "a" "b"; reg "a" "b"] []) [[0; 1; 2; 3]] =
  (mkSections [line "a_reg" "b"; reg "a" "a_reg"; reg "a_reg" "a_reg"; reg "a_reg" "a_reg"]
     (let n := ("a_reg", Some [(Some 1%Q, Some 2%Q)]) in [n; n; n]), None).
Proof. vm_compute. reflexivity. Qed.

(** Two sections that leave the same node share their intermediate node: both end up connected behind their first
    elements. *)
Theorem C43_same_from_node_refuted :
  fix_section_overlaps xpos
    (mkSections [mkElement "PowerTransformer" (Some "a") (Some "b") None; line "a" "b";
                 mkElement "PowerTransformer" (Some "a") (Some "c") None; line "a" "c"] []) [[0; 1]; [2; 3]] =
  (mkSections [mkElement "PowerTransformer" (Some "a") (Some "a_sec_0") None; line "a_sec_0" "b";
               mkElement "PowerTransformer" (Some "a") (Some "a_sec_0") None; line "a_sec_0" "c"]
     (let n := ("a_sec_0", Some [(Some 1%Q, Some 2%Q)]) in [n; n]), None).
Proof. vm_compute. reflexivity. Qed.
