(** CYME code tables, headers, regulators and panel dimensions (C38-C40, C42, C44, C56). *)
From Coq Require Import QArith Reals Lra.
From Verif Require Import Base BaseFacts CymeMapModel CymeMapSpec CymeMapProofs CymeRegProofs.
Local Close Scope Q_scope.
Local Open Scope string_scope.
Local Open Scope list_scope.

(** ** C38: phase codes *)

(** Every non-empty set of phases has exactly one code. *)
Theorem C38_every_phase_set a b c : (a || b || c)%bool = true ->
  exists z, (1 <= z <= 7)%Z /\ phase_mapping (VInt z) = Ok (phase_set a b c) /\
    forall z', phase_mapping (VInt z') = Ok (phase_set a b c) -> z' = z.
Proof.
  intros H.
  assert (X : exists z, (1 <= z <= 7)%Z /\ phase_mapping (VInt z) = Ok (phase_set a b c)).
  { destruct a, b, c; try discriminate H; [exists 7%Z|exists 4%Z|exists 5%Z|exists 1%Z|exists 6%Z|exists 2%Z|exists 3%Z]; split; try lia; reflexivity. }
  destruct X as (z & R & E). exists z. split; [exact R|]. split; [exact E|]. intros z' E'. exact (phase_mapping_inj _ _ _ E' E).
Qed.
Print Assumptions C38_every_phase_set.

(** The codes are 0 (no phase) and 1..7 (a non-empty set); two codes never share a list, and every
    other number is a TypeError. *)
Theorem C38_codes_one_to_one z :
  (z = 0%Z -> phase_mapping (VInt z) = Ok [None]) /\
  ((1 <= z <= 7)%Z -> exists a b c, (a || b || c)%bool = true /\ phase_mapping (VInt z) = Ok (phase_set a b c)) /\
  (~ (0 <= z <= 7)%Z -> phase_mapping (VInt z) = Err EType) /\
  forall z' l, phase_mapping (VInt z) = Ok l -> phase_mapping (VInt z') = Ok l -> z = z'.
Proof.
  split; [intros ->; reflexivity|]. split; [|split; [exact (phase_mapping_outside z)|intros z' l; exact (phase_mapping_inj z z' l)]].
  intros H. destruct (z_codes z ltac:(lia)) as [->|[->|[->|[->|[->|[->|[->| ->]]]]]]]; [lia| | | | | | | ].
  - exists true, false, false. split; reflexivity.
  - exists false, true, false. split; reflexivity.
  - exists false, false, true. split; reflexivity.
  - exists true, true, false. split; reflexivity.
  - exists true, false, true. split; reflexivity.
  - exists false, true, true. split; reflexivity.
  - exists true, true, true. split; reflexivity.
Qed.
Print Assumptions C38_codes_one_to_one.

(** A string is taken letter by letter. *)
Theorem C38_strings s : exists cs, phase_mapping (VStr s) = Ok (map Some cs) /\
  Forall (fun x => String.length x = 1) cs /\ String.concat "" cs = s.
Proof. exists (chars s). split; [reflexivity|]. split; [apply chars_single|apply chars_concat]. Qed.
Print Assumptions C38_strings.

(** phase_to_num gives each single phase the code that phase_mapping reads back. *)
Theorem C38_phase_to_num p z : In (p, z) [("A", 1%Z); ("a", 1%Z); ("B", 2%Z); ("b", 2%Z); ("C", 3%Z); ("c", 3%Z)] ->
  exists d, phase_to_num (VStr p) = VStr d /\ String.length d = 1 /\ d = String (ascii_of_nat (48 + Z.to_nat z)) "" /\
    exists u, phase_mapping (VInt z) = Ok [Some u] /\ lower u = lower p.
Proof.
  intros H. repeat (destruct H as [E|H]; [injection E as <- <-; eexists; split; [reflexivity|]; split; [reflexivity|]; split; [reflexivity|]; eexists; split; reflexivity|]). destruct H.
Qed.
Print Assumptions C38_phase_to_num.

Example C38_hypotheses_met : phase_mapping (VInt 5) = Ok (phase_set true false true) /\ phase_mapping (VStr "CA") = Ok [Some "C"; Some "A"].
Proof. split; reflexivity. Qed.

(** ** C39: connection codes *)

(** The writer writes exactly the connections Y, D and Z, and the reader returns them. *)
Theorem C39_connection_round_trip v :
  (In v ["Y"; "D"; "Z"] <-> exists code, w_connection v = Ok code) /\
  forall code, w_connection v = Ok code -> connection_configuration_mapping (VStr code) = Ok (Some v).
Proof.
  unfold w_connection. destruct (String.eqb_spec v "Y") as [->|N1]; [split; [split; [eauto|cbn; auto]|intros ? E; injection E as <-; reflexivity]|].
  destruct (String.eqb_spec v "D") as [->|N2]; [split; [split; [eauto|cbn; auto]|intros ? E; injection E as <-; reflexivity]|].
  destruct (String.eqb_spec v "Z") as [->|N3]; [split; [split; [eauto|cbn; auto]|intros ? E; injection E as <-; reflexivity]|].
  split; [split; [cbn; intuition congruence|intros [? E]; discriminate E]|discriminate].
Qed.
Print Assumptions C39_connection_round_trip.

(** Transformer table: what is written for a pair is read back as that pair; all pairs of Y and D
    are written. *)
Theorem C39_transformer_round_trip_partial v1 v2 table : table <> "transformer_settings" ->
  (In v1 ["Y"; "D"] -> In v2 ["Y"; "D"] -> exists code, w_transformer_connection v1 v2 table = Ok code) /\
  forall code, w_transformer_connection v1 v2 table = Ok code ->
    transformer_connection_mapping (VStr code) 0 = Ok (Some v1) /\ transformer_connection_mapping (VStr code) 1 = Ok (Some v2).
Proof.
  intros T. apply String.eqb_neq in T. unfold w_transformer_connection. rewrite T. split.
  - intros [<-|[<-|[]]] [<-|[<-|[]]]; eexists; reflexivity.
  - destruct (String.eqb_spec v1 "Y") as [->|N1]; [|destruct (String.eqb_spec v1 "D") as [->|N2]; [|intros code E; discriminate E]];
    (destruct (String.eqb_spec v2 "Y") as [->|M1]; [|destruct (String.eqb_spec v2 "D") as [->|M2]; [|destruct (String.eqb_spec v2 "Z") as [->|M3]]]);
    intros code E; try discriminate E; injection E as <-; split; reflexivity.
Qed.
Print Assumptions C39_transformer_round_trip_partial.

(** Pairs with a Z secondary, which the reader can produce, cannot be written. *)
Theorem C39_z_secondary_refuted : exists v1 code,
  transformer_connection_mapping (VStr code) 0 = Ok (Some v1) /\ transformer_connection_mapping (VStr code) 1 = Ok (Some "Z") /\
  forall table, w_transformer_connection v1 "Z" table = Err EKey.
Proof.
  exists "Y", "11". split; [reflexivity|]. split; [reflexivity|]. intros t. unfold w_transformer_connection.
  destruct (String.eqb t "transformer_settings"); reflexivity.
Qed.
Print Assumptions C39_z_secondary_refuted.

Example C39_hypotheses_met : w_transformer_connection "D" "D" "transformer" = Ok "4" /\ w_connection "Z" = Ok "5".
Proof. split; reflexivity. Qed.

(** ** C40: load values *)

Local Open Scope R_scope.

(** KW_KVAR: the identity. *)
Theorem C40_kw_kvar (A : Type) (to_float : A -> option R) t a1 a2 p q :
  (t = VInt 0 \/ t = VStr "0" \/ exists s, t = VStr s /\ lower s = "kw_kvar"%string) -> to_float a1 = Some p -> to_float a2 = Some q ->
  load_value_type_mapping A to_float t a1 a2 = Ok (Some (p, Some q)).
Proof.
  intros H E1 E2. unfold load_value_type_mapping. rewrite E1, E2. cbn [of_opt bind].
  destruct H as [->|[->|(s & -> & E)]]; [reflexivity|reflexivity|]. rewrite E. change (String.eqb "kw_kvar" "kw_kvar") with true. rewrite orb_true_r. reflexivity.
Qed.
Print Assumptions C40_kw_kvar.

(** KVA_PF: P = S pf and P^2 + Q^2 = S^2. *)
Theorem C40_kva_pf (A : Type) (to_float : A -> option R) t a1 a2 s pf :
  (t = VInt 1 \/ t = VStr "1" \/ exists x, t = VStr x /\ lower x = "kva_pf"%string) -> to_float a1 = Some s -> to_float a2 = Some pf ->
  -1 <= pf <= 1 ->
  exists p q, load_value_type_mapping A to_float t a1 a2 = Ok (Some (p, Some q)) /\ p = s * pf /\ p * p + q * q = s * s /\ (0 <= s -> 0 <= q).
Proof.
  intros H E1 E2 R. destruct (kva_pf_spec s pf R) as (p & q & E & P & Q).
  assert (L : load_value_type_mapping A to_float t a1 a2 = kva_pf s pf).
  { unfold load_value_type_mapping. rewrite E1, E2. cbn [of_opt bind]. destruct H as [->|[->|(x & -> & Ex)]]; [reflexivity|reflexivity|].
    rewrite Ex. destruct (String.eqb_spec x "0") as [->|_]; [discriminate Ex|]. change (String.eqb "kva_pf" "kw_kvar") with false.
    change (String.eqb "kva_pf" "kva_pf") with true. rewrite orb_true_r. reflexivity. }
  exists p, q. split; [rewrite L; exact E|]. split; [exact P|]. split; [exact Q|]. intros Hs. unfold kva_pf in E.
  rewrite np_sqrt_ok in E by (apply pf_range; exact R). cbn [scaled] in E. injection E as _ <-. apply Rmult_le_pos; [exact Hs|apply sqrt_pos].
Qed.
Print Assumptions C40_kva_pf.

(** KW_PF: P is kept and the power factor of (P, Q) is |pf|. *)
Theorem C40_kw_pf (A : Type) (to_float : A -> option R) t a1 a2 p pf :
  (t = VInt 2 \/ t = VStr "2" \/ exists x, t = VStr x /\ lower x = "kw_pf"%string) -> to_float a1 = Some p -> to_float a2 = Some pf ->
  -1 <= pf <= 1 -> pf <> 0 ->
  exists q, load_value_type_mapping A to_float t a1 a2 = Ok (Some (p, Some q)) /\
    p * p = pf * pf * (p * p + q * q) /\ (0 < p -> p / sqrt (p * p + q * q) = Rabs pf).
Proof.
  intros H E1 E2 R N. destruct (kw_pf_spec p pf R N) as (q & E & Q).
  assert (L : load_value_type_mapping A to_float t a1 a2 = kw_pf p pf).
  { unfold load_value_type_mapping. rewrite E1, E2. cbn [of_opt bind]. destruct H as [->|[->|(x & -> & Ex)]]; [reflexivity|reflexivity|].
    rewrite Ex. destruct (String.eqb_spec x "0") as [->|_]; [discriminate Ex|]. destruct (String.eqb_spec x "1") as [->|_]; [discriminate Ex|].
    change (String.eqb "kw_pf" "kw_kvar") with false. change (String.eqb "kw_pf" "kva_pf") with false.
    change (String.eqb "kw_pf" "kw_pf") with true. rewrite orb_true_r. reflexivity. }
  exists q. split; [rewrite L; exact E|]. split; [exact Q|]. intros Hp. apply pf_ratio; assumption.
Qed.
Print Assumptions C40_kw_pf.

(** AMP_PF raises; a value that is no number raises ValueError whatever the type. *)
Theorem C40_errors (A : Type) (to_float : A -> option R) t a1 a2 :
  (to_float a1 = None \/ to_float a2 = None -> load_value_type_mapping A to_float t a1 a2 = Err EValue) /\
  (to_float a1 <> None -> to_float a2 <> None ->
   (t = VInt 3 \/ t = VStr "3" \/ exists x, t = VStr x /\ lower x = "amp_pf"%string) ->
   load_value_type_mapping A to_float t a1 a2 = Err ENotImpl).
Proof.
  unfold load_value_type_mapping. split.
  - intros [->| ->]; [reflexivity|]. destruct (to_float a1); reflexivity.
  - intros N1 N2 H. destruct (to_float a1); [|contradiction]. destruct (to_float a2); [|contradiction]. cbn [of_opt bind].
    destruct H as [->|[->|(x & -> & Ex)]]; [reflexivity|reflexivity|]. rewrite Ex.
    destruct (String.eqb_spec x "0") as [->|_]; [discriminate Ex|]. destruct (String.eqb_spec x "1") as [->|_]; [discriminate Ex|]. destruct (String.eqb_spec x "2") as [->|_]; [discriminate Ex|].
    change (String.eqb "amp_pf" "kw_kvar") with false. change (String.eqb "amp_pf" "kva_pf") with false. change (String.eqb "amp_pf" "kw_pf") with false.
    change (String.eqb "amp_pf" "amp_pf") with true. rewrite orb_true_r. reflexivity.
Qed.
Print Assumptions C40_errors.

Example C40_hypotheses_met :
  (exists x, VStr "KVA_PF" = VStr x /\ lower x = "kva_pf"%string) /\ (-1 <= 4 / 5 <= 1) /\ 4 / 5 <> 0 /\
  exists p q, load_value_type_mapping R Some (VStr "KVA_PF") 10 (4 / 5) = Ok (Some (p, Some q)) /\ p = 8 /\ q = 6.
Proof.
  split; [eexists; split; reflexivity|]. split; [lra|]. split; [lra|].
  destruct (C40_kva_pf R Some (VStr "KVA_PF") 10 (4 / 5) 10 (4 / 5)) as (p & q & E & P & Q & S); [right; right; eexists; split; reflexivity|reflexivity|reflexivity|lra|].
  exists p, q. split; [exact E|]. split; [lra|]. assert (0 <= q) by (apply S; lra). subst p. nra.
Qed.

Local Close Scope R_scope.

(** ** C42: merging single-phase regulators *)

(** Records of equal width: one output record per section; a column that holds a value and zeros
    gets the value; a column of distinct single phases gets each of them exactly once. *)
Theorem C42_merge_regulators w rs : Forall record rs -> Forall (fun r => length r = w) rs -> exists outs,
  merge_regulators (map text rs) = Ok (map text outs) /\ Forall record outs /\ Forall (fun r => length r = w) outs /\
  NoDup (map section_of outs) /\
  (forall s, In s (map section_of outs) <-> In s (map section_of rs)) /\
  (forall o i v, In o outs -> (forall x, column rs (section_of o) i x -> x = "0" \/ x = v) -> column rs (section_of o) i v -> nth_error o i = Some v) /\
  (forall o i, In o outs -> i < w -> NoDup (map (fun r => nth i r "") (filter (fun r => String.eqb (section_of r) (section_of o)) rs)) ->
     (forall x, column rs (section_of o) i x -> In x ["A"; "B"; "C"]) ->
     exists f, nth_error o i = Some f /\
       forall c, (column rs (section_of o) i (String c "") -> count_char c f = 1) /\ (~ column rs (section_of o) i (String c "") -> count_char c f = 0)).
Proof. exact (regulators w rs). Qed.
Print Assumptions C42_merge_regulators.

(** Fields that differ and are neither phases nor zero are blanked. *)
Theorem C42_different_values_refuted :
  merge_regulators ["s1,A,7200,10"; "s1,B,7200,12"] = Ok ["s1,AB,7200,"].
Proof. reflexivity. Qed.
Print Assumptions C42_different_values_refuted.

(** A three-phase record loses its phases when merged with a single-phase one. *)
Theorem C42_three_phase_refuted : merge_regulators ["s1,ABC"; "s1,A"] = Ok ["s1,"].
Proof. reflexivity. Qed.
Print Assumptions C42_three_phase_refuted.

Example C42_hypotheses_met :
  let rs := [["s1"; "A"; "0"]; ["s2"; "B"; "9"]; ["s1"; "C"; "5"]] in
  Forall record rs /\ Forall (fun r => length r = 3) rs /\ merge_regulators (map text rs) = Ok ["s1,AC,5"; "s2,B,9"] /\
  (forall x, column rs "s1" 2 x -> x = "0" \/ x = "5") /\ column rs "s1" 2 "5" /\ (forall x, column rs "s1" 1 x -> In x ["A"; "B"; "C"]).
Proof.
  assert (F : forall s, count_char "," s = 0 -> comma_free s) by (intros s; apply comma_free_count).
  cbv zeta. split; [repeat constructor; try discriminate; apply F; reflexivity|]. split; [repeat constructor|]. split; [reflexivity|].
  assert (C : forall i x, column [["s1"; "A"; "0"]; ["s2"; "B"; "9"]; ["s1"; "C"; "5"]] "s1" i x -> nth_error ["s1"; "A"; "0"] i = Some x \/ nth_error ["s1"; "C"; "5"] i = Some x).
  { intros i x (r & [<-|[<-|[<-|[]]]] & S & E); [left; exact E|discriminate S|right; exact E]. }
  split; [intros x H; destruct (C _ _ H) as [E|E]; injection E as <-; auto|]. split; [exists ["s1"; "C"; "5"]; cbn; auto|].
  intros x H. destruct (C _ _ H) as [E|E]; injection E as <-; cbn; auto.
Qed.

(** ** C44: customising headers *)

(** An object given a new header is recognised exactly on the lines that contain the header. *)
Theorem C44_updated_recognised_partial m upd k value h line : dget m k = Some value -> dget upd k = Some (HStr h) -> ~ In (HStr h) value ->
  exists b, check_object_in_line (update_header_mapping m upd) line k = Ok b /\ (b = true <-> occurs h line).
Proof.
  intros E U N. exists (substr_in h line). split; [|apply substr_in_spec]. unfold check_object_in_line. rewrite (dget_update _ _ _ _ E), U, (not_listed _ _ N).
  cbn [mapM bind existsb]. rewrite orb_false_r. reflexivity.
Qed.
Print Assumptions C44_updated_recognised_partial.

(** After any update every other object, and every object whose "new" header is one it had, can
    no longer be recognised: TypeError on every line. *)
Theorem C44_other_objects_refuted m upd k value line : dget m k = Some value ->
  (dget upd k = None \/ exists h, dget upd k = Some (HStr h) /\ In (HStr h) value) ->
  check_object_in_line (update_header_mapping m upd) line k = Err EType.
Proof.
  intros E [U|(h & U & L)]; unfold check_object_in_line; rewrite (dget_update _ _ _ _ E), U; [reflexivity|]. rewrite (listed _ _ L). reflexivity.
Qed.
Print Assumptions C44_other_objects_refuted.

Example C44_hypotheses_met :
  let m := [("node", [HStr "[NODE]"]); ("source", [HStr "[SOURCE]"])] in
  let m' := update_header_mapping m [("node", HStr "[BUS]")] in
  check_object_in_line m "[SOURCE]" "source" = Ok true /\ check_object_in_line m' "[BUS]" "node" = Ok true /\
  check_object_in_line m' "[NODE]" "node" = Ok false /\ check_object_in_line m' "[SOURCE]" "source" = Err EType.
Proof. repeat split; reflexivity. Qed.

(** ** C56: panel dimensions *)

(** The two results are positive integers with product [n]. *)
Theorem C56_product n : (1 <= n)%Z -> exists a b, smallest_perimeter n = Ok (inject_Z a, (inject_Z n / inject_Z a)%Q) /\
  (1 <= a)%Z /\ (1 <= b)%Z /\ (a * b = n)%Z /\ (inject_Z n / inject_Z a == inject_Z b)%Q.
Proof. exact (smallest_perimeter_factors n). Qed.
Print Assumptions C56_product.

(** Despite the name the perimeter is not always the smallest: 210 = 7 x 30, but 14 x 15 is smaller. *)
Theorem C56_smallest_refuted : exists a b, smallest_perimeter 210 = Ok (a, b) /\ (a == 7)%Q /\ (b == 30)%Q.
Proof. eexists; eexists. split; [vm_compute; reflexivity|]. split; reflexivity. Qed.
Print Assumptions C56_smallest_refuted.

Example C56_hypotheses_met : exists a b, smallest_perimeter 36 = Ok (a, b) /\ (a * b == 36)%Q /\ (a == 9)%Q.
Proof. eexists; eexists. split; [vm_compute; reflexivity|]. split; reflexivity. Qed.

(** ** C61: the tables of connections *)
Local Open Scope string_scope.

Lemma lower_not s n c : lower s = n -> lower c <> n -> String.eqb s c = false.
Proof. intros L N. apply String.eqb_neq. intros ->. contradiction. Qed.
Ltac codes L := rewrite ?L; rewrite ?(lower_not _ _ "0" L ltac:(discriminate)), ?(lower_not _ _ "1" L ltac:(discriminate)), ?(lower_not _ _ "2" L ltac:(discriminate)), ?(lower_not _ _ "3" L ltac:(discriminate)),
  ?(lower_not _ _ "4" L ltac:(discriminate)), ?(lower_not _ _ "5" L ltac:(discriminate)), ?(lower_not _ _ "6" L ltac:(discriminate)), ?(lower_not _ _ "7" L ltac:(discriminate)), ?(lower_not _ _ "8" L ltac:(discriminate)),
  ?(lower_not _ _ "9" L ltac:(discriminate)), ?(lower_not _ _ "10" L ltac:(discriminate)), ?(lower_not _ _ "11" L ltac:(discriminate)), ?(lower_not _ _ "12" L ltac:(discriminate)).

(** A single connection: by its code or its name in any letter case; CT and Dg are refused, anything else is None. *)
Theorem C61_connection :
  (forall z c n r, In (z, c, n, r) connection_table ->
     connection_configuration_mapping (VInt z) = Ok (Some r) /\ forall s, spelt c n s -> connection_configuration_mapping (VStr s) = Ok (Some r)) /\
  (forall z, z = 6%Z \/ z = 7%Z -> connection_configuration_mapping (VInt z) = Err ENotImpl) /\
  (forall s, spelt "6" "ct" s \/ spelt "7" "dg" s -> connection_configuration_mapping (VStr s) = Err ENotImpl) /\
  (forall z, ~ (0 <= z <= 7)%Z -> connection_configuration_mapping (VInt z) = Ok None) /\
  (forall s, (forall z c n r, In (z, c, n, r) connection_table -> ~ spelt c n s) -> ~ spelt "6" "ct" s -> ~ spelt "7" "dg" s -> connection_configuration_mapping (VStr s) = Ok None).
Proof.
  split; [|split; [|split; [|split]]].
  - intros z c n r H. unfold connection_table in H. cbn [In] in H.
    repeat (destruct H as [E|H]; [injection E as <- <- <- <-; split; [reflexivity|]; intros s [->|L]; [reflexivity|]; unfold connection_configuration_mapping, low_is; codes L; reflexivity|]). destruct H.
  - intros z [->| ->]; reflexivity.
  - intros s [[->|L]|[->|L]]; try reflexivity; unfold connection_configuration_mapping, low_is; codes L; reflexivity.
  - intros z N. unfold connection_configuration_mapping. repeat (match goal with |- context [Z.eqb z ?k] => destruct (Z.eqb_spec z k) as [->|?]; [lia|cbn [orb]] end). reflexivity.
  - intros s N N6 N7. unfold connection_configuration_mapping, low_is.
    assert (K' : forall c n, ~ spelt c n s -> String.eqb s c = false /\ String.eqb (lower s) n = false) by (intros c n H; unfold spelt in H; split; apply String.eqb_neq; tauto).
    assert (K : forall z c n r, In (z, c, n, r) connection_table -> String.eqb s c = false /\ String.eqb (lower s) n = false) by (intros z c n r H; apply K'; exact (N z c n r H)).
    destruct (K' _ _ N6) as [-> ->]. destruct (K' _ _ N7) as [-> ->].
    destruct (K 0%Z "0" "yg" "Y") as [-> ->]; [cbn; auto 10|]. destruct (K 1%Z "1" "y" "Y") as [-> ->]; [cbn; auto 10|]. destruct (K 2%Z "2" "delta" "D") as [-> ->]; [cbn; auto 10|].
    destruct (K 3%Z "3" "open delta" "D") as [-> ->]; [cbn; auto 10|]. destruct (K 4%Z "4" "closed delta" "D") as [-> ->]; [cbn; auto 10|]. destruct (K 5%Z "5" "zg" "Z") as [-> ->]; [cbn; auto 10|]. reflexivity.
Qed.
Print Assumptions C61_connection.

(** The two windings of a transformer. *)
Theorem C61_transformer :
  (forall z c n a b, In (z, c, n, (a, b)) pair_table ->
     transformer_connection_mapping (VInt z) 0 = Ok (Some a) /\ transformer_connection_mapping (VInt z) 1 = Ok (Some b) /\
     forall s, spelt c n s -> transformer_connection_mapping (VStr s) 0 = Ok (Some a) /\ transformer_connection_mapping (VStr s) 1 = Ok (Some b)) /\
  (forall z w, ~ (0 <= z <= 12)%Z -> w = 0%Z \/ w = 1%Z -> transformer_connection_mapping (VInt z) w = Ok None) /\
  (forall s w, (forall z c n r, In (z, c, n, r) pair_table -> ~ spelt c n s) -> w = 0%Z \/ w = 1%Z -> transformer_connection_mapping (VStr s) w = Ok None) /\
  (forall v w, w <> 0%Z -> w <> 1%Z -> transformer_connection_mapping v w = Err EValue).
Proof.
  split; [|split; [|split]].
  - intros z c n a b H. unfold pair_table in H. cbn [In] in H.
    repeat (destruct H as [E|H]; [injection E as <- <- <- <- <-; split; [reflexivity|]; split; [reflexivity|]; intros s [->|L]; [split; reflexivity|]; unfold transformer_connection_mapping, pair_of_str, low_is; codes L; split; reflexivity|]). destruct H.
  - intros z w N W. unfold transformer_connection_mapping, pair_of_int. repeat (match goal with |- context [Z.eqb z ?k] => destruct (Z.eqb_spec z k) as [->|?]; [lia|cbn [orb]] end). destruct W as [->| ->]; reflexivity.
  - intros s w N W. unfold transformer_connection_mapping, pair_of_str, low_is.
    assert (K : forall z c n r, In (z, c, n, r) pair_table -> String.eqb s c = false /\ String.eqb (lower s) n = false).
    { intros z c n r H. specialize (N z c n r H). unfold spelt in N. split; apply String.eqb_neq; tauto. }
    assert (K' : Forall (fun e => String.eqb s (snd (fst (fst e))) = false /\ String.eqb (lower s) (snd (fst e)) = false) pair_table).
    { apply Forall_forall. intros [[[z c] n] r] H. exact (K z c n r H). }
    unfold pair_table in K'. repeat (match goal with H : Forall _ (_ :: _) |- _ => let A := fresh "A" in let B := fresh "B" in inversion H as [|? ? [A B] ?]; clear H; subst; cbn [fst snd] in A, B; rewrite A, B end).
    destruct W as [->| ->]; reflexivity.
  - intros v w N0 N1. unfold transformer_connection_mapping. destruct (Z.eqb_spec w 0); [contradiction|]. destruct (Z.eqb_spec w 1); [contradiction|]. reflexivity.
Qed.
Print Assumptions C61_transformer.

(** Capacitor banks, by number, digit or name; other numbers and texts are passed through. *)
Theorem C61_bank :
  (forall z c n r, In (z, c, n, r) bank_table -> capacitors_connection_mapping (VInt z) = Ok (VStr r) /\
     capacitors_connection_mapping (VStr c) = Ok (VStr r) /\ capacitors_connection_mapping (VStr n) = Ok (VStr r)) /\
  (forall z, ~ (0 <= z <= 2)%Z -> capacitors_connection_mapping (VInt z) = Ok (VInt z)) /\
  (forall s, (forall z c n r, In (z, c, n, r) bank_table -> s <> c /\ s <> n) -> capacitors_connection_mapping (VStr s) = Ok (VStr s)).
Proof.
  split; [|split].
  - intros z c n r H. unfold bank_table in H. cbn [In] in H. repeat (destruct H as [E|H]; [injection E as <- <- <- <-; repeat split; reflexivity|]). destruct H.
  - intros z N. unfold capacitors_connection_mapping, is_num, is_text. destruct (Z.eqb_spec z 0); [lia|]. destruct (Z.eqb_spec z 1); [lia|]. destruct (Z.eqb_spec z 2); [lia|]. reflexivity.
  - intros s N. unfold capacitors_connection_mapping, is_num, is_text.
    destruct (N 0%Z "0" "Y" "Y") as [A0 B0]; [cbn; auto|]. destruct (N 1%Z "1" "YNG" "Y") as [A1 B1]; [cbn; auto|]. destruct (N 2%Z "2" "D" "D") as [A2 B2]; [cbn; auto|].
    apply String.eqb_neq in A0, B0, A1, B1, A2, B2. rewrite A0, B0, A1, B1, A2, B2. reflexivity.
Qed.
Print Assumptions C61_bank.

(** What the writer writes for two windings, in the table of transformers and in that of their settings; it refuses
    every other pair. *)
Theorem C61_written :
  (forall a b t u, In (a, b, t, u) written_table -> w_transformer_connection a b "transformer_settings" = Ok u /\
     forall table, table <> "transformer_settings" -> w_transformer_connection a b table = Ok t) /\
  (forall a b table, (forall t u, ~ In (a, b, t, u) written_table) -> exists e, w_transformer_connection a b table = Err e).
Proof.
  split.
  - intros a b t u H. unfold written_table in H. cbn [In] in H.
    repeat (destruct H as [E|H]; [injection E as <- <- <- <-; split; [reflexivity|]; intros table N; apply String.eqb_neq in N; unfold w_transformer_connection; rewrite N; reflexivity|]). destruct H.
  - intros a b table N. unfold w_transformer_connection. set (m := if String.eqb table "transformer_settings" then setting_map else transformer_map).
    assert (M : dget m "Y_Z" = None /\ dget m "D_Z" = None) by (unfold m; destruct (String.eqb table "transformer_settings"); split; reflexivity). destruct M as [M1 M2]. rewrite M1, M2.
    destruct (String.eqb_spec a "Y") as [->|A1]; [|destruct (String.eqb_spec a "D") as [->|A2]]; (destruct (String.eqb_spec b "Y") as [->|B1]; [|destruct (String.eqb_spec b "D") as [->|B2]; [|destruct (String.eqb_spec b "Z") as [->|B3]]]); cbn;
      try (eexists; reflexivity); exfalso; eapply N; cbn; eauto 10.
Qed.
Print Assumptions C61_written.

(** The code of a delta-delta transformer in the settings is the code of a star-delta transformer in the table. *)
Theorem C61_settings_code_refuted : exists code, w_transformer_connection "D" "D" "transformer_settings" = Ok code /\ transformer_connection_mapping (VStr code) 0 = Ok (Some "Y").
Proof. eexists. split; reflexivity. Qed.
Print Assumptions C61_settings_code_refuted.

Example C61_hypotheses_met : spelt "3" "open delta" "Open Delta" /\ connection_configuration_mapping (VStr "Open Delta") = Ok (Some "D") /\
  transformer_connection_mapping (VStr "YNG_D") 1 = Ok (Some "D") /\ connection_configuration_mapping (VStr "wye") = Ok None /\ capacitors_connection_mapping (VStr "y") = Ok (VStr "y").
Proof. split; [right; reflexivity|]. repeat split; reflexivity. Qed.
