(** C37: switches opened and closed from a DSS file. *)
From Verif Require Import Base StoreModel NetworkModel NetworkSpec NetworkTop CsvModel CsvSpec TextModel SwitchModel SwitchSpec SwitchProofs.
Local Open Scope string_scope.
Local Open Scope nat_scope.
Local Open Scope list_scope.

(** For every file of well-formed lines: an object no switch line names is unchanged; for the others
    the last switch line decides: all wires open if its r1 is 1e11, all closed otherwise. *)
Theorem C37_effect : forall es ws rs, (forall r, In r rs -> wf_dss r) ->
  exists ws', open_close_switches es (map render_dss rs) ws = (ws', None) /\ length ws' = length ws /\
    (forall p, (forall r, In r rs -> ~ switches es r p) -> nth_error ws' p = nth_error ws p) /\
    (forall p a r b, rs = a ++ r :: b -> switches es r p -> (forall r', In r' b -> ~ switches es r' p) ->
       (says r "r1" "1e11" -> nth_error ws' p = option_map (opened true) (nth_error ws p)) /\
       (~ says r "r1" "1e11" -> nth_error ws' p = option_map (opened false) (nth_error ws p))).
Proof. exact switch_effect. Qed.
Print Assumptions C37_effect.

(** Lines without an object, or with a word that assigns nothing, raise IndexError. *)
Theorem C37_bad_line : forall line,
  free " " line \/ (exists c o x, line = (c ++ String " " (o ++ x))%string /\ free " " c /\ free " " o /\ free "." o /\ (x = "" \/ exists y, x = String " " y)) ->
  parse_line line = Err EIndex.
Proof. exact parse_bad. Qed.
Print Assumptions C37_bad_line.
Theorem C37_bad_token : forall r t, wf_dss r -> d_end r = "" -> solid t -> free "=" t -> parse_line (render_dss r ++ String " " t)%string = Err EIndex.
Proof. exact parse_bad_token. Qed.
Print Assumptions C37_bad_token.

(** Such a line ends the run; the lines before it have had their effect. *)
Theorem C37_stops : forall es ws rs line rest ws1, open_close_switches es (map render_dss rs) ws = (ws1, None) -> parse_line line = Err EIndex ->
  open_close_switches es (map render_dss rs ++ line :: rest) ws = (ws1, Some EIndex).
Proof. exact switch_malformed. Qed.
Print Assumptions C37_stops.

(** A resistance of 1e11 written otherwise, or Switch=Y in capitals, is not recognised: "r1 equals 1e11"
    is a comparison of texts. *)
Definition one_switch (props : list (string * string)) : dss := mkDss "New" "Line" "L1" props newline.
(** Other spellings of the resistance or of the property are not recognised. *)
Theorem C37_numeric_refuted :
  let es := [xline "l1" "a" "b" 1] in
  open_close_switches es [render_dss (one_switch [("switch", "y"); ("r1", "1E11")])] [Some (Some [None])] = ([Some (Some [Some false])], None) /\
  open_close_switches es [render_dss (one_switch [("switch", "y"); ("r1", "100000000000")])] [Some (Some [None])] = ([Some (Some [Some false])], None) /\
  open_close_switches es [render_dss (one_switch [("Switch", "Y"); ("r1", "1e11")])] [Some (Some [None])] = ([Some (Some [None])], None).
Proof. repeat split; reflexivity. Qed.
Print Assumptions C37_numeric_refuted.

Example C37_hypotheses_met :
  let r1 := mkDss "New" "Line" "L1" [("bus1", "a.1.2"); ("Switch", "y"); ("R1", "1e11")] newline in
  let r2 := mkDss "New" "Line" "l2" [("switch", "no"); ("r1", "1e11")] newline in
  let r3 := mkDss "New" "Line" "L3" [("r1", "1e11"); ("switch", "true"); ("r1", "0.1")] "" in
  let es := [xline "l1" "a" "b" 1; xline "l2" "b" "c" 1; xline "l3" "c" "d" 1] in
  wf_dss r1 /\ wf_dss r2 /\ wf_dss r3 /\ switches es r1 0 /\ says r1 "r1" "1e11" /\
  open_close_switches es (map render_dss [r1; r2; r3]) [Some (Some [None; Some false]); Some (Some [None]); Some (Some [Some true; None; None])] =
    ([Some (Some [Some true; Some true]); Some (Some [None]); Some (Some [Some false; Some false; Some false])], None).
Proof.
  assert (W : forall n p e, solid n -> free "." n -> (forall k v, In (k, v) p -> (solid k /\ free "=" k) /\ (solid v /\ free "=" v)) -> e = "" \/ e = newline -> wf_dss (mkDss "New" "Line" n p e)).
  { intros n p e H1 H2 H3 H4. unfold wf_dss. cbn [d_cmd d_class d_name d_props d_end]. split; [repeat split|]. split; [split; [repeat split|cbn; repeat split; discriminate]|]. auto. }
  intros r1 r2 r3 es. split; [|split; [|split; [|split; [|split]]]].
  1-3: apply W; [repeat split|cbn; repeat split; discriminate| |auto]; intros k v H; cbn [In] in H;
       repeat (destruct H as [H|H]; [injection H as <- <-; cbn; repeat split; discriminate|]); destruct H.
  - split; [|apply NetworkDown.lookup_spec; reflexivity]. exists "y". split; [|left; reflexivity]. exists [("bus1", "a.1.2")], "Switch", [("R1", "1e11")]. split; [reflexivity|]. split; [reflexivity|].
    intros k' v' [H|[]]. injection H as <- <-. discriminate.
  - exists [("bus1", "a.1.2"); ("Switch", "y")], "R1", []. split; [reflexivity|]. split; [reflexivity|]. intros k' v' [].
  - reflexivity.
Qed.
