(** C133, C134: the commands "convert" and "metric". *)
From Verif Require Import Base BaseFacts ConvModel ConvSpec.
Local Open Scope string_scope.
Local Open Scope list_scope.

Lemma ends_with_spec t s : ends_with t s = true <-> exists p, s = (p ++ t)%string.
Proof.
  induction s as [|a s IH]; cbn [ends_with].
  - rewrite orb_false_r, String.eqb_eq. split.
    + intros <-. now exists "".
    + intros [[|b p] H]; [exact H | discriminate].
  - rewrite orb_true_iff, String.eqb_eq, IH. split.
    + intros [<-|[p ->]]; [now exists "" | now exists (String a p)].
    + intros [[|b p] H]; [now left | right; injection H as _ H; now exists p].
Qed.

Lemma ends_json s : json_file s -> ends_with ".json" s = true.
Proof. apply ends_with_spec. Qed.

Lemma ends_not s : ~ json_file s -> ends_with ".json" s = false.
Proof. intros H. destruct (ends_with ".json" s) eqn:E; [|reflexivity]. apply ends_with_spec in E. now destruct H. Qed.

Section Lemmas.
Context {Model RD WR : Type}.
Variable W : world Model RD WR.

Lemma get_inputs_reads o c : get_inputs W [] (o_from o) (o_input o) (o_defaults o) (o_remove o) = Ok c ->
  reads W o c.
Proof.
  unfold get_inputs. destruct (format_inputs W (o_from o) (o_input o)) as [i|] eqn:E; cbn [bind]; [|discriminate].
  intros H; injection H as <-. unfold reads, gets, format_inputs in *.
  destruct (String.eqb_spec (o_from o) "opendss") as [F|F1].
  { injection E as <-. rewrite F. cbn.
    split; [auto|]. split; [discriminate|]. split; [intros [C|[C|[C|[]]]]; discriminate|].
    split; [intros d -> Hd; apply String.eqb_neq in Hd; now rewrite Hd|]. split; [intros ->; reflexivity | reflexivity]. }
  destruct (String.eqb_spec (o_from o) "cyme") as [F|F2].
  { injection E as <-. rewrite F. cbn.
    split; [discriminate|]. split; [auto|]. split; [intros [C|[C|[C|[]]]]; discriminate|].
    split; [intros d -> Hd; apply String.eqb_neq in Hd; now rewrite Hd|]. split; [intros ->; reflexivity | reflexivity]. }
  destruct (String.eqb_spec (o_from o) "gridlabd") as [F|F3].
  { injection E as <-. rewrite F. cbn.
    split; [discriminate|]. split; [discriminate|]. split; [reflexivity|].
    split; [intros d -> Hd; apply String.eqb_neq in Hd; now rewrite Hd|]. split; [intros ->; reflexivity | reflexivity]. }
  destruct (String.eqb_spec (o_from o) "demo") as [F|F4].
  { injection E as <-. rewrite F. cbn.
    split; [discriminate|]. split; [discriminate|]. split; [reflexivity|].
    split; [intros d -> Hd; apply String.eqb_neq in Hd; now rewrite Hd|]. split; [intros ->; reflexivity | reflexivity]. }
  destruct (String.eqb_spec (o_from o) "synergi") as [F|F5]; [|discriminate].
  injection E as <-. rewrite F. cbn.
  split; [discriminate|]. split; [discriminate|]. split; [reflexivity|].
  split; [intros d -> Hd; apply String.eqb_neq in Hd; now rewrite Hd|]. split; [intros ->; reflexivity | reflexivity].
Qed.

(** What happens: nothing is written, or the model was read and some of what there is
    to write, from the start, was written. *)
Definition fine (o : options) (r : list (event Model) * outcome) : Prop :=
  (fst r = [] /\ snd r <> Done)
  \/ exists m rest, model_of W o m /\ to_write W o m = fst r ++ rest /\ (snd r = Done <-> rest = []).

Lemma nothing o e : fine o ([], Failed e).
Proof. left. split; [reflexivity | discriminate]. Qed.

Lemma run_fine o rd wr js cfg :
  dget (readers W) (o_from o) = Some rd ->
  initial_config W (o_input o) = Ok cfg ->
  (match js with Some (p, _) => o_jsonize o = Some p | None => o_jsonize o = None end) ->
  fine o (run W rd wr js cfg o).
Proof.
  intros HR HC HJ. unfold run.
  destruct (get_inputs W cfg _ _ _ _) as [c|e] eqn:EI; [|apply nothing]. cbn [or_fail].
  destruct (r_make rd c) as [r|e] eqn:ER; [|apply nothing]. cbn [or_fail].
  destruct (w_make wr _) as [w|e] eqn:EW; [|apply nothing]. cbn [or_fail].
  destruct (r_parse rd r) as [m|e] eqn:EP; [|apply nothing]. cbn [or_fail].
  assert (HM : model_of W o m).
  { exists rd, r, c. do 3 (split; [assumption|]). unfold initial_config in HC. split.
    - intros N. apply ends_not in N. rewrite N in HC. injection HC as <-. now apply get_inputs_reads.
    - intros kv rest N L. apply ends_json in N. rewrite N, L in HC. injection HC as <-. cbn in EI. congruence. }
  destruct js as [[p jw]|].
  - destruct (w_make jw _) as [j|e]; [|apply nothing]. cbn [or_fail].
    destruct (w_write jw j m) as [u|e]; [|apply nothing]. cbn [or_fail].
    right. destruct (w_write wr w m) as [u'|e]; cbn [or_fail fst snd].
    + exists m, []. split; [exact HM|]. unfold to_write. rewrite HJ. split; [now rewrite app_nil_r|]. split; auto.
    + exists m. eexists. split; [exact HM|]. unfold to_write. rewrite HJ. split; [reflexivity|]. split; discriminate.
  - destruct (w_write wr w m) as [u'|e]; cbn [or_fail fst snd]; [|apply nothing].
    right. exists m, []. split; [exact HM|]. unfold to_write. rewrite HJ. split; [reflexivity|]. split; auto.
Qed.
End Lemmas.

(** C133: whatever fails, what was written is a beginning of what there is to write
    of the model that the reader made of the input: the JSON file, if asked for,
    and then the output. All of it is written exactly when the command is done;
    nothing is written if there is no such model. *)
Theorem C133_convert : forall Model RD WR (W : world Model RD WR) (o : options) ev out,
  convert W o = (ev, out) ->
  (ev = [] /\ out <> Done)
  \/ exists m rest, model_of W o m /\ to_write W o m = ev ++ rest /\ (out = Done <-> rest = []).
Proof.
  intros Model RD WR W o ev out H.
  cut (fine W o (convert W o)); [rewrite H; exact (fun X => X)|].
  unfold convert.
  destruct (dget (readers W) (o_from o)) as [rd|] eqn:ER; [|left; split; [reflexivity | discriminate]].
  destruct (dget (writers W) (o_to o)) as [wr|] eqn:EW; [|left; split; [reflexivity | discriminate]].
  destruct (o_jsonize o) as [p|] eqn:EJ.
  - destruct (dget (writers W) "json") as [jw|]; cbn [of_opt bind or_fail]; [|apply nothing].
    destruct (initial_config W (o_input o)) as [cfg|e] eqn:EC; cbn [or_fail]; [|apply nothing].
    now apply run_fine.
  - cbn [or_fail]. destruct (initial_config W (o_input o)) as [cfg|e] eqn:EC; cbn [or_fail]; [|apply nothing].
    now apply run_fine.
Qed.
Print Assumptions C133_convert.

(** C133: a format without a reader or without a writer is refused, and nothing is
    read or written. *)
Theorem C133_refused : forall Model RD WR (W : world Model RD WR) (o : options),
  (dget (readers W) (o_from o) = None -> convert W o = ([], Refused "from"))
  /\ (dget (readers W) (o_from o) <> None -> dget (writers W) (o_to o) = None -> convert W o = ([], Refused "to")).
Proof.
  intros Model RD WR W o. unfold convert. split.
  - intros ->. reflexivity.
  - intros H ->. destruct (dget (readers W) (o_from o)); [reflexivity | congruence].
Qed.
Print Assumptions C133_refused.

(** C133: the command is done if the reader accepts the inputs of its format and reads
    them, and the writers write. *)
Theorem C133_done : forall Model RD WR (W : world Model RD WR) (o : options) rd wr jw,
  dget (readers W) (o_from o) = Some rd -> dget (writers W) (o_to o) = Some wr ->
  dget (writers W) "json" = Some jw -> ~ json_file (o_input o) ->
  In (o_from o) ["opendss"; "cyme"; "gridlabd"; "demo"; "synergi"] ->
  (forall c, reads W o c -> exists r m, r_make rd c = Ok r /\ r_parse rd r = Ok m) ->
  (forall c, exists w, w_make wr c = Ok w) -> (forall w m, w_write wr w m = Ok tt) ->
  (forall c, exists w, w_make jw c = Ok w) -> (forall w m, w_write jw w m = Ok tt) ->
  exists ev, convert W o = (ev, Done).
Proof.
  intros Model RD WR W o rd wr jw HR HW HJ HE HF Hread Hw1 Hw2 Hj1 Hj2. apply ends_not in HE.
  unfold convert, initial_config. rewrite HR, HW, HE.
  assert (HI : exists c, get_inputs W [] (o_from o) (o_input o) (o_defaults o) (o_remove o) = Ok c).
  { unfold get_inputs, format_inputs. destruct HF as [<-|[<-|[<-|[<-|[<-|[]]]]]]; cbn; eexists; reflexivity. }
  destruct HI as [c HI]. pose proof (get_inputs_reads W o c HI) as HRd.
  destruct (Hread c HRd) as [r [m [R1 R2]]].
  destruct (Hw1 (get_output W (o_output o))) as [w Ew].
  assert (HRun : forall js, (match js with Some (p, j) => j = jw | None => True end) ->
     exists ev, run W rd wr js [] o = (ev, Done)).
  { intros js Hjs. unfold run. rewrite HI. cbn [or_fail]. rewrite R1. cbn [or_fail]. rewrite Ew. cbn [or_fail].
    rewrite R2. cbn [or_fail]. destruct js as [[p j]|].
    - subst j. destruct (Hj1 [("output_path", VStr p)]) as [jj ->]. cbn [or_fail]. rewrite Hj2. cbn [or_fail].
      rewrite Hw2. cbn [or_fail]. eauto.
    - rewrite Hw2. cbn [or_fail]. eauto. }
  destruct (o_jsonize o) as [p|].
  - rewrite HJ. cbn [of_opt bind or_fail]. now apply HRun.
  - cbn [or_fail]. now apply HRun.
Qed.
Print Assumptions C133_done.

(** C133: when the reader has read the model and the JSON file is written, but the writer
    of the output fails, the JSON file is there and nothing else. *)
Theorem C133_json_kept : forall Model RD WR (W : world Model RD WR) (o : options) rd wr jw p w e,
  dget (readers W) (o_from o) = Some rd -> dget (writers W) (o_to o) = Some wr ->
  dget (writers W) "json" = Some jw -> ~ json_file (o_input o) ->
  In (o_from o) ["opendss"; "cyme"; "gridlabd"; "demo"; "synergi"] ->
  o_jsonize o = Some p ->
  (forall c, reads W o c -> exists r m, r_make rd c = Ok r /\ r_parse rd r = Ok m) ->
  (forall c, w_make wr c = Ok w) -> (forall m, w_write wr w m = Err e) ->
  (forall c, exists j, w_make jw c = Ok j) -> (forall j m, w_write jw j m = Ok tt) ->
  exists m, model_of W o m /\ convert W o = ([Wrote "json" [("output_path", VStr p)] m], Failed e).
Proof.
  intros Model RD WR W o rd wr jw p w e HR HW HJ HE HF HP Hread Hw1 Hw2 Hj1 Hj2. apply ends_not in HE.
  unfold convert, initial_config. rewrite HR, HW, HE, HP, HJ. cbn [of_opt bind or_fail].
  assert (HI : exists c, get_inputs W [] (o_from o) (o_input o) (o_defaults o) (o_remove o) = Ok c).
  { unfold get_inputs, format_inputs. destruct HF as [<-|[<-|[<-|[<-|[<-|[]]]]]]; cbn; eexists; reflexivity. }
  destruct HI as [c HI]. pose proof (get_inputs_reads W o c HI) as HRd.
  destruct (Hread c HRd) as [r [m [R1 R2]]]. exists m. split.
  - exists rd, r, c. do 3 (split; [assumption|]). split; [auto|]. intros kv rest N. apply ends_json in N. congruence.
  - unfold run. rewrite HI. cbn [or_fail]. rewrite R1. cbn [or_fail]. rewrite Hw1. cbn [or_fail]. rewrite R2. cbn [or_fail].
    destruct (Hj1 [("output_path", VStr p)]) as [j ->]. cbn [or_fail]. rewrite Hj2. cbn [or_fail].
    rewrite Hw2. reflexivity.
Qed.
Print Assumptions C133_json_kept.

(** C133: the arguments of the reader, once found, are kept: they are the same however
    the converter is asked for them again. *)
Theorem C133_again : forall Model RD WR (W : world Model RD WR) cfg from feeder d r c feeder' d' r',
  get_inputs W cfg from feeder d r = Ok c ->
  get_inputs W c from feeder' d' r' = Ok c.
Proof.
  intros Model RD WR W cfg from feeder d r c feeder' d' r' H. destruct c as [|kv rest]; [exfalso | reflexivity].
  destruct cfg as [|x y]; [|discriminate].
  pose proof (get_inputs_reads W (mkOptions feeder "" from "" None d r None) [] H) as [_ [_ [_ [_ [_ G]]]]].
  discriminate G.
Qed.
Print Assumptions C133_again.

(** Refutation of "--from json reads the JSON files that DiTTo writes": the reader,
    which needs an argument input_file, never gets it. A file that does not end in
    .json is not implemented, and of one that does the contents are taken for the
    arguments. *)
Theorem C133_json_refuted : forall Model RD WR (W : world Model RD WR) (o : options) ev out,
  o_from o = "json" ->
  (forall rd c, dget (readers W) "json" = Some rd -> dget c "input_file" = None -> r_make rd c = Err EValue) ->
  (forall c, load_json W (o_input o) = Ok c -> dget c "input_file" = None) ->
  convert W o = (ev, out) -> ev = [] /\ out <> Done.
Proof.
  intros Model RD WR W o ev out HF HR HL H. unfold convert in H. rewrite HF in H.
  destruct (dget (readers W) "json") as [rd|] eqn:ER; [|injection H as <- <-; split; [reflexivity | discriminate]].
  destruct (dget (writers W) (o_to o)) as [wr|]; [|injection H as <- <-; split; [reflexivity | discriminate]].
  match type of H with or_fail [] ?x _ = _ => destruct x as [js|e] end; cbn [or_fail] in H;
    [|injection H as <- <-; split; [reflexivity | discriminate]].
  unfold initial_config in H.
  assert (HX : forall cfg, (ends_with ".json" (o_input o) = false /\ cfg = [] \/ load_json W (o_input o) = Ok cfg) ->
     exists e, run W rd wr js cfg o = ([], Failed e)).
  { intros cfg Hc. unfold run. rewrite HF. destruct cfg as [|kv rest].
    - cbn. eauto.
    - destruct Hc as [[_ C]|Hc]; [discriminate|].
      change (get_inputs W (kv :: rest) "json" (o_input o) (o_defaults o) (o_remove o)) with (@Ok config (kv :: rest)).
      cbn [or_fail]. rewrite (HR rd _ eq_refl (HL _ Hc)). cbn. eauto. }
  destruct (ends_with ".json" (o_input o)).
  - destruct (load_json W (o_input o)) as [cfg|e]; cbn [or_fail] in H.
    + destruct (HX cfg) as [e E]; [now right|]. rewrite E in H. injection H as <- <-. split; [reflexivity | discriminate].
    + injection H as <- <-. split; [reflexivity | discriminate].
  - cbn [or_fail] in H. destruct (HX []) as [e E]; [now left|]. rewrite E in H.
    injection H as <- <-. split; [reflexivity | discriminate].
Qed.
Print Assumptions C133_json_refuted.

(** Refutation of "the options --default_values and --remove_opendss_default_values
    have an effect": with a configuration file the command does the same whatever
    they are. *)
Theorem C133_options_refuted : forall Model RD WR (W : world Model RD WR) input output from to js d1 r1 d2 r2 wh kv rest,
  json_file input -> load_json W input = Ok (kv :: rest) ->
  convert W (mkOptions input output from to js d1 r1 wh) = convert W (mkOptions input output from to js d2 r2 wh).
Proof.
  intros Model RD WR W input output from to js d1 r1 d2 r2 wh kv rest HE HL. apply ends_json in HE.
  unfold convert, initial_config; cbn. rewrite HE, HL. reflexivity.
Qed.
Print Assumptions C133_options_refuted.

(** Refutation of "--warehouse gives the Synergi warehouse file": a reader that wants the
    file of the option never gets it, unless its name is warehouse.mdb. *)
Theorem C133_warehouse_refuted : forall Model RD WR (W : world Model RD WR) (o : options) rd w ev out,
  o_from o = "synergi" -> ~ json_file (o_input o) ->
  o_warehouse o = Some w -> w <> "warehouse.mdb" ->
  dget (readers W) "synergi" = Some rd ->
  (forall c, dget c "warehouse" <> Some (VStr w) -> r_make rd c = Err EValue) ->
  convert W o = (ev, out) -> ev = [] /\ out <> Done.
Proof.
  intros Model RD WR W o rd w ev out HF HE HW HN HR HM H. apply ends_not in HE. unfold convert, initial_config in H.
  rewrite HF, HR, HE in H.
  destruct (dget (writers W) (o_to o)) as [wr|]; [|injection H as <- <-; split; [reflexivity | discriminate]].
  match type of H with or_fail [] ?x _ = _ => destruct x as [js|e] end; cbn [or_fail] in H;
    [|injection H as <- <-; split; [reflexivity | discriminate]].
  unfold run in H. rewrite HF in H.
  match type of H with or_fail [] ?x _ = _ => destruct x as [c|e] eqn:EI end; cbn [or_fail] in H;
    [|injection H as <- <-; split; [reflexivity | discriminate]].
  rewrite HM in H.
  - cbn [or_fail] in H. injection H as <- <-. split; [reflexivity | discriminate].
  - cbn in EI. injection EI as <-. cbn. congruence.
Qed.
Print Assumptions C133_warehouse_refuted.

(** C134: the metrics of the model that the reader made of the input are exported once
    to the file of the format, in capitals or not, when they can be computed. *)
Theorem C134_metric : forall Model RD WR (W : world Model RD WR) metrics input from output f by_feeder ev out,
  In (lower f) ["json"; "xlsx"; "excel"; "xls"] ->
  metric W metrics input from output (Some f) by_feeder = (ev, out) ->
  (ev = [] /\ out <> Done)
  \/ exists m, model_of W (mkOptions input output from "" None None false None) m
       /\ metrics by_feeder m = Ok tt
       /\ ev = [Exported (join W output (if String.eqb (lower f) "json" then "metrics.json" else "metrics.xlsx")) m]
       /\ out = Done.
Proof.
  intros Model RD WR W metrics input from output f by_feeder ev out HF H. unfold metric in H.
  assert (HN : forall e, ([], Failed e) = (ev, out) -> ev = [] /\ out <> Done)
    by (intros e HH; injection HH as <- <-; split; [reflexivity | discriminate]).
  destruct (dget (readers W) from) as [rd|] eqn:ER; [|left; injection H as <- <-; split; [reflexivity | discriminate]].
  destruct (initial_config W input) as [cfg|e] eqn:EC; cbn [or_fail] in H; [|left; eauto].
  destruct (get_inputs W cfg from input None false) as [c|e] eqn:EI; cbn [or_fail] in H; [|left; eauto].
  destruct (r_make rd c) as [r|e] eqn:EM; cbn [or_fail] in H; [|left; eauto].
  destruct (r_parse rd r) as [m|e] eqn:EP; cbn [or_fail] in H; [|left; eauto].
  destruct (metrics by_feeder m) as [u|e] eqn:EX; cbn [or_fail] in H; [|left; eauto].
  right. exists m. split.
  { exists rd, r, c. cbn [o_from o_input]. do 3 (split; [assumption|]). unfold initial_config in EC. split.
    - intros N. apply ends_not in N. rewrite N in EC. injection EC as <-.
      apply (get_inputs_reads W (mkOptions input output from "" None None false None)). exact EI.
    - intros kv rest N L. apply ends_json in N. rewrite N, L in EC. injection EC as <-. cbn in EI. congruence. }
  destruct u. split; [exact EX|].
  unfold lower_in in H. cbn [In] in HF.
  destruct HF as [HF|[HF|[HF|[HF|[]]]]]; rewrite <- HF in H; cbn in H; injection H as <- <-; rewrite <- HF; split; reflexivity.
Qed.
Print Assumptions C134_metric.

(** Refutation of "an unknown format of the metrics is refused": the command is done,
    and nothing is exported. *)
Theorem C134_format_refuted : forall Model RD WR (W : world Model RD WR) metrics input from output f by_feeder,
  ~ In (lower f) ["json"; "xlsx"; "excel"; "xls"] ->
  fst (metric W metrics input from output (Some f) by_feeder) = []
  /\ forall rd r m, dget (readers W) from = Some rd -> ~ json_file input ->
       In from ["opendss"; "cyme"; "gridlabd"; "demo"; "synergi"] ->
       (forall c, r_make rd c = Ok r) -> r_parse rd r = Ok m -> metrics by_feeder m = Ok tt ->
       metric W metrics input from output (Some f) by_feeder = ([], Done).
Proof.
  intros Model RD WR W metrics input from output f by_feeder HF.
  assert (L1 : lower_in f ["json"] = false).
  { unfold lower_in. cbn. destruct (String.eqb_spec (lower f) "json"); [exfalso; apply HF; rewrite e; cbn; tauto | reflexivity]. }
  assert (L2 : lower_in f ["xlsx"; "excel"; "xls"] = false).
  { unfold lower_in. destruct (existsb _ _) eqn:E; [|reflexivity]. exfalso. apply HF.
    apply existsb_exists in E as [x [Hx E]]. apply String.eqb_eq in E. rewrite E. now right. }
  unfold metric. rewrite L1, L2. split.
  - destruct (dget (readers W) from) as [rd|]; [|reflexivity].
    destruct (initial_config W input) as [cfg|e]; cbn [or_fail]; [|reflexivity].
    destruct (get_inputs W cfg from input None false) as [c|e]; cbn [or_fail]; [|reflexivity].
    destruct (r_make rd c) as [r|e]; cbn [or_fail]; [|reflexivity].
    destruct (r_parse rd r) as [m|e]; cbn [or_fail]; [|reflexivity].
    destruct (metrics by_feeder m); reflexivity.
  - intros rd r m -> HE HI HM HP HX. apply ends_not in HE. unfold initial_config. rewrite HE. cbn [or_fail].
    assert (exists c, get_inputs W [] from input None false = Ok c) as [c ->].
    { unfold get_inputs, format_inputs. destruct HI as [<-|[<-|[<-|[<-|[<-|[]]]]]]; cbn; eexists; reflexivity. }
    cbn [or_fail]. rewrite HM. cbn [or_fail]. rewrite HP. cbn [or_fail]. rewrite HX. reflexivity.
Qed.
Print Assumptions C134_format_refuted.

(** A world with a reader of OpenDSS, one of JSON, and two writers. *)
Definition ex_world : world nat nat unit :=
  mkWorld [("opendss", mkReader (fun c => Ok (length c)) (fun n => Ok n));
           ("json", mkReader (fun c => match dget c "input_file" with Some _ => Ok 0 | None => Err EValue end) (fun n => Ok n))]
          [("json", mkWriter (fun _ => Ok tt) (fun _ _ => Ok tt)); ("cyme", mkWriter (fun _ => Ok tt) (fun _ m => if Nat.eqb m 4 then Ok tt else Err EKey))]
          (fun _ => Ok [("model", VOther 0); ("metadata", VOther 1)]) (fun s => "/" ++ s)%string
          (fun a b => b) (fun a b => a ++ "/" ++ b)%string.

(** The hypotheses are met: a conversion that writes a JSON file and the output, one that
    fails, and metrics. *)
Example C133_hypotheses_met :
  convert ex_world (mkOptions "in.dss" "out" "opendss" "cyme" (Some "js") None true None)
  = ([Wrote "json" [("output_path", VStr "js")] 4;
      Wrote "cyme" [("output_path", VStr "out"); ("log_file", VStr "out/out.log")] 4], Done)
  /\ convert ex_world (mkOptions "in.json" "out" "json" "cyme" None None true None) = ([], Failed EValue)
  /\ convert ex_world (mkOptions "in.xml" "out" "opendss" "json" (Some "js") None true None)
  = ([Wrote "json" [("output_path", VStr "js")] 4;
      Wrote "json" [("output_path", VStr "out"); ("log_file", VStr "out/out.log")] 4], Done)
  /\ convert ex_world (mkOptions "in.json" "out" "opendss" "cyme" (Some "js") None true None)
  = ([Wrote "json" [("output_path", VStr "js")] 2], Failed EKey)
  /\ convert ex_world (mkOptions "in.dss" "out" "dew" "cyme" None None true None) = ([], Refused "from").
Proof. split; [reflexivity|]. split; [reflexivity|]. split; [reflexivity|]. split; reflexivity. Qed.

Example C134_hypotheses_met :
  metric ex_world (fun _ _ => Ok tt) "in.dss" "opendss" "out" (Some "XLSX") true = ([Exported "out/metrics.xlsx" 4], Done)
  /\ metric ex_world (fun _ _ => Ok tt) "in.dss" "opendss" "out" (Some "csv") true = ([], Done).
Proof. split; reflexivity. Qed.
