(** C70, C71: the objects and the schedules that the GridLAB-D reader takes from its files. *)
From Verif Require Import Base BaseFacts CsvModel TextModel GlmModel GlmSpec GlmProofs.
From Coq Require Import Lia.
Local Open Scope list_scope.
Local Open Scope string_scope.


(** Every object of the file (and of the files it includes) is kept under its name, with the class and the last value of
    every property that the file gives, and nothing else is added. *)
Theorem C70_objects : forall schema cron files objs rows inc l fits,
  included files rows inc -> glm (rows ++ inc)%list l ->
  (forall b, In (Obj b) l -> readable schema b) ->
  (forall n es ts v, In (Sched n es) l -> In (ts, v) es -> cron (String.concat " " ts) = Ok (fits ts)) ->
  exists objs' scheds, parse_glm schema cron files objs rows = Ok (objs', scheds) /\
    forall n, match last_block n l with
              | Some b => exists o, dget objs' n = Some o /\ expected b n o
              | None => dget objs' n = dget objs n
              end.
Proof.
  intros schema cron files objs rows inc l fits HI G HR HC.
  destruct (fold_glm schema cron fits _ l G HR HC 0%Z objs []) as (cnt & objs' & scheds & E & H1 & H2).
  exists objs', scheds. split; [|exact H1]. unfold parse_glm. rewrite (includes_spec _ _ _ HI). cbn [bind].
  change (pst0 objs) with (ready 0 objs []). rewrite E. reflexivity.
Qed.
Print Assumptions C70_objects.

(** A schedule is kept with the value of its first time that fits the origin. *)
Theorem C71_schedules : forall schema cron files objs rows inc l fits,
  included files rows inc -> glm (rows ++ inc)%list l ->
  (forall b, In (Obj b) l -> readable schema b) ->
  (forall n es ts v, In (Sched n es) l -> In (ts, v) es -> cron (String.concat " " ts) = Ok (fits ts)) ->
  exists objs' scheds, parse_glm schema cron files objs rows = Ok (objs', scheds) /\ forall n, dget scheds n = last_sched fits n l.
Proof.
  intros schema cron files objs rows inc l fits HI G HR HC.
  destruct (fold_glm schema cron fits _ l G HR HC 0%Z objs []) as (cnt & objs' & scheds & E & H1 & H2).
  exists objs', scheds. split; [|intros n; rewrite H2; now destruct (last_sched fits n l)].
  unfold parse_glm. rewrite (includes_spec _ _ _ HI). cbn [bind]. change (pst0 objs) with (ready 0 objs []). rewrite E. reflexivity.
Qed.
Print Assumptions C71_schedules.

Lemma fails_after schema cron files objs rows inc pre l fits rest e :
  included files rows inc -> (rows ++ inc = pre ++ rest)%list -> glm pre l -> (forall b, In (Obj b) l -> readable schema b) ->
  (forall n es ts v, In (Sched n es) l -> In (ts, v) es -> cron (String.concat " " ts) = Ok (fits ts)) ->
  (forall cnt objs' scheds, foldM (step schema cron) rest (ready cnt objs' scheds) = Err e) ->
  parse_glm schema cron files objs rows = Err e.
Proof.
  intros HI Q G HR HC HE. destruct (fold_glm schema cron fits _ l G HR HC 0%Z objs []) as (cnt & objs' & scheds & E & _).
  unfold parse_glm. rewrite (includes_spec _ _ _ HI). cbn [bind]. rewrite Q, foldM_app. change (pst0 objs) with (ready 0 objs []). rewrite E, HE. reflexivity.
Qed.

(** A single property that the schema does not know for the class of the object stops the reading of the whole file. *)
Theorem C70_unknown_property : forall schema cron files objs rows inc pre l fits b r k v h bd rest ks,
  included files rows inc -> (rows ++ inc = pre ++ h :: bd ++ r :: rest)%list ->
  glm pre l -> (forall b, In (Obj b) l -> readable schema b) ->
  (forall n es ts v, In (Sched n es) l -> In (ts, v) es -> cron (String.concat " " ts) = Ok (fits ts)) ->
  header_row h (b_cls b) (b_id b) -> body bd (b_props b) -> ~ In (b_cls b) not_read ->
  schema (b_cls b) = Some ks -> In "name" ks -> (forall k v, In (k, v) (b_props b) -> In k ks) -> property_row r k v -> ~ In k ks ->
  parse_glm schema cron files objs rows = Err EAttr.
Proof.
  intros schema cron files objs rows inc pre l fits b r k v h bd rest ks HI Q G HR HC H B NI SC NL KL PR NK.
  apply (fails_after schema cron files objs rows inc pre l fits _ _ HI Q G HR HC). intros cnt objs' scheds. cbn [foldM].
  rewrite (step_header schema cron cnt objs' scheds h b ks) by assumption. cbn [bind]. rewrite foldM_app.
  replace (headed b) with (mkObj (b_cls b) (o_props (headed b))) by reflexivity. unfold opened. rewrite (fold_body schema cron false (b_cls b) ks cnt objs' scheds bd (b_props b) B SC KL). cbn [foldM].
  destruct PR as (v' & rs & S & N & NC & _). rewrite (step_words schema cron _ _ _ S) by (apply no_comment_begins; exact NC). cbn [hd].
  destruct (keyword_eqb k N) as [-> ->]. cbn [p_curr inside]. unfold in_object. cbn [property]. unfold setitem. cbn [o_cls]. rewrite SC.
  assert (M : smem k ks = false) by (apply Bool.not_true_iff_false; rewrite smem_In; exact NK). rewrite M. reflexivity.
Qed.
Print Assumptions C70_unknown_property.

(** So does an object of a class that the schema does not have and that is not one of the ignored ones. *)
Theorem C70_unknown_class : forall schema cron files objs rows inc pre l fits cls id h rest,
  included files rows inc -> (rows ++ inc = pre ++ h :: rest)%list ->
  glm pre l -> (forall b, In (Obj b) l -> readable schema b) ->
  (forall n es ts v, In (Sched n es) l -> In (ts, v) es -> cron (String.concat " " ts) = Ok (fits ts)) ->
  header_row h cls id -> ~ In cls not_read -> schema cls = None ->
  parse_glm schema cron files objs rows = Err EAttr.
Proof.
  intros schema cron files objs rows inc pre l fits cls id h rest HI Q G HR HC (tag & rs & S & W & T) NI SC.
  apply (fails_after schema cron files objs rows inc pre l fits _ _ HI Q G HR HC). intros cnt objs' scheds. cbn [foldM].
  rewrite (step_words schema cron _ _ _ S) by reflexivity. cbn [hd String.eqb Ascii.eqb Bool.eqb]. unfold header. cbn [p_curr ready nth_error of_opt bind].
  assert (E : hd "" (split_on ":" tag) = cls).
  { destruct id as [i|]; [destruct T as [_ ->]; now rewrite (split_on_app cls i W)|subst tag; now rewrite (split_on_none cls W)]. }
  rewrite E. assert (M : smem cls ignored = false) by (apply Bool.not_true_iff_false; rewrite smem_In; exact NI). rewrite M, SC. reflexivity.
Qed.
Print Assumptions C70_unknown_class.

(** And an object without a name and without a from and a to. *)
Theorem C70_unnamed : forall schema cron files objs rows inc pre l fits b a rest ks,
  included files rows inc -> (rows ++ inc = pre ++ a ++ rest)%list ->
  glm pre l -> (forall b, In (Obj b) l -> readable schema b) ->
  (forall n es ts v, In (Sched n es) l -> In (ts, v) es -> cron (String.concat " " ts) = Ok (fits ts)) ->
  object_rows a b -> schema (b_cls b) = Some ks -> In "name" ks -> (forall k v, In (k, v) (b_props b) -> In k ks) -> ~ In (b_cls b) not_read -> block_name b = None ->
  parse_glm schema cron files objs rows = Err EAttr.
Proof.
  intros schema cron files objs rows inc pre l fits b a rest ks HI Q G HR HC (h & bd & c & -> & H & B & C) SC NL KL NI NB.
  apply (fails_after schema cron files objs rows inc pre l fits _ _ HI Q G HR HC). intros cnt objs' scheds. cbn [app foldM].
  rewrite (step_header schema cron cnt objs' scheds h b ks) by assumption. cbn [bind]. rewrite <- app_assoc, foldM_app.
  replace (headed b) with (mkObj (b_cls b) (o_props (headed b))) by reflexivity. unfold opened. rewrite (fold_body schema cron false (b_cls b) ks cnt objs' scheds bd (b_props b) B SC KL). cbn [app foldM].
  fold opened. rewrite step_close by assumption. unfold close, getitem. cbn [o_props]. rewrite !headed_props. unfold block_name in NB.
  destruct (last_value "name" (given b)); [discriminate|]. destruct (last_value "from" (given b)); [|reflexivity]. destruct (last_value "to" (given b)); [discriminate|reflexivity].
Qed.
Print Assumptions C70_unnamed.

(** The properties of a nested object are given to the object around it, also its name, and the nested object is lost. *)
Theorem C70_nested_refuted : forall schema cron files objs rows b h p1 h2 c2 i2 p2 c3 ps2 p3 ps1 ps3 c,
  rows = (h :: p1 ++ h2 :: p2 ++ c3 :: p3 ++ [c])%list -> (forall r, In r rows -> forall s, r <> "#include" ++ s) ->
  header_row h (b_cls b) (b_id b) -> body p1 ps1 -> header_row h2 c2 i2 -> body p2 ps2 -> close_row c3 -> body p3 ps3 -> close_row c ->
  b_props b = (ps1 ++ ps2 ++ ps3)%list -> readable schema b ->
  exists objs' n o, parse_glm schema cron files objs rows = Ok (objs', []) /\ block_name b = Some n /\ dget objs' n = Some o /\ expected b n o /\
    forall m, m <> n -> dget objs' m = dget objs m.
Proof.
  intros schema cron files objs rows b h p1 h2 c2 i2 p2 c3 ps2 p3 ps1 ps3 c Q NI H B1 H2 B2 C3 B3 C P R.
  destruct (close_readable schema objs b R) as (n & o & N & E & X). destruct R as (ks & SC & NL & KL & NB & NG).
  exists (dset objs n o), n, o. split; [|split; [assumption|split; [apply dget_dset_same|split; [assumption|]]]].
  2: { intros m M. apply dget_dset_other. congruence. }
  unfold parse_glm. rewrite (includes_spec files rows []).
  2: { clear - NI. induction rows as [|r rows IH]; constructor; [apply NI; now left|]. apply IH. intros r' I. apply NI. now right. }
  cbn [bind]. rewrite app_nil_r, Q. cbn [foldM]. change (pst0 objs) with (ready 0 objs []). rewrite (step_header schema cron 0 objs [] h b ks) by assumption. cbn [bind].
  rewrite P in E, KL. rewrite foldM_app. replace (headed b) with (mkObj (b_cls b) (o_props (headed b))) in * by reflexivity.
  unfold opened. rewrite (fold_body schema cron false (b_cls b) ks 0 objs [] p1 ps1 B1 SC) by (intros k v I; apply (KL k v); apply in_app_iff; now left). fold opened.
  cbn [foldM]. fold opened. change (inside false) with opened. rewrite (step_nested schema cron _ 0 objs [] h2 c2 i2 H2). cbn [bind]. rewrite foldM_app.
  rewrite (fold_body schema cron true (b_cls b) ks 0 objs [] p2 ps2 B2 SC) by (intros k v I; apply (KL k v); apply in_app_iff; right; apply in_app_iff; now left).
  cbn [foldM]. rewrite step_close_nested by assumption. cbn [bind]. rewrite foldM_app. unfold opened.
  rewrite (fold_body schema cron false (b_cls b) ks 0 objs [] p3 ps3 B3 SC) by (intros k v I; apply (KL k v); apply in_app_iff; right; apply in_app_iff; now right).
  cbn [foldM]. change (inside false) with opened. rewrite step_close by assumption. cbn [o_props] in E |- *. rewrite !dputs_app, <- ?app_assoc. rewrite E. reflexivity.
Qed.
Print Assumptions C70_nested_refuted.

(** ** Concrete cases *)
Definition ex_schema (c : string) : option (list string) :=
  if smem c ["node"; "load"; "meter"] then Some ["name"; "phases"; "nominal_voltage"; "parent"; "voltage_A"]
  else if smem c ["overhead_line"] then Some ["name"; "phases"; "from"; "to"; "length"; "configuration"] else None.
Definition no_files (_ : string) : res (list string) := Err EKey.
Definition ex_cron (s : string) : res bool := Ok (String.eqb s "* * * * 0").

Ltac row_ := repeat first
  [ apply spells_nil; cbn; repeat split; reflexivity
  | match goal with |- spells ?r (?w :: ?ws) =>
      let rec go a s := match eval cbv in (String.prefix w s) with
        | true => let rest := eval cbv in (String.substring (String.length w) (String.length s - String.length w) s) in
                  change r with (a ++ w ++ rest); apply spells_cons; [cbn; repeat split; reflexivity|split; [discriminate|cbn; repeat split; reflexivity]|cbn; reflexivity || exact Logic.I|]
        | false => match eval cbv in s with String ?c ?t => let a' := eval cbv in (a ++ String c "") in go a' t end
        end in go "" r end ].
Lemma not_closing_b w : (last_is "}" w || ends_close w)%bool = false -> ~ closing w.
Proof. intros E C. apply closing_iff in C. congruence. Qed.
Lemma not_keyword_b w : (String.eqb w "object" || String.eqb w "schedule")%bool = false -> ~ keyword w.
Proof. intros E [->| ->]; discriminate E. Qed.
Lemma no_comment_b w : begins "//" w = false -> no_comment w.
Proof. intros E s ->. assert (begins "//" ("//" ++ s) = true) by (apply begins_iff; eauto). congruence. Qed.
Lemma not_ends_b c w : last_is c w = false -> forall s, w <> s ++ String c "".
Proof. intros E s ->. rewrite last_is_snoc, Ascii.eqb_refl in E. discriminate. Qed.

Definition ex_rows : list string :=
  ["// a feeder"; "clock {"; " timezone x;"; "}"; "object node:12 {"; "  phases ABCN;"; "  voltage_A 2401.77 V; // nominal"; "}";
   "object house {"; " area 100;"; "};"; "object overhead_line {"; " from node:12;"; " to n2;"; " length 100 ft;"; "};"].
Definition ex_items : list item :=
  [Obj (mkBlock "node" (Some "12") [("phases", "ABCN"); ("voltage_A", "2401.77")]);
   Obj (mkBlock "overhead_line" None [("from", "node:12"); ("to", "n2"); ("length", "100")])].
Lemma property_b r k v v' rest : spells r (k :: v' :: rest) -> (String.eqb k "object" || String.eqb k "schedule")%bool = false -> begins "//" k = false -> v' = v ++ ";" \/ v' = v /\ last_is ";" v = false ->
  (last_is "}" (last (v' :: rest) "") || ends_close (last (v' :: rest) ""))%bool = false -> property_row r k v.
Proof.
  intros S K B V C. exists v', rest. split; [assumption|]. split; [now apply not_keyword_b|]. split; [now apply no_comment_b|]. split; [|now apply not_closing_b].
  destruct V as [V|[V L]]; [now left|right; split; [assumption|now apply (not_ends_b ";")]].
Qed.
Lemma outside_b r w rest : spells r (w :: rest) -> (String.eqb w "object" || String.eqb w "schedule")%bool = false -> outside_row r.
Proof. intros S K. exists (w :: rest). split; [assumption|]. right. left. exists w, rest. split; [reflexivity|now apply not_keyword_b]. Qed.
Example C70_hypotheses_met : included no_files ex_rows [] /\ glm (ex_rows ++ [])%list ex_items /\ (forall b, In (Obj b) ex_items -> readable ex_schema b).
Proof.
  split; [|split].
  - unfold ex_rows. repeat (apply inc_no; [intros s Q; discriminate Q|]). apply inc_nil.
  - rewrite app_nil_r. unfold ex_rows, ex_items.
    apply glm_outside; [exists ["//"; "a"; "feeder"]; split; [row_|left; right; exists "", ["a"; "feeder"]; reflexivity]|].
    apply glm_outside; [apply (outside_b _ "clock" ["{"]); [row_|reflexivity]|].
    apply glm_outside; [apply (outside_b _ "timezone" ["x;"]); [row_|reflexivity]|].
    apply glm_outside; [apply (outside_b _ "}" []); [row_|reflexivity]|].
    apply (glm_object ["object node:12 {"; "  phases ABCN;"; "  voltage_A 2401.77 V; // nominal"; "}"]).
    { exists "object node:12 {", ["  phases ABCN;"; "  voltage_A 2401.77 V; // nominal"], "}". split; [reflexivity|]. split; [|split; [|left; row_]].
      - exists "node:12", ["{"]. split; [row_|]. split; [cbn; repeat split; reflexivity|]. split; [cbn; repeat split; reflexivity|reflexivity].
      - apply body_prop; [apply (property_b _ _ _ "ABCN;" []); [row_|reflexivity|reflexivity|now left|reflexivity]|].
        apply body_prop; [apply (property_b _ _ _ "2401.77" ["V;"; "//"; "nominal"]); [row_|reflexivity|reflexivity|now right|reflexivity]|]. apply body_nil. }
    apply glm_outside; [exists ["object"; "house"; "{"]; split; [row_|right; right; exists "house", ["{"], "house"; split; [reflexivity|split; [now left|now left]]]|].
    apply glm_outside; [apply (outside_b _ "area" ["100;"]); [row_|reflexivity]|].
    apply glm_outside; [apply (outside_b _ "};" []); [row_|reflexivity]|].
    apply (glm_object ["object overhead_line {"; " from node:12;"; " to n2;"; " length 100 ft;"; "};"] _ []); [|apply glm_nil].
    exists "object overhead_line {", [" from node:12;"; " to n2;"; " length 100 ft;"], "};". split; [reflexivity|]. split; [|split; [|right; row_]].
    + exists "overhead_line", ["{"]. split; [row_|]. split; [cbn; repeat split; reflexivity|reflexivity].
    + apply body_prop; [apply (property_b _ _ _ "node:12;" []); [row_|reflexivity|reflexivity|now left|reflexivity]|].
      apply body_prop; [apply (property_b _ _ _ "n2;" []); [row_|reflexivity|reflexivity|now left|reflexivity]|].
      apply body_prop; [apply (property_b _ _ _ "100" ["ft;"]); [row_|reflexivity|reflexivity|now right|reflexivity]|]. apply body_nil.
  - intros b [Q|[Q|[]]]; injection Q as <-.
    + eexists. split; [reflexivity|]. split; [now left|]. split; [|split; [discriminate|cbn; intuition discriminate]].
      cbn. intros k v [Q|[Q|[]]]; injection Q as <- <-; tauto.
    + eexists. split; [reflexivity|]. split; [now left|]. split; [|split; [discriminate|cbn; intuition discriminate]].
      cbn. intros k v [Q|[Q|[Q|[]]]]; injection Q as <- <-; tauto.
Qed.
Example C70_result : parse_glm ex_schema ex_cron no_files [] ex_rows = Ok
  ([("node:12", mkObj "node" [("name", "node:12"); ("phases", "ABCN"); ("voltage_A", "2401.77")]);
    ("node:12-n2", mkObj "overhead_line" [("from", "node:12"); ("to", "n2"); ("length", "100"); ("name", "node:12-n2")])], []).
Proof. vm_compute. reflexivity. Qed.

(** An object that is written on one line is not closed; it swallows the next object and both are lost. *)
Theorem C70_one_line_refuted :
  parse_glm ex_schema ex_cron no_files [] ["object node { name a; }"; "object node {"; "name b;"; "}"] = Ok ([], []).
Proof. vm_compute. reflexivity. Qed.
Print Assumptions C70_one_line_refuted.

(** The second reader of a program also has the objects of the first one's file. *)
Theorem C70_second_reader_refuted : exists objs1 objs2,
  parse_glm ex_schema ex_cron no_files [] ["object node {"; "name a;"; "}"] = Ok (objs1, []) /\
  parse_glm ex_schema ex_cron no_files objs1 ["object node {"; "name b;"; "}"] = Ok (objs2, []) /\
  exists o, dget objs2 "a" = Some o.
Proof. eexists. eexists. split; [vm_compute; reflexivity|]. split; [vm_compute; reflexivity|]. eexists. vm_compute. reflexivity. Qed.
Print Assumptions C70_second_reader_refuted.

(** A value of several words is cut after the first. *)
Theorem C70_words_refuted : exists o,
  parse_glm ex_schema ex_cron no_files [] ["object node {"; "name ""main street"";"; "}"] = Ok ([("""main", o)], []).
Proof. eexists. vm_compute. reflexivity. Qed.
Print Assumptions C70_words_refuted.

Definition ex_sched : list string := ["schedule day {"; "* * * * 1 0.3;"; "* * * * 0 0.5;"; "* * * * 0 0.9;"; "}"].
Example C71_hypotheses_met : exists l, included no_files ex_sched [] /\ glm (ex_sched ++ [])%list l /\
  l = [Sched "day" [(["*"; "*"; "*"; "*"; "1"], "0.3"); (["*"; "*"; "*"; "*"; "0"], "0.5"); (["*"; "*"; "*"; "*"; "0"], "0.9")]] /\
  last_sched (fun ts => String.eqb (String.concat " " ts) "* * * * 0") "day" l = Some "0.5".
Proof.
  eexists. split; [|split; [|split; [reflexivity|reflexivity]]].
  - unfold ex_sched. repeat (apply inc_no; [intros s Q; discriminate Q|]). apply inc_nil.
  - rewrite app_nil_r. apply (glm_schedule ex_sched _ _ []); [|apply glm_nil].
    exists "schedule day {", ["* * * * 1 0.3;"; "* * * * 0 0.5;"; "* * * * 0 0.9;"], "}", ["{"]. split; [reflexivity|]. split; [row_|]. split; [|left; row_].
    assert (G : forall r ts v, 5 <= length ts -> (String.eqb (hd "" ts) "object" || String.eqb (hd "" ts) "schedule")%bool = false -> begins "//" (hd "" ts) = false ->
      begins "{" (hd "" ts) = false -> begins ";" (hd "" ts) = false -> v <> "" -> last_is ";" v = false -> last_is "}" v = false -> spells r (ts ++ [(v ++ ";")%string])%list -> cron_row r ts v).
    { intros r ts v L K B B1 B2 NV V1 V2 S. split; [assumption|]. split; [now apply not_keyword_b|]. split; [now apply no_comment_b|].
      split; [intros s Q; assert (begins "{" ("{" ++ s) = true) by (apply begins_iff; eauto); congruence|].
      split; [intros s Q; assert (begins ";" (";" ++ s) = true) by (apply begins_iff; eauto); congruence|].
      split; [assumption|]. split; [intros s; split; [now apply (not_ends_b ";")|now apply (not_ends_b "}")]|]. now right. }
    apply sb_cron; [apply G; try reflexivity; try discriminate; cbn [app]; row_|].
    apply sb_cron; [apply G; try reflexivity; try discriminate; cbn [app]; row_|].
    apply sb_cron; [apply G; try reflexivity; try discriminate; cbn [app]; row_|]. apply sb_nil.
Qed.
Example C71_result : parse_glm ex_schema ex_cron no_files [] ex_sched = Ok ([], [("day", "0.5")]).
Proof. vm_compute. reflexivity. Qed.

(** A block within a schedule ends it: the times after the block are not read. *)
Theorem C71_inner_block_refuted :
  parse_glm ex_schema ex_cron no_files [] ["schedule day {"; "weekday {"; "* * * * 1 0.3;"; "}"; "weekend {"; "* * * * 0 0.5;"; "}"; "}"] = Ok ([], []).
Proof. vm_compute. reflexivity. Qed.
Print Assumptions C71_inner_block_refuted.

(** A schedule whose brace is on a line of its own never ends: the next schedule is lost. *)
Theorem C71_brace_refuted :
  parse_glm ex_schema ex_cron no_files [] ["schedule day"; "{"; "* * * * 0 0.3;"; "}"; "schedule night {"; "* * * * 0 0.5;"; "}"] = Ok ([], [("day", "0.3")]).
Proof. vm_compute. reflexivity. Qed.
Print Assumptions C71_brace_refuted.

(** The unit behind a value is ignored: a length in miles is read as the same number as a length in feet. *)
Theorem C70_units_refuted : parse_glm ex_schema ex_cron no_files [] ["object overhead_line {"; "name a;"; "length 2 mile;"; "}"] =
  parse_glm ex_schema ex_cron no_files [] ["object overhead_line {"; "name a;"; "length 2 ft;"; "}"].
Proof. vm_compute. reflexivity. Qed.
Print Assumptions C70_units_refuted.
