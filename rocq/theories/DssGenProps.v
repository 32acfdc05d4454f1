(** C99: the generators and the feeders of the OpenDSS reader. *)
From Verif Require Import Base BaseFacts CsvModel TextModel DssNameModel DssTextSpec DssNodeSpec DssRdLoadModel DssRdLoadSpec DssRdLoadProofs DssRdLoadProps DssRdCapModel DssGenModel DssGenSpec DssGenProofs.
From Coq Require Import Reals QArith Qreals Lia.
Local Open Scope string_scope.
Local Open Scope nat_scope.
Local Open Scope list_scope.

(** C99: each generator of the circuit becomes one generator, in order, with its name, its bus, its voltage, its rated
    power in VA, its power factor, its limits of voltage and its model. *)
Theorem C99_generators : forall int_ num source gens, (forall x, In x gens -> exists n b, reports_gen (fst x) (snd x) n b) ->
  Forall2 (fun x g => exists n b, reports_gen (fst x) (snd x) n b /\ reads_gen int_ num source (snd x) n b g) gens (parse_gens int_ num source gens).
Proof.
  intros int_ num source gens H. unfold parse_gens. induction gens as [|[full d] gens IH]; [constructor|]. cbn [map]. constructor; [|apply IH; intros x X; apply H; now right].
  destruct (H (full, d) (or_introl eq_refl)) as (n & b & Rp). exists n, b. split; [exact Rp|]. cbn [fst snd] in *. destruct Rp as [N P (t & ns & D & T)].
  unfold parse_gen. cbn [fst snd]. constructor; cbn [rg_name rg_feeder rg_bus rg_kv rg_on rg_pf rg_rated rg_phases rg_vmin rg_vmax rg_model]; try reflexivity.
  - subst full. assert (second_piece "enerator." ("generator." ++ n)%string = Some n) as ->; [|reflexivity].
    unfold second_piece. assert (cut_at "enerator." ("generator." ++ n) = Some ("g", substring 0 (String.length n - 0) n)) as ->.
    { cbn. assert (String.prefix "" n = true) as -> by (now destruct n). reflexivity. }
    rewrite substring_all by lia. rewrite cut_at_none by (discriminate || exact P). reflexivity.
  - exact (gen_bus_terminal d t b ns D T).
  - exists (float_of num d "kv"). split; [apply states_float|reflexivity].
  - exists (float_of num d "kVA"). split; [apply states_float|reflexivity].
  - apply states_float.
  - apply states_float.
  - apply states_float.
  - apply int_states.
Qed.
Print Assumptions C99_generators.

(** C99, the feeders: from a file whose lines have four words with one blank between them, one feeder is made for each name of a
    feeder, in the order in which they come; its substation is that of its first line, in lower case and without dots. *)
Theorem C99_feeders : forall header lines rows, Forall2 row_of lines rows ->
  exists l fs, parse_feeders (header :: lines) = Ok l /\ in_order rows fs /\ NoDup fs /\
    Forall2 (fun f x => rf_name x = f /\ exists r s, first_row f rows r /\ undotted (lower (w_sub r)) s /\ rf_substation x = Some s) fs l.
Proof.
  intros header lines rows F. destruct (feeders_told lines rows F) as (fs & tb & E & [O K S N T]). unfold parse_feeders. cbn [skipn]. rewrite E. cbn [bind].
  eexists. exists fs. split; [reflexivity|]. split; [exact O|]. split; [exact (order_nodup _ _ O)|]. rewrite K. clear O K N T E.
  assert (forall gs, (forall f, In f gs -> In f fs) -> Forall2 (fun f x => rf_name x = f /\ exists r s, first_row f rows r /\ undotted (lower (w_sub r)) s /\ rf_substation x = Some s) gs (map (fun f => mkRfeeder f (dget (t_trans tb) f) (dget (t_subs tb) f)) gs)) as X; [|apply X; auto].
  induction gs as [|f gs IH]; intros H; [constructor|]. cbn [map]. constructor; [|apply IH; intros g G; apply H; now right]. split; [reflexivity|].
  destruct (S f (H f (or_introl eq_refl))) as (r & R1 & R2). exists r. eexists. split; [exact R1|]. split; [apply no_dots_undotted|exact R2].
Qed.
Print Assumptions C99_feeders.

(** The count of the phases is read as the name of one: a generator of three phases has phase C only, one of two has B,
    and one of one phase has A, whatever node it is connected to. *)
Theorem C99_phases_refuted : forall int_ num source full d m p, node_letter m p -> d "phases" = Some (PText m) -> rg_phases (parse_gen int_ num source (full, d)) = [Some p].
Proof. intros int_ num source full d m p L D. unfold parse_gen. cbn [rg_phases snd]. unfold gen_phases. rewrite D. destruct L; reflexivity. Qed.
Print Assumptions C99_phases_refuted.

(** Unlike other elements, a generator that is disabled is read like one that is not. *)
Theorem C99_disabled_refuted : forall int_ num source full d v, 
  parse_gen int_ num source (full, fun k => if String.eqb k "enabled" then v else d k) = parse_gen int_ num source (full, d).
Proof. intros. reflexivity. Qed.
Print Assumptions C99_disabled_refuted.

(** The active power of a generator is not read. *)
Theorem C99_power_refuted : forall int_ num source full d v, 
  parse_gen int_ num source (full, fun k => if String.eqb k "kW" then v else d k) = parse_gen int_ num source (full, d).
Proof. intros. reflexivity. Qed.
Print Assumptions C99_power_refuted.

Lemma tables_equal : forall lines a b, t_trans a = t_subs a -> foldM feeder_step lines a = Ok b -> t_trans b = t_subs b.
Proof.
  induction lines as [|line lines IH]; intros a b H E; cbn [foldM] in E; [now injection E as <-|].
  destruct (feeder_step a line) as [c|] eqn:F; [|discriminate]. cbn [bind] in E. apply (IH c b); [|exact E].
  unfold feeder_step in F. destruct (map strip (split_on " " line)) as [|x1 [|x2 [|x3 [|x4 [|]]]]]; try discriminate. injection F as <-. cbn. now rewrite H.
Qed.
(** The fourth word of a line, the transformer, is not used: every feeder gets its substation in its place. *)
Theorem C99_transformer_refuted : forall lines l x, parse_feeders lines = Ok l -> In x l -> rf_transformer x = rf_substation x.
Proof.
  intros lines l x E I. unfold parse_feeders in E. destruct (foldM feeder_step (skipn 1 lines) (mkTb [] [] [])) as [tb|] eqn:F; [|discriminate]. cbn [bind] in E. injection E as <-.
  apply in_map_iff in I as (f & <- & _). cbn. now rewrite (tables_equal _ (mkTb [] [] []) tb eq_refl F).
Qed.
Print Assumptions C99_transformer_refuted.

(** A line that has not four words, an empty one at the end of the file for example, stops the reading. *)
Theorem C99_line_refuted : forall header lines rows line rest, Forall2 row_of lines rows -> length (split_on " " line) <> 4 -> parse_feeders (header :: lines ++ line :: rest) = Err EValue.
Proof.
  intros header lines rows line rest F H. unfold parse_feeders. cbn [skipn]. rewrite foldM_app. destruct (feeders_told lines rows F) as (fs & tb & -> & _). cbn [bind foldM].
  assert (feeder_step tb line = Err EValue) as ->; [|reflexivity]. unfold feeder_step. rewrite <- (map_length strip) in H. destruct (map strip (split_on " " line)) as [|x1 [|x2 [|x3 [|x4 [|]]]]]; try reflexivity. now contradiction H.
Qed.
Print Assumptions C99_line_refuted.

Definition ex_gens : list (string * data) :=
  [ ("generator.G1", tbl [("bus1", "b7.1.2.3"); ("phases", "3"); ("kv", "12/5"); ("pf", "9/10"); ("kVA", "100/1"); ("model", "3"); ("enabled", "No")]);
    ("generator.g2", tbl [("bus1", "b8"); ("phases", "1")]) ].
Example C99_hypotheses_met : (forall x, In x ex_gens -> exists n b, reports_gen (fst x) (snd x) n b) /\
  map (fun g => (rg_name g, rg_bus g, rg_phases g, rg_model g)) (parse_gens DssStoreModel.read_int num_r "src" ex_gens) =
    [("g1", Some "b7", [Some "C"], Some 3%Z); ("g2", Some "b8", [Some "A"], None)].
Proof.
  split; [|reflexivity]. intros x [<-|[<-|[]]]; [exists "G1", "b7"|exists "g2", "b8"]; (constructor; [reflexivity|cbn; intuition discriminate|eexists _, _; split; reflexivity]).
Qed.
Definition ex_rows : list row := [mkRow "N.1" "Sub.A" "f1" "t1"; mkRow "n2" "subB" "f2" "t2"; mkRow "n3" "subB" "f1" "t1"].
Definition ex_feeder_lines : list string := [("N.1 Sub.A f1 t1" ++ String "010" "")%string; ("n2 subB f2 t2" ++ String "010" "")%string; "n3 subB f1 t1"].
Example C99_feeders_met : Forall2 row_of ex_feeder_lines ex_rows /\
  parse_feeders (("Node Substation Feeder Transformer" ++ String "010" "")%string :: ex_feeder_lines) = Ok [mkRfeeder "f1" (Some "suba") (Some "suba"); mkRfeeder "f2" (Some "subb") (Some "subb")] /\
  length (split_on " " (String "010" "")) <> 4.
Proof.
  split; [|split; [reflexivity|discriminate]].
  constructor; [|constructor; [|constructor; [|constructor]]]; unfold row_of, says; cbn [w_node w_sub w_feed w_trans ex_rows]; repeat (split; [cbn; tauto|]); [right|right|left]; reflexivity.
Qed.
