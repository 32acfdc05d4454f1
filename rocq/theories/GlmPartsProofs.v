(** The parts of the file of the GridLAB-D writer. *)
From Verif Require Import Base BaseFacts NetworkModel GlmWriteModel GlmWriteSpec GlmWriteProofs GlmConfProofs GlmConfLineProofs GlmFileProofs.
From Coq Require Import QArith Lia Permutation.
Local Open Scope string_scope.
Local Open Scope nat_scope.
Local Open Scope list_scope.

(** The outcome of a table of configurations: [new] are those of this write. *)
Definition conf_res (prefix : string) (ds : list (option string * dict gval)) (cs0 : configs) (ns0 : onames) (cs : configs) (ns : onames) (new : configs) : Prop :=
  cs = cs0 ++ new /\ map snd new = map (number prefix) (seq 1 (length new)) /\
  (forall d c, In (d, c) new -> In d (map snd ds) /\ cfind cs0 d = None /\ cfind cs d = Some c) /\
  (forall n d, In (n, d) ds -> cfind cs d <> None) /\
  (forall n, oget ns n = match lastd ds n with Some d => cfind cs d | None => oget ns0 n end).
Lemma confs_res num cplx cls prefix ds cs0 ns0 cs ns k rows : confs num cplx cls prefix ds (cs0, ns0, 1, []) = (cs, ns, k, rows) ->
  exists new, conf_res prefix ds cs0 ns0 cs ns new /\ rows = flat_map (conf_rows num cplx cls) new.
Proof.
  intros E. destruct (confs_spec num cplx cls prefix ds cs0 ns0) as (new & S & N & D & F & O). rewrite E in S, O. cbn [fst snd] in S, O. injection S as -> Ek Er.
  exists new. split; [|exact Er]. repeat (split; [assumption|reflexivity] || (split; [first [reflexivity|assumption]|])). exact O.
Qed.

Definition load_b (ps : list (string * string)) : block := ("load", ps).
Lemma dec_both rows bs : decodes rows bs -> shape rows (file rows) /\ file rows = bs.
Proof. intros D. rewrite (dec_file _ _ D). split; [exact (proj1 D)|reflexivity]. Qed.
Section Parts.
Variable num : Q -> string.
Variable cplx : Q -> Q -> string.
Variable order : dict gval -> dict gval.
Hypothesis perm : forall d, Permutation d (order d).

Definition good_state (st : wstate) : Prop :=
  (forall d c, In (d, c) (ws_rc st) -> good_dic d /\ forall k, In k (map fst d) -> ~ setting_key k) /\
  (forall d s, In (d, s) (ws_rp st) -> good_settings s).
Lemma good_state0 : good_state wstate0.
Proof. split; intros d x []. Qed.
Lemma cput_in {A} (c : list (dict gval * A)) d x e y : In (e, y) (cput c d x) -> y = x \/ In (e, y) c.
Proof.
  induction c as [|[d' z] c IH]; cbn; [intros [H|[]]; injection H as _ <-; now left|]. destruct (same_set d' d); cbn.
  - intros [H|H]; [injection H as _ <-; now left|auto].
  - intros [H|H]; [auto|]. destruct (IH H); auto.
Qed.
Lemma reg_fold_good ms l : phases_ok ms -> incl (regs l) (regs ms) -> forall cs ns ph k, (forall d s, In (d, s) ph -> good_settings s) ->
  let '(_, _, ph', _) := fold_left (reg_step num ms) l (cs, ns, ph, k) in forall d s, In (d, s) ph' -> good_settings s.
Proof.
  intros P. induction l as [|o l IH]; intros I cs ns ph k G; [exact G|]. cbn [fold_left].
  destruct o; try (apply IH; [exact I|exact G]). assert (Ir : In r (regs ms)) by (apply I; now left). assert (I' : incl (regs l) (regs ms)) by (intros x Hx; apply I; now right).
  assert (E : good_settings []) by (split; [constructor|intros x []]).
  assert (G1 : forall d s, In (d, s) (match cfind cs (reg_dic r) with None => cput ph (reg_dic r) [] | Some _ => ph end) -> good_settings s).
  { intros d s H. destruct (cfind cs (reg_dic r)); [exact (G d s H)|]. apply cput_in in H. destruct H as [->|H]; [exact E|exact (G d s H)]. }
  cbn [reg_step]. set (ph1 := match cfind cs (reg_dic r) with None => _ | Some _ => _ end) in *. clearbody ph1.
  assert (G2 : forall d s, In (d, s) (cput ph1 (reg_dic r) (reg_settings num ms r (match cfind ph1 (reg_dic r) with Some x => x | None => [] end))) -> good_settings s).
  { intros d s H. apply cput_in in H. destruct H as [->|H]; [|exact (G1 d s H)]. rewrite reg_settings_spec. apply good_fold; [exact (reg_pws_ok ms r P Ir)|].
    destruct (cfind ph1 (reg_dic r)) as [x|] eqn:Ef; [|exact E]. apply cfind_in in Ef. destruct Ef as (d' & Hd' & _). exact (G1 _ _ Hd'). }
  destruct (cfind cs (reg_dic r)); apply IH; assumption.
Qed.

Lemma flat_map_one {A B C} (f : A -> list B) (g : B -> C) l : flat_map (fun x => map g (f x)) l = map g (flat_map f l).
Proof. induction l as [|x l IH]; [reflexivity|]. cbn. now rewrite map_app, IH. Qed.
Lemma dec_map {A} (f : A -> list string) (g : A -> block) l : (forall x, In x l -> decodes (f x) [g x]) -> decodes (flat_map f l) (map g l).
Proof.
  intros H. assert (E : map g l = flat_map (fun x => [g x]) l) by (induction l as [|x l IH]; [reflexivity|]; cbn; f_equal; apply IH; intros y Hy; apply H; now right).
  rewrite E. apply dec_flat. exact H.
Qed.
Lemma flat_sel {A} (sel : gobj -> list A) (f : A -> list string) F ms : (forall o, F o = flat_map f (sel o)) -> flat_map F ms = flat_map f (flat_map sel ms).
Proof. intros H. induction ms as [|o ms IH]; [reflexivity|]. cbn [flat_map]. rewrite flat_map_app, H, IH. reflexivity. Qed.

Lemma write_loads_inv ms rows : write_loads num cplx ms = Ok rows ->
  exists lps, Forall2 (fun l ps => load_props num cplx l = Ok ps) (loads ms) lps /\ rows = flat_map (obj_rows "object load {") lps.
Proof.
  unfold write_loads. set (f := fun o => match o with GLoad l => _ | _ => _ end).
  assert (G : forall rs, mapM f ms = Ok rs -> exists lps, Forall2 (fun l ps => load_props num cplx l = Ok ps) (loads ms) lps /\ concat rs = flat_map (obj_rows "object load {") lps).
  { induction ms as [|o ms IH]; intros rs E; [injection E as <-; exists []; split; [constructor|reflexivity]|]. cbn [mapM] in E. destruct (f o) as [y|] eqn:Ef; [|discriminate].
    destruct (mapM f ms) as [ys|] eqn:Em; [|discriminate]. injection E as <-. destruct (IH ys eq_refl) as (lps & F & C). change (loads (o :: ms)) with (match o with GLoad l => [l] | _ => [] end ++ loads ms).
    cbn [concat]. rewrite C. destruct o; cbn [app] in *; try (unfold f in Ef; injection Ef as <-; exists lps; split; [exact F|reflexivity]).
    unfold f in Ef. destruct (load_props num cplx l) as [ps|] eqn:El; [|discriminate]. cbn [bind] in Ef. injection Ef as <-. exists (ps :: lps). split; [constructor; [exact El|exact F]|reflexivity]. }
  destruct (mapM f ms) as [rs|]; [|discriminate]. cbn [bind]. intros E. injection E as <-. destruct (G rs eq_refl) as (lps & F & C). eauto.
Qed.

Lemma own_trafos_rows ms ns : write_transformers ms ns = flat_map (fun t => obj_rows "object transformer{" (trafo_props ns t)) (own_trafos ms).
Proof.
  unfold write_transformers, own_trafos, trafos.
  assert (R : forall t, is_reg ms (t_name t) = existsb (fun r => oeqb (r_name r) (t_name t)) (regs ms)).
  { intros t. unfold is_reg, regs. induction ms as [|o ms' IH]; [reflexivity|]. cbn [existsb flat_map]. rewrite existsb_app, IH. destruct o; cbn [existsb]; rewrite ?orb_false_r; reflexivity. }
  assert (G : forall l, flat_map (fun o => match o with GTrafo t => if is_reg ms (t_name t) then [] else obj_rows "object transformer{" (trafo_props ns t) | _ => [] end) l =
     flat_map (fun t => obj_rows "object transformer{" (trafo_props ns t)) (filter (fun t => negb (existsb (fun r => oeqb (r_name r) (t_name t)) (regs ms))) (flat_map (fun o => match o with GTrafo t => [t] | _ => [] end) l))).
  { induction l as [|o l IH]; [reflexivity|]. cbn [flat_map]. rewrite IH, filter_app, flat_map_app. f_equal. destruct o; try reflexivity. rewrite R. cbn [filter].
    destruct (existsb _ (regs ms)); cbn [negb flat_map]; rewrite ?app_nil_r; reflexivity. }
  apply G.
Qed.

Definition line_res (ww : option bool) ms lds st0 st lnew : Prop :=
  match ww with
  | None => Forall2 (fun l nd => fst nd = l_name l /\ line_dic cplx l = Ok (snd nd)) (filter plain (lines ms)) lds /\ conf_res "line_config_" lds (ws_lc st0) (ws_ln st0) (ws_lc st) (ws_ln st) lnew
  | Some _ => lnew = [] /\ ws_lc st = ws_lc st0 /\ ws_ln st = ws_ln st0
  end.
Lemma file_parts ww ms st0 rows st : good_state st0 -> phases_ok ms -> write_glm num cplx order ww ms st0 = Ok (rows, st) ->
  exists lps tds tnew lds lnew rnew,
    Forall2 (fun l ps => load_props num cplx l = Ok ps) (loads ms) lps /\
    Forall2 (fun t nd => fst nd = t_name t /\ trafo_dic t = Ok (snd nd)) (trafos ms) tds /\ conf_res "transformer_config_" tds (ws_tc st0) (ws_tn st0) (ws_tc st) (ws_tn st) tnew /\
    conf_res "regulator_config_" (rds ms) (ws_rc st0) (ws_rn st0) (ws_rc st) (ws_rn st) rnew /\
    line_res ww ms lds st0 st lnew /\
    good_state st /\ (forall k, In k (ws_seen st) <-> In k (ws_seen st0) \/ exists r, In r (regs ms) /\ In k (ends_key r)) /\
    (exists ns k, fold_left (reg_step num ms) ms (ws_rc st0, ws_rn st0, ws_rp st0, 1) = (ws_rc st, ns, ws_rp st, k)) /\
    shape rows (file rows) /\
    file rows = map (node_b num) (nodes ms) ++ map (cap_b num) (capacitors ms) ++ map load_b lps ++ map (conf_b num cplx "transformer_configuration") tnew ++
      map (trafo_b (ws_tn st)) (own_trafos ms) ++ map (rconf_b num cplx order (ws_rp st)) (ws_rc st) ++ map (reg_b (ws_rn st)) (kept (ws_seen st0) (regs ms)) ++
      map (conf_b num cplx "line_configuration") lnew ++ map (line_b num (ws_ln st)) (lines ms).
Proof.
  intros G0 P. unfold write_glm. destruct (write_loads num cplx ms) as [lrows|] eqn:El; [|discriminate]. cbn [bind].
  destruct (write_transformer_configurations num cplx ms (ws_tc st0) (ws_tn st0)) as [[[[tc tn] tk] trows]|] eqn:Et; [|discriminate]. cbn [bind].
  pose proof (reg_fold_confs num cplx ms ms (ws_rc st0) (ws_rn st0) (ws_rp st0) 1 []) as Rf. destruct (confs num cplx "" "regulator_config_" (rds ms) (ws_rc st0, ws_rn st0, 1, [])) as [[[rc rn] rk] rrows0] eqn:Erc.
  destruct Rf as (rp & Rf). pose proof (reg_fold_good ms ms P (incl_refl _) (ws_rc st0) (ws_rn st0) (ws_rp st0) 1 (proj2 G0)) as Rg. rewrite Rf in Rg |- *.
  destruct (reg_write_spec rn ms (ws_seen st0) []) as (seen & Rw & Sn). rewrite Rw, app_nil_l.
  destruct (match ww with Some _ => _ | None => _ end) as [[[[lc ln] lk] lrows']|] eqn:Elc; [|discriminate]. cbn [bind]. intros E. injection E as <- <-. cbn [ws_lc ws_ln ws_tc ws_tn ws_rc ws_rn ws_rp ws_seen].
  destruct (write_loads_inv _ _ El) as (lps & Fl & ->).
  unfold write_transformer_configurations in Et. apply (foldM_confs num cplx "transformer_configuration" "transformer_config_" (fun o => match o with GTrafo t => Some t | _ => None end) trafo_dic t_name) in Et; [|intros st [ | | | | | | ]; reflexivity].
  destruct Et as (tds & Ft & Et). symmetry in Et. destruct (confs_res _ _ _ _ _ _ _ _ _ _ _ Et) as (tnew & Rt & ->).
  destruct (confs_res _ _ _ _ _ _ _ _ _ _ _ Erc) as (rnew & Rr & _).
  assert (T1 : flat_map (fun o => match (match o with GTrafo t => Some t | _ => None end) with Some x => [x] | None => [] end) ms = trafos ms) by (unfold trafos; apply flat_ext'; intros [] _; reflexivity).
  rewrite T1 in Ft.
  assert (L : exists lds lnew, line_res ww ms lds st0 (mkWstate lc ln tc tn rc rn rp seen) lnew /\ lrows' = flat_map (conf_rows num cplx "line_configuration") lnew /\ forall d c, In (d, c) lnew -> good_dic d).
  { destruct ww as [b|]. { injection Elc as <- <- <- <-. exists [], []. split; [repeat split|]. split; [reflexivity|]. intros d c []. }
    unfold write_line_configurations in Elc. apply (foldM_confs num cplx "line_configuration" "line_config_" (fun o => match o with GLine l => if plain l then Some l else None | _ => None end) (line_dic cplx) l_name) in Elc;
      [|intros st [ | | | | | l | ]; try reflexivity; unfold plain; destruct (l_switch l) as [[]|], (l_fuse l) as [[]|]; reflexivity].
    destruct Elc as (lds & Flc & Elc). symmetry in Elc. destruct (confs_res _ _ _ _ _ _ _ _ _ _ _ Elc) as (lnew & Rl & ->).
    assert (L1 : flat_map (fun o => match (match o with GLine l => if plain l then Some l else None | _ => None end) with Some x => [x] | None => [] end) ms = filter plain (lines ms)).
    { clear. unfold lines. induction ms as [|o ms IH]; [reflexivity|]. cbn [flat_map]. rewrite IH, filter_app. f_equal. destruct o; try reflexivity. cbn [filter]. now destruct (plain l). }
    rewrite L1 in Flc. exists lds, lnew. split; [split; assumption|]. split; [reflexivity|]. intros d c H. destruct Rl as (_ & _ & D & _). destruct (D d c H) as (H' & _).
    clear -Flc H'. induction Flc as [|l [n e] ls ds [_ Hx] F IH]; [destruct H'|]. destruct H' as [<-|H]; [exact (proj1 (line_dic_spec cplx l _ Hx))|auto]. }
  destruct L as (lds & lnew & Rl & -> & Dl).
  assert (Gst : good_state (mkWstate lc ln tc tn rc rn rp seen)).
  { split; [|exact Rg]. cbn. destruct Rr as (-> & _ & D & _). intros d c H. apply in_app_or in H. destruct H as [H|H]; [exact (proj1 G0 d c H)|].
    destruct (D d c H) as (H' & _). unfold rds in H'. rewrite map_map in H'. apply in_map_iff in H'. destruct H' as (r & <- & _). apply reg_dic_good. }
  exists lps, tds, tnew, lds, lnew, rnew. do 6 (split; [assumption|]). split; [exact Sn|]. split; [eauto|].
  apply dec_both.
  apply (dec_app module_rows _ [] _); [split; [constructor|intros rest; reflexivity]|].
  assert (Nd : write_nodes num ms = flat_map (node_rows num) (nodes ms)) by (apply flat_sel; intros []; cbn; rewrite ?app_nil_r; reflexivity).
  assert (Cd : write_capacitors num ms = flat_map (fun c => obj_rows "object capacitor {" (cap_props num c)) (capacitors ms)) by (apply flat_sel; intros []; cbn [flat_map]; rewrite ?app_nil_r; reflexivity).
  assert (Ld : write_lines num ms ln = flat_map (line_rows num ln) (lines ms)) by (apply flat_sel; intros []; cbn [flat_map]; rewrite ?app_nil_r; reflexivity).
  rewrite Nd, Cd, Ld, own_trafos_rows.
  apply dec_app; [apply dec_map; intros n _; apply dec_node|].
  apply dec_app; [apply dec_map; intros c Hc; apply dec_obj; [split; reflexivity|]; apply cap_keys; intros j p; exact (proj1 P c j p Hc)|].
  apply dec_app. { apply dec_map. intros ps Hps. apply dec_obj; [split; reflexivity|]. assert (exists l, In l (loads ms) /\ load_props num cplx l = Ok ps) as (l & Il & Hl).
    { clear -Fl Hps. induction Fl as [|l x ls xs Hx F IH]; [destruct Hps|]. destruct Hps as [->|H]; [exists l; split; [now left|exact Hx]|]. destruct (IH H) as (l' & I & E). exists l'. split; [now right|exact E]. }
    apply (load_keys num cplx l); [|exact Hl]. intros j p. exact (proj1 (proj2 P) l j p Il). }
  assert (Dt : forall d, In d (map snd tds) -> good_dic d).
  { intros d H. clear -Ft H. induction Ft as [|t [n e] ts ds [_ Hx] F IH]; [destruct H|]. destruct H as [<-|H]; [exact (trafo_good t _ Hx)|auto]. }
  apply dec_app. { apply dec_map. intros [d c] H. apply dec_conf; [split; reflexivity|]. destruct Rt as (_ & _ & D & _). destruct (D d c H) as (H' & _). apply (Dt d H'). }
  apply dec_app; [apply dec_map; intros t _; apply dec_obj; [split; reflexivity|apply trafo_keys]|].
  apply dec_app. { apply (dec_map (fun dc : dict gval * string => let '(d, c) := dc in obj_rows "object regulator_configuration {" (("name", c) :: shown num cplx (order d) ++ match cfind rp d with Some x => x | None => [] end))).
    intros [d c] H. apply (dec_rconf num cplx order perm rp (d, c)); cbn [fst]; [exact (proj1 (proj1 Gst d c H))|]. unfold settings_in. destruct (cfind rp d) as [s|] eqn:Ef; [|split; [constructor|intros k []]].
    apply cfind_in in Ef. destruct Ef as (d' & Hd' & _). exact (Rg _ _ Hd'). }
  apply dec_app; [apply dec_map; intros r _; apply dec_obj; [split; reflexivity|apply reg_keys]|].
  apply dec_app. { apply dec_map. intros [d c] H. apply dec_conf; [split; reflexivity|]. apply (Dl d c H). }
  apply dec_map. intros l _. apply dec_line.
Qed.
End Parts.
