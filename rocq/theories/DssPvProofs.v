(** The PV systems of the OpenDSS script. *)
From Verif Require Import Base BaseFacts CsvModel DssNameModel DssTextModel DssPvModel DssNameSpec DssTextSpec DssLoadSpec DssPvSpec
  DssNameProofs DssTextProofs DssLoadProofs DssLineTextProofs DssTransProofs DssRegProofs DssStoreProofs.
From Coq Require Import QArith Qabs Lia Permutation.
Local Open Scope string_scope.
Local Open Scope nat_scope.
Local Open Scope list_scope.

(** *** Texts that read as elements, whatever follows *)
Definition reads (t : string) (es : list element) : Prop := forall rest, read_dss (t ++ rest)%string = option_map (app es) (read_dss rest).
Lemma reads_nil : reads "" [].
Proof. intros rest. cbn [append]. destruct (read_dss rest); reflexivity. Qed.
Lemma reads_nl : reads nl [].
Proof. intros rest. rewrite blank_read. destruct (read_dss rest); reflexivity. Qed.
Lemma reads_app a b x y : reads a x -> reads b y -> reads (a ++ b)%string (x ++ y).
Proof. intros A B rest. rewrite app_assoc_s, A, B. destruct (read_dss rest); [cbn [option_map]; now rewrite app_assoc | reflexivity]. Qed.
Lemma reads_texts {A} (f : A -> string) (g : A -> element) l : (forall x, In x l -> reads (f x) [g x]) -> reads (texts (map f l)) (map g l).
Proof.
  induction l as [|x r IH]; intros H; [exact reads_nil|]. cbn [map texts fold_right]. apply (reads_app _ _ [g x]); [apply H; left; reflexivity|].
  apply IH. intros y I. apply H. right. exact I.
Qed.
Lemma reads_whole t es : reads t es -> read_dss t = Some es.
Proof. intros R. specialize (R ""). rewrite app_nil_s in R. rewrite R. cbn. now rewrite app_nil_r. Qed.

Lemma cuts_spaced ws : forall w, whole 0 w = true -> Forall (fun x => whole 0 x = true) ws -> cuts 0 (w ++ spaced ws)%string = w :: ws.
Proof.
  induction ws as [|x r IH]; intros w W F; [rewrite app_nil_s; apply cuts_whole; exact W|].
  inversion F as [|? ? Fx Fr]; subst. rewrite spaced_cons, (cuts_cut w _ 0 W), (IH x Fx Fr). reflexivity.
Qed.
Lemma wide_reads e ws cs : eok e -> Forall (fun w => whole 0 w = true /\ free newline w) ws -> spell (filter nonempty ws) (e_props e) -> comments cs ->
  reads (wrow (e_class e) (e_name e) (ws ++ cs) ++ nl)%string [e].
Proof.
  intros (C & D & N & P) WS [S J] K rest. rewrite app_assoc_s. unfold read_dss at 1.
  assert (FN : free newline (wrow (e_class e) (e_name e) (ws ++ cs))).
  { unfold wrow. apply free_app; [reflexivity|]. apply spaced_free; [reflexivity|]. constructor.
    - apply free_app; [apply token_newline, C|]. exact (token_newline _ (proj2 N)).
    - apply Forall_app. split; [revert WS; apply Forall_impl; tauto | revert K; apply Forall_impl; tauto]. }
  change (nl ++ rest)%string with (String "010" rest). rewrite pieces_cut; [|exact FN|reflexivity].
  cbn [commands].
  assert (CN : (e_class e ++ String "." (e_name e))%string <> "") by (destruct C as [C _]; destruct (e_class e); [contradiction C; reflexivity | discriminate]).
  assert (CF : filter nonempty cs = cs).
  { clear - K. induction K as [|w r [[t ->] _] _ IH]; [reflexivity|]. cbn [filter nonempty]. change (nonempty (String "!" t)) with true. cbn iota. now rewrite IH. }
  assert (W : words (wrow (e_class e) (e_name e) (ws ++ cs)) = "New" :: (e_class e ++ String "." (e_name e))%string :: filter nonempty ws ++ cs).
  { unfold wrow, words. rewrite cuts_spaced; [|reflexivity|].
    - cbn [filter]. change (nonempty "New") with true. cbn iota. rewrite (nonempty_ne _ CN), filter_app, CF. reflexivity.
    - constructor.
      + rewrite (whole_app _ _ (token_plain _ (proj2 C))). exact (whole_plain _ (token_plain _ (proj2 N))).
      + apply Forall_app. split; [revert WS; apply Forall_impl; tauto | revert K; apply Forall_impl; tauto]. }
  rewrite W. rewrite starts_plain by discriminate. rewrite starts_plain.
  2: { intros t Q. destruct C as [C C']. destruct (e_class e) as [|c k]; [exact (C eq_refl)|]. cbn [append] in Q. injection Q as -> _. cbn in C'. discriminate C'. }
  rewrite uncommented_plain by (revert S; apply Forall_impl; tauto). rewrite (uncommented_comments cs K), app_nil_r.
  cbn [command]. rewrite first_at_cut by exact D. rewrite J, (pwords_read _ P).
  rewrite !nonempty_ne by (apply C || apply N). cbn [andb]. change (commands (pieces newline rest)) with (read_dss rest).
  destruct (read_dss rest); destruct e; reflexivity.
Qed.
Lemma filter_words ws : Forall word ws -> filter nonempty ws = ws.
Proof. induction 1 as [|w r [N _] _ IH]; [reflexivity|]. cbn [filter]. now rewrite (nonempty_ne w N), IH. Qed.
Lemma wrow_reads e ws cs : eok e -> spell ws (e_props e) -> comments cs -> reads (wrow (e_class e) (e_name e) (ws ++ cs) ++ nl)%string [e].
Proof.
  intros E [S J] K. apply wide_reads; [exact E | | | exact K].
  - revert S. apply Forall_impl. intros w ((_ & A) & B & _). split; assumption.
  - rewrite filter_words; [split; assumption|]. revert S. apply Forall_impl. tauto.
Qed.

Section Pv.
Variable show : Q -> string.
Variable num : string -> option Q.
Hypothesis FS : faithful show num.
Variable parent : string -> option (option Q).
Variable isfile : string -> bool.
Variable datasets : dict (dict string).
Variable fmts : dict string.
Variable removed : bool.
Variable key : string.

Notation PSF := (fun t (o : option (string * string)) => match o with Some (k, f) => pv_shape isfile datasets fmts key t k f | None => pv_no_data isfile t end).
Lemma pv_series_words ts : Forall (pv_shaped isfile datasets fmts key) ts -> exists us pl,
  mapM (pv_series isfile datasets fmts removed key) ts = Ok us /\
  Forall2 PSF ts pl /\ Forall kv_ok (given pl) /\
  texts us = spaced (map (fun kv => if removed then String "!" (pword kv) else pword kv) (given pl)).
Proof.
  induction 1 as [|t r H _ (us & pl & M & F & K & T)]; [exists [], []; repeat split; constructor|].
  destruct H as [N|(k & f & (loc & d & L & Fi & G & D & Fm) & Kk & Tf)].
  - exists ("" :: us), (None :: pl). split; [|split; [constructor; assumption | split; [exact K | exact T]]].
    cbn [mapM]. rewrite M. destruct N as [->|(l & -> & Fi)]; [reflexivity|]. unfold pv_series. rewrite Fi. reflexivity.
  - exists ((" " ++ (if removed then "!" else "") ++ k ++ "=" ++ f)%string :: us), (Some (k, f) :: pl). split; [|split; [|split]].
    + cbn [mapM]. rewrite M, L. unfold pv_series. rewrite Fi, G. cbn [of_opt bind]. rewrite D. cbn [of_opt bind]. rewrite Fm. reflexivity.
    + constructor; [|exact F]. exists loc, d. repeat split; assumption.
    + cbn [given]. constructor; [|exact K]. split; assumption.
    + cbn [texts fold_right given map]. fold (texts us). rewrite spaced_cons, T. change (pword (k, f)) with (k ++ String "=" f)%string. destruct removed; cbn [append]; rewrite ?app_assoc_s; reflexivity.
Qed.
Lemma pv_shape_fun t k f k' f' : pv_shape isfile datasets fmts key t k f -> pv_shape isfile datasets fmts key t k' f' -> k = k' /\ f = f'.
Proof.
  intros (loc & d & L & _ & G & D & F) (loc' & d' & L' & _ & G' & D' & F'). rewrite L in L'. injection L' as <-. rewrite G in G'. injection G' as <-.
  rewrite D in D'. injection D' as <-. rewrite F in F'. injection F' as <-. split; reflexivity.
Qed.
Lemma pv_shape_no_data t k f : pv_shape isfile datasets fmts key t k f -> pv_no_data isfile t -> False.
Proof. intros (loc & d & L & Fi & _) [N|(l & N & Nf)]; [congruence|]. rewrite L in N. injection N as <-. congruence. Qed.
Lemma pv_look_none ts pl k : Forall2 PSF ts pl -> Forall kv_ok (given pl) -> k = "daily" \/ k = "yearly" ->
  (forall u g, In u ts -> ~ pv_shape isfile datasets fmts key u k g) -> look k (given pl) = None.
Proof.
  intros F K Kk. induction F as [|t o ts pl H F IH]; intros N; [reflexivity|].
  destruct o as [[k' f]|]; cbn [given] in *.
  - inversion K as [|? ? [K1 _] K2]; subst. change ((k', f) :: given pl) with ([(k', f)] ++ given pl). rewrite look_app.
    rewrite (IH K2 (fun u g I => N u g (or_intror I))). cbn.
    destruct (String.eqb_spec (lower k') (lower k)) as [Q|]; [|reflexivity]. exfalso.
    assert (k' = k) as -> by (cbn [fst] in K1; destruct K1 as [-> | ->], Kk as [-> | ->]; try reflexivity; discriminate Q).
    exact (N t f (or_introl eq_refl) H).
  - apply (IH K). intros u g I. exact (N u g (or_intror I)).
Qed.
Lemma pv_look_some a t b pl k f : Forall2 PSF (a ++ t :: b) pl -> Forall kv_ok (given pl) -> pv_shape isfile datasets fmts key t k f ->
  (forall u g, In u b -> ~ pv_shape isfile datasets fmts key u k g) -> (k = "daily" \/ k = "yearly") /\ look k (given pl) = Some f.
Proof.
  intros F K S N. apply Forall2_app_inv_l in F as (pa & pb & Fa & Fb & ->).
  assert (GA : forall (A : Type) (x y : list (option A)), given (x ++ y) = given x ++ given y).
  { intros A x y. induction x as [|[v|] x IH]; [reflexivity | cbn; now rewrite IH | exact IH]. }
  rewrite GA in K |- *. apply Forall_app in K as [_ K]. inversion Fb as [|? o ? pr H Fr]; subst.
  destruct o as [[k' f']|]; [|destruct (pv_shape_no_data _ _ _ S H)]. destruct (pv_shape_fun _ _ _ _ _ S H) as [<- <-].
  cbn [given] in *. inversion K as [|? ? [K1 _] K2]; subst. cbn [fst] in K1. split; [exact K1|].
  rewrite look_app. change ((k, f) :: given pr) with ([(k, f)] ++ given pr). rewrite look_app, (pv_look_none b pr k Fr K2 K1 N).
  cbn. now rewrite String.eqb_refl.
Qed.

(** *** Fields *)
Definition by_factor (p : pv) : bool := match pv_control p with None => true | Some c => String.eqb c "powerfactor" end.
Definition by_curve (p : pv) : bool := match pv_control p with None => false | Some c => String.eqb c "voltwatt" || String.eqb c "voltvar" end.
Definition by_both (p : pv) : bool := match pv_control p with None => false | Some c => String.eqb c "voltwatt_voltvar" end.
Definition pv_fields (p : pv) (v : option Q) (ns : list string) : fields :=
  [("bus1", option_map (fun b => re_sub b ++ dotted ns)%string (pv_bus p));
   ("phases", option_map (fun x => if negb (Qle_bool 300 x) then "1" else "3") v);
   ("kV", option_map (fun x => show (milli x)) v);
   ("kVA", option_map (fun a => show (milli (a / factor p))) (pv_active p));
   ("Pmpp", match pv_rated p with None => option_map (fun a => show (milli (a * factor p * (11 # 10)))) (pv_active p) | Some _ => None end);
   ("Pmpp", option_map (fun x => show (milli x)) (pv_rated p));
   ("kvarmax", option_map (fun x => show (milli x)) (pv_reactive p));
   ("conn", option_map (fun c => if String.eqb c "D" then "delta" else "wye") (pv_conn p));
   ("%Cutout", option_map show (pv_cutout p));
   ("%Cutin", option_map show (pv_cutin p));
   ("%R", option_map show (pv_r p));
   ("%X", option_map show (pv_x p));
   ("Vmaxpu", option_map show (pv_vmax p));
   ("Vminpu", option_map show (pv_vmin p));
   ("Model", if by_factor p then option_map (fun _ => "1") (pv_factor p) else if by_curve p || by_both p then Some "1" else None);
   ("pf", if by_factor p then option_map show (pv_factor p) else None);
   ("kvar", if by_curve p then Some "0" else None);
   ("irradiance", match pv_ts p with [] => None | _ => Some "1" end)].
Definition pv_element (n : string) (p : pv) (v : option Q) (ns : list string) (pl : list (option (string * string))) : element :=
  mkElement "PVSystem" n (props_of (pv_fields p v ns) ++ if removed then [] else given pl).

Lemma control_fields_text p : pv_control_text show p =
  (field_text ("Model", if by_factor p then option_map (fun _ => "1") (pv_factor p) else if by_curve p || by_both p then Some "1" else None) ++
   field_text ("pf", if by_factor p then option_map show (pv_factor p) else None) ++ field_text ("kvar", if by_curve p then Some "0" else None))%string.
Proof.
  unfold pv_control_text, by_factor, by_curve, by_both. destruct (pv_control p) as [c|].
  - destruct (String.eqb_spec c "powerfactor") as [->|N0]; [destruct (pv_factor p); cbn; rewrite ?app_nil_s; reflexivity|].
    destruct (String.eqb_spec c "voltwatt") as [->|N1]; [reflexivity|]. destruct (String.eqb_spec c "voltvar") as [->|N2]; [reflexivity|].
    destruct (String.eqb_spec c "voltwatt_voltvar") as [->|N3]; reflexivity.
  - destruct (pv_factor p); cbn; rewrite ?app_nil_s; reflexivity.
Qed.
Lemma pv_nodes xs ns : Forall2 at_node xs ns -> texts (map (fun x => "." ++ show_phase x)%string xs) = dotted ns.
Proof.
  induction 1 as [|x n xs ns A _ IH]; [reflexivity|]. cbn [map texts fold_right]. change (fold_right append "" (map ?f ?l)) with (texts (map f l)).
  rewrite IH, (node_show x n A). reflexivity.
Qed.
Lemma wrow_fields c n fs ws : wrow c n (map pword (props_of fs) ++ ws) = ("New " ++ c ++ "." ++ n ++ texts (map field_text fs) ++ spaced ws)%string.
Proof. unfold wrow. rewrite spaced_cons, spaced_app, field_texts. rewrite !app_assoc_s. reflexivity. Qed.

Lemma pv_row p n v ns us pl : pv_name p = Some n -> pv_voltage_is parent p v -> (pv_active p <> None -> ~ (factor p == 0)%Q) ->
  In (pv_conn p) [None; Some "D"; Some "Y"] -> Forall2 at_node (pv_phases p) ns ->
  mapM (pv_series isfile datasets fmts removed key) (pv_ts p) = Ok us ->
  texts us = spaced (map (fun kv => if removed then String "!" (pword kv) else pword kv) (given pl)) ->
  pv_text show parent isfile datasets fmts removed key p =
  Ok (wrow "PVSystem" n (map pword (props_of (pv_fields p v ns)) ++ map (fun kv => if removed then String "!" (pword kv) else pword kv) (given pl)) ++ nl)%string.
Proof.
  intros N V PF C F M T. unfold pv_text.
  assert (Vo : pv_voltage parent p = Ok v).
  { unfold pv_voltage, pv_voltage_is in *. destruct (pv_kv p); [subst v; reflexivity|]. destruct V as (b & -> & V). cbn [of_opt bind]. rewrite V. reflexivity. }
  rewrite Vo. cbn [bind].
  assert (Ra : pv_rating show p = Ok (field_text ("kVA", option_map (fun a => show (milli (a / factor p))) (pv_active p)) ++
    field_text ("Pmpp", match pv_rated p with None => option_map (fun a => show (milli (a * factor p * (11 # 10)))) (pv_active p) | Some _ => None end))%string).
  { unfold pv_rating. destruct (pv_active p) as [a|]; [|destruct (pv_rated p); reflexivity]. fold (factor p).
    destruct (Qeq_bool (factor p) 0) eqn:Z; [apply Qeq_bool_iff in Z; contradiction (PF ltac:(discriminate) Z)|].
    destruct (pv_rated p); cbn [option_map field_text snd fst append]; rewrite ?app_nil_s; reflexivity. }
  rewrite Ra. cbn [bind].
  assert (Cn : pv_conn_text p = Ok (field_text ("conn", option_map (fun c => if String.eqb c "D" then "delta" else "wye") (pv_conn p)))).
  { unfold pv_conn_text. destruct C as [<-|[<-|[<-|[]]]]; reflexivity. }
  rewrite Cn. cbn [bind]. rewrite M. cbn [bind]. rewrite T, N. cbn [opt_text]. f_equal.
  assert (B : pv_bus_text p = field_text ("bus1", option_map (fun b => re_sub b ++ dotted ns)%string (pv_bus p))).
  { unfold pv_bus_text. apply opt_field. intros b. rewrite (pv_nodes _ _ F). reflexivity. }
  assert (Vt : pv_voltage_text show v = (field_text ("phases", option_map (fun x => if negb (Qle_bool 300 x) then "1" else "3") v) ++
     field_text ("kV", option_map (fun x => show (milli x)) v))%string).
  { unfold pv_voltage_text. destruct v as [x|]; [|reflexivity]. cbn [opt_text option_map]. destruct (negb (Qle_bool 300 x)); reflexivity. }
  assert (Ir : match pv_ts p with [] => "" | _ => " irradiance=1" end = field_text ("irradiance", match pv_ts p with [] => None | _ => Some "1" end)) by (destruct (pv_ts p); reflexivity).
  rewrite B, Vt, Ir, control_fields_text, wrow_fields.
  rewrite (opt_field (fun v => " Pmpp=" ++ show (milli v))%string (fun v => show (milli v)) "Pmpp") by reflexivity.
  rewrite (opt_field (fun v => " kvarmax=" ++ show (milli v))%string (fun v => show (milli v)) "kvarmax") by reflexivity.
  rewrite (opt_field (fun v => " %Cutout=" ++ show v)%string show "%Cutout") by reflexivity.
  rewrite (opt_field (fun v => " %Cutin=" ++ show v)%string show "%Cutin") by reflexivity.
  rewrite (opt_field (fun v => " %R=" ++ show v)%string show "%R") by reflexivity.
  rewrite (opt_field (fun v => " %X=" ++ show v)%string show "%X") by reflexivity.
  rewrite (opt_field (fun v => " Vmaxpu=" ++ show v)%string show "Vmaxpu") by reflexivity.
  rewrite (opt_field (fun v => " Vminpu=" ++ show v)%string show "Vminpu") by reflexivity.
  unfold pv_fields. cbn [map texts fold_right]. rewrite app_nil_s, !app_assoc_s. reflexivity.
Qed.

Lemma pv_fields_ok p v ns : pv_bus p <> Some "" -> Forall (fun x => all_chars ordinary x = true) ns ->
  Forall pok (props_of (pv_fields p v ns)).
Proof.
  intros B FN. apply fields_ok. unfold pv_fields.
  repeat (apply Forall_cons; [split; [split; [discriminate | reflexivity] | cbn [snd]; intros w Q]|]); [..|apply Forall_nil];
    try (match type of Q with option_map _ ?o = Some _ => destruct o as [y|]; [|discriminate Q]; injection Q as <-; exact (proj1 FS _) end).
  - destruct (pv_bus p) as [b|]; [|discriminate Q]. injection Q as <-. apply bus_token; [|exact FN]. intros ->. exact (B eq_refl).
  - destruct v; [|discriminate Q]. injection Q as <-. destruct (negb _); (split; [discriminate | reflexivity]).
  - destruct (pv_rated p); [discriminate Q|]. destruct (pv_active p); [|discriminate Q]. injection Q as <-. apply FS.
  - destruct (pv_conn p); [|discriminate Q]. injection Q as <-. destruct (String.eqb _ _); (split; [discriminate | reflexivity]).
  - destruct (by_factor p); [destruct (pv_factor p) | destruct (by_curve p || by_both p)]; try discriminate Q; injection Q as <-; (split; [discriminate | reflexivity]).
  - destruct (by_factor p); [destruct (pv_factor p)|]; try discriminate Q. injection Q as <-. apply FS.
  - destruct (by_curve p); try discriminate Q; injection Q as <-; (split; [discriminate | reflexivity]).
  - destruct (pv_ts p); try discriminate Q; injection Q as <-; (split; [discriminate | reflexivity]).
Qed.

Lemma pv_prop k p v ns pl : Forall kv_ok (given pl) -> lower k <> "daily" -> lower k <> "yearly" -> forall n,
  prop (pv_element n p v ns pl) k = look_field k (pv_fields p v ns).
Proof.
  intros K A B n. rewrite prop_look. cbn [e_props pv_element]. rewrite look_app, <- look_fields.
  destruct removed; [reflexivity|]. rewrite (look_series_other k (given pl) K A B). reflexivity.
Qed.

Lemma by_factor_true p : by_factor p = true <-> pv_control p = None \/ pv_control p = Some "powerfactor".
Proof.
  unfold by_factor. destruct (pv_control p) as [c|]; [|split; [left|]; reflexivity].
  split; [intros Q; apply String.eqb_eq in Q; subst c; right; reflexivity|]. intros [Q|Q]; [discriminate Q|]. injection Q as ->. reflexivity.
Qed.
Lemma by_curve_true p : by_curve p = true <-> pv_control p = Some "voltwatt" \/ pv_control p = Some "voltvar".
Proof.
  unfold by_curve. destruct (pv_control p) as [c|]; [|split; [discriminate | intros [Q|Q]; discriminate Q]]. rewrite Bool.orb_true_iff, !String.eqb_eq.
  split; (intros [Q|Q]; [left | right]); congruence.
Qed.
Lemma by_both_true p : by_both p = true <-> pv_control p = Some "voltwatt_voltvar".
Proof.
  unfold by_both. destruct (pv_control p) as [c|]; [|split; [discriminate | intros Q; discriminate Q]]. rewrite String.eqb_eq. split; congruence.
Qed.

Lemma pv_element_is p n v ns pl : pv_name p = Some n -> pv_voltage_is parent p v -> In (pv_conn p) [None; Some "D"; Some "Y"] ->
  Forall2 at_node (pv_phases p) ns -> Forall2 PSF (pv_ts p) pl -> Forall kv_ok (given pl) ->
  pv_is num parent isfile datasets fmts removed key p (pv_element n p v ns pl).
Proof.
  intros N V C F FS2 K. pose proof (nodes_tokens _ _ F) as [_ FN].
  assert (P : forall k, lower k <> "daily" -> lower k <> "yearly" -> prop (pv_element n p v ns pl) k = look_field k (pv_fields p v ns)) by (intros; apply pv_prop; assumption).
  assert (S : forall k, k = "daily" \/ k = "yearly" -> prop (pv_element n p v ns pl) k = if removed then None else look k (given pl)).
  { intros k A. rewrite prop_look. cbn [e_props pv_element]. rewrite look_app, look_fields.
    assert (look_field k (pv_fields p v ns) = None) as -> by (destruct A as [-> | ->]; unfold pv_fields; lk; reflexivity). destruct removed; [reflexivity|].
    destruct (look k (given pl)); reflexivity. }
  assert (Pf : prop (pv_element n p v ns pl) "pf" = if by_factor p then option_map show (pv_factor p) else None)
    by (rewrite P by discriminate; unfold pv_fields; lk; rewrite ?opt_id; reflexivity).
  assert (Kv : prop (pv_element n p v ns pl) "kvar" = if by_curve p then Some "0" else None)
    by (rewrite P by discriminate; unfold pv_fields; lk; rewrite ?opt_id; reflexivity).
  assert (GM : forall k o, look_field k (pv_fields p v ns) = option_map (fun x => show (milli x)) o -> lower k <> "daily" -> lower k <> "yearly" ->
    gives num (pv_element n p v ns pl) k (match o with Some x => Some (x / 1000)%Q | None => None end)).
  { intros k o Q A B. apply (gives_milli show num FS). rewrite P by assumption. exact Q. }
  assert (GP : forall k o, look_field k (pv_fields p v ns) = option_map show o -> lower k <> "daily" -> lower k <> "yearly" -> gives num (pv_element n p v ns pl) k o).
  { intros k o Q A B. apply (gives_plain show num FS). rewrite P by assumption. exact Q. }
  split.
  - reflexivity.
  - exact N.
  - exists ns. split; [exact F|]. assert (B : prop (pv_element n p v ns pl) "bus1" = option_map (fun b => re_sub b ++ dotted ns)%string (pv_bus p))
      by (rewrite P by discriminate; unfold pv_fields; lk; rewrite ?opt_id; reflexivity).
    unfold connects. destruct (pv_bus p) as [b|]; [|exact B].
    exists (re_sub b ++ dotted ns)%string, (re_sub b). split; [exact B|]. split; [|apply (sub_kept b)].
    apply terminal_dotted; [apply sub_from_token | exact FN].
  - exists v. split; [exact V|]. split.
    + apply GM; [unfold pv_fields; lk; rewrite ?opt_id; reflexivity | discriminate | discriminate].
    + rewrite P by discriminate. unfold pv_fields. lk. rewrite ?opt_id. destruct v as [x|]; [|reflexivity]. cbn [option_map]. destruct (Qle_bool 300 x); reflexivity.
  - assert (B : prop (pv_element n p v ns pl) "kva" = option_map (fun a => show (milli (a / factor p))) (pv_active p))
      by (rewrite P by discriminate; unfold pv_fields; lk; rewrite ?opt_id; reflexivity).
    destruct (pv_active p) as [a|]; [|exact B]. exact (show_gives show num FS _ _ _ B _ (milli_div _)).
  - assert (B : prop (pv_element n p v ns pl) "pmpp" = match pv_rated p with Some x => Some (show (milli x)) | None => option_map (fun a => show (milli (a * factor p * (11 # 10)))) (pv_active p) end).
    { rewrite P by discriminate. unfold pv_fields. lk. rewrite ?opt_id. destruct (pv_rated p); reflexivity. }
    destruct (pv_rated p) as [x|]; [exact (show_gives show num FS _ _ _ B _ (milli_div _))|].
    destruct (pv_active p) as [a|]; [|exact B]. exact (show_gives show num FS _ _ _ B _ (milli_div _)).
  - apply GM; [unfold pv_fields; lk; rewrite ?opt_id; reflexivity | discriminate | discriminate].
  - assert (B : prop (pv_element n p v ns pl) "conn" = option_map (fun c => if String.eqb c "D" then "delta" else "wye") (pv_conn p))
      by (rewrite P by discriminate; unfold pv_fields; lk; rewrite ?opt_id; reflexivity).
    destruct C as [C|[C|[C|[]]]]; rewrite <- C in *; cbn [option_map] in B; [exact B | left | right]; (split; [reflexivity | exact B]).
  - apply GP; [unfold pv_fields; lk; rewrite ?opt_id; reflexivity | discriminate | discriminate].
  - apply GP; [unfold pv_fields; lk; rewrite ?opt_id; reflexivity | discriminate | discriminate].
  - apply GP; [unfold pv_fields; lk; rewrite ?opt_id; reflexivity | discriminate | discriminate].
  - apply GP; [unfold pv_fields; lk; rewrite ?opt_id; reflexivity | discriminate | discriminate].
  - apply GP; [unfold pv_fields; lk; rewrite ?opt_id; reflexivity | discriminate | discriminate].
  - apply GP; [unfold pv_fields; lk; rewrite ?opt_id; reflexivity | discriminate | discriminate].
  - intros H. pose proof (proj2 (by_factor_true p) H) as BF. assert (BC : by_curve p = false) by (unfold by_curve; destruct H as [-> | ->]; reflexivity).
    rewrite Kv, BC. split; [|reflexivity]. apply (gives_plain show num FS). rewrite Pf, BF. reflexivity.
  - intros H. pose proof (proj2 (by_curve_true p) H) as BC. assert (BF : by_factor p = false) by (unfold by_factor; destruct H as [-> | ->]; reflexivity).
    rewrite Kv, BC, Pf, BF. split; reflexivity.
  - intros H1 H2. assert (BC : by_curve p = false).
    { destruct (by_curve p) eqn:E; [|reflexivity]. apply by_curve_true in E. exfalso. apply H2. destruct E as [-> | ->]; cbn; tauto. }
    assert (BF : by_factor p = false).
    { destruct (by_factor p) eqn:E; [|reflexivity]. apply by_factor_true in E. exfalso. destruct E as [E|E]; [contradiction|]. apply H2. rewrite E. cbn. tauto. }
    rewrite Kv, BC, Pf, BF. split; reflexivity.
  - assert (B : prop (pv_element n p v ns pl) "model" = if by_factor p then option_map (fun _ => "1") (pv_factor p) else if by_curve p || by_both p then Some "1" else None)
      by (rewrite P by discriminate; unfold pv_fields; lk; rewrite ?opt_id; reflexivity).
    rewrite B. destruct (by_factor p) eqn:BF.
    + apply by_factor_true in BF. split.
      * intros Q. left. split; [exact BF|]. destruct (pv_factor p); discriminate.
      * intros [[_ Q]|Q]; [destruct (pv_factor p); [reflexivity | contradiction Q; reflexivity]|].
        exfalso. destruct BF as [E|E]; rewrite E in Q; cbn in Q; repeat (destruct Q as [Q|Q]; [discriminate Q|]); destruct Q.
    + split.
      * intros Q. right. destruct (by_curve p) eqn:BC; [apply by_curve_true in BC; destruct BC as [-> | ->]; cbn; tauto|].
        destruct (by_both p) eqn:BB; [apply by_both_true in BB; rewrite BB; cbn; tauto | discriminate Q].
      * intros [[Q _]|Q]; [apply by_factor_true in Q; congruence|]. cbn [map In] in Q. destruct Q as [Q|[Q|[Q|[]]]].
        -- assert (by_curve p = true) as -> by (apply by_curve_true; left; symmetry; exact Q). reflexivity.
        -- assert (by_curve p = true) as -> by (apply by_curve_true; right; symmetry; exact Q). reflexivity.
        -- assert (by_both p = true) as -> by (apply by_both_true; symmetry; exact Q). rewrite Bool.orb_true_r. reflexivity.
  - rewrite P by discriminate. unfold pv_fields. lk. rewrite ?opt_id. reflexivity.
  - intros k f a t b R E Sh No. rewrite E in FS2. destruct (pv_look_some a t b pl k f FS2 K Sh No) as [Kk Lk].
    rewrite S by exact Kk. rewrite R. exact Lk.
  - intros k Kk H. rewrite S by exact Kk. destruct removed; [reflexivity|]. destruct H as [H|H]; [discriminate|].
    exact (pv_look_none _ _ k FS2 K Kk H).
  - intros k w Q. rewrite prop_look in Q. apply look_In in Q as (k' & I & L). rewrite <- L. cbn [e_props pv_element] in I.
    apply in_app_or in I as [I|I].
    + apply In_props in I. unfold pv_fields in I. cbn [In] in I.
      repeat (destruct I as [I|I]; [injection I as <- _; cbn; tauto|]). destruct I.
    + destruct removed; [destruct I|]. rewrite Forall_forall in K. destruct (proj1 (K _ I)) as [Q|Q]; cbn [fst] in Q; subst k'; cbn; tauto.
Qed.

Lemma pv_reads p : good_pv parent isfile datasets fmts key p -> exists t e,
  pv_text show parent isfile datasets fmts removed key p = Ok t /\ pv_is num parent isfile datasets fmts removed key p e /\
  reads t [e].
Proof.
  intros ((n & N & T) & B & Ph & (v & V) & PF & C & Sh).
  assert (F : exists ns, Forall2 at_node (pv_phases p) ns).
  { clear - Ph. induction (pv_phases p) as [|x r IH]; [exists []; constructor|]. destruct (IH (fun y I => Ph y (or_intror I))) as [ns F].
    destruct (Ph x (or_introl eq_refl)) as [m A]. exists (m :: ns). constructor; assumption. }
  destruct F as [ns F]. pose proof (nodes_tokens _ _ F) as [FT _].
  destruct (pv_series_words (pv_ts p) Sh) as (us & pl & M & F2 & K & TX).
  eexists. exists (pv_element n p v ns pl). split; [exact (pv_row p n v ns us pl N V PF C F M TX)|]. split; [exact (pv_element_is p n v ns pl N V C F F2 K)|].
  pose proof (pv_fields_ok p v ns B FT) as PO.
  assert (KP : Forall pok (given pl)) by (revert K; apply Forall_impl, kv_pok).
  assert (EO : eok (pv_element n p v ns pl)).
  { unfold eok. cbn [e_class e_name e_props pv_element]. split; [split; [discriminate | reflexivity]|]. split; [reflexivity|]. split; [exact T|].
    apply Forall_app. split; [exact PO|]. destruct removed; [constructor | exact KP]. }
  pose (cs := if removed then map (fun kv => String "!" (pword kv)) (given pl) else []).
  assert (W : map pword (props_of (pv_fields p v ns)) ++ map (fun kv => if removed then String "!" (pword kv) else pword kv) (given pl) =
    map pword (e_props (pv_element n p v ns pl)) ++ cs).
  { unfold cs. cbn [e_props pv_element]. rewrite map_app. destruct removed; [cbn [map]; rewrite app_nil_r | rewrite app_nil_r]; reflexivity. }
  rewrite W. apply (wrow_reads (pv_element n p v ns pl)); [exact EO | apply spell_props, EO |].
  unfold cs. destruct removed; [|constructor]. apply Forall_map. revert KP. apply Forall_impl. intros kv H.
  split; [exists (pword kv); reflexivity|]. split; [exact (proj2 (pword_word kv H)) | exact (pword_newline kv H)].
Qed.
End Pv.

(** *** The controls *)
Definition vv_words : list (string * string) :=
  [("npts", "6"); ("Yarray", "(1.0,1.0,0.0,0.0,-1.0,-1.0)"); ("Xarray", "(0.5,0.92,0.98,1.02,1.08,1.5)")].
Definition vw_words : list (string * string) := [("npts", "4"); ("Yarray", "(1.0,1.0,0.0,0.0)"); ("XArray", "(0.5,1.06,1.1,1.5)")].
Definition vv_curve_elt (loc : string) : element := mkElement "XYCurve" ("VoltVarCurve_" ++ loc) vv_words.
Definition vw_curve_elt (loc : string) : element := mkElement "XYCurve" ("VoltWattCurve_" ++ loc) vw_words.
Definition listed_in (n : string) : string * string := ("PVSystemlist", "[" ++ n ++ "]")%string.
Definition vv_elt (loc n : string) : element := mkElement "InvControl" ("InvPVCtrVV_" ++ n)
  [("mode", "VOLTVAR"); ("voltage_curvex_ref", "rated"); ("vvc_curve1", "VoltVarCurve_" ++ loc)%string; ("VV_RefReactivePower", "VARMAX_VARS");
   ("DeltaQ_factor", "0.25"); listed_in n].
Definition vw_elt (loc n : string) : element := mkElement "InvControl" ("InvPVCtrVW_" ++ n)
  [("mode", "VOLTWATT"); ("voltage_curvex_ref", "rated"); ("VoltwattYAxis", "PAVAILABLEPU"); ("voltwatt_curve", "VoltWattCurve_" ++ loc)%string;
   ("eventlog", "yes"); ("DeltaQ_factor", "0.25"); ("DeltaP_factor", "0.25"); listed_in n].
Definition both_head (loc : string) : list (string * string) :=
  [("Combimode", "VV_VW"); ("voltage_curvex_ref", "rated"); ("vvc_curve1", "VoltVarCurve_" ++ loc)%string; ("VV_RefReactivePower", "VARMAX_VARS");
   ("VoltwattYAxis", "PAVAILABLEPU"); ("voltwatt_curve", "VoltWattCurve_" ++ loc)%string; ("eventlog", "yes")].
Definition both_tail (n : string) : list (string * string) := [("DeltaP_factor", "0.25"); listed_in n].
Definition both_elt (loc n : string) : element := mkElement "InvControl" ("InvPVCtrVW_" ++ n) (both_head loc ++ [("DeltaQ_factor", "0.25")] ++ both_tail n).

Lemma token_app a b : all_chars ordinary a = true -> token b -> token (a ++ b)%string.
Proof. intros A [N B]. split; [destruct a; [exact N | discriminate]|]. rewrite all_app, A, B. reflexivity. Qed.
Lemma reads_nl2 t es : reads (t ++ nl)%string es -> reads (t ++ nl2)%string es.
Proof. intros R. change nl2 with (nl ++ nl)%string. rewrite <- app_assoc_s. rewrite <- (app_nil_r es). apply reads_app; [exact R | exact reads_nl]. Qed.
Ltac valued_token := left; split; [discriminate | reflexivity].
Lemma listed_ok n : token n -> pok (listed_in n).
Proof. intros [_ N]. split; [split; [discriminate | reflexivity]|]. right. right. exists n. split; [reflexivity | exact N]. Qed.
Lemma pok_plain k v : token k -> token v -> pok (k, v).
Proof. intros K V. split; [exact K | left; exact V]. Qed.
Ltac tok := split; [discriminate | reflexivity].

Lemma vv_curve_reads loc : token loc -> reads (vv_curve loc) [vv_curve_elt loc].
Proof.
  intros L. unfold vv_curve.
  assert (E : eok (vv_curve_elt loc)).
  { split; [tok|]. split; [reflexivity|]. split; [apply token_app; [reflexivity | exact L]|].
    repeat (apply Forall_cons); try apply Forall_nil; (split; [tok|]); [left; tok | right; left; exists "1.0,1.0,0.0,0.0,-1.0,-1.0" | right; left; exists "0.5,0.92,0.98,1.02,1.08,1.5"]; (split; [reflexivity | reflexivity]). }
  assert (R : reads (wrow "XYCurve" ("VoltVarCurve_" ++ loc) (map pword vv_words ++ []) ++ nl)%string [vv_curve_elt loc])
    by (apply (wrow_reads (vv_curve_elt loc)); [exact E | apply spell_props, E | constructor]).
  apply reads_nl2 in R. revert R. match goal with |- reads ?a _ -> reads ?b _ => replace b with a; [intros R; exact R|] end.
  unfold wrow. rewrite spaced_cons. cbn [append]. rewrite ?app_assoc_s. reflexivity.
Qed.
Lemma vw_curve_reads loc : token loc -> reads (vw_curve loc) [vw_curve_elt loc].
Proof.
  intros L. unfold vw_curve.
  assert (E : eok (vw_curve_elt loc)).
  { split; [tok|]. split; [reflexivity|]. split; [apply token_app; [reflexivity | exact L]|].
    repeat (apply Forall_cons); try apply Forall_nil; (split; [tok|]); [left; tok | right; left; exists "1.0,1.0,0.0,0.0" | right; left; exists "0.5,1.06,1.1,1.5"]; (split; [reflexivity | reflexivity]). }
  pose (ws := "npts=4" :: "" :: map pword [("Yarray", "(1.0,1.0,0.0,0.0)"); ("XArray", "(0.5,1.06,1.1,1.5)")]).
  assert (R : reads (wrow "XYCurve" ("VoltWattCurve_" ++ loc) (ws ++ []) ++ nl)%string [vw_curve_elt loc]).
  { apply (wide_reads (vw_curve_elt loc)); [exact E | | | constructor].
    - unfold ws. repeat (apply Forall_cons); try apply Forall_nil; split; reflexivity.
    - apply (spell_props vw_words). apply E. }
  apply reads_nl2 in R. revert R. match goal with |- reads ?a _ -> reads ?b _ => replace b with a; [intros R; exact R|] end.
  unfold wrow. rewrite spaced_cons. cbn [append]. rewrite ?app_assoc_s. reflexivity.
Qed.
Lemma vv_eok loc n : token loc -> token n -> eok (vv_elt loc n).
Proof.
  intros L N. split; [tok|]. split; [reflexivity|]. split; [apply token_app; [reflexivity | exact N]|].
  repeat (apply Forall_cons); try apply Forall_nil; try (apply listed_ok; exact N); apply pok_plain; try tok. apply token_app; [reflexivity | exact L].
Qed.
Lemma vw_eok loc n : token loc -> token n -> eok (vw_elt loc n).
Proof.
  intros L N. split; [tok|]. split; [reflexivity|]. split; [apply token_app; [reflexivity | exact N]|].
  repeat (apply Forall_cons); try apply Forall_nil; try (apply listed_ok; exact N); apply pok_plain; try tok. apply token_app; [reflexivity | exact L].
Qed.
Lemma both_eok loc n : token loc -> token n -> eok (both_elt loc n).
Proof.
  intros L N. split; [tok|]. split; [reflexivity|]. split; [apply token_app; [reflexivity | exact N]|].
  unfold both_elt, both_head, both_tail. cbn [e_props app].
  repeat (apply Forall_cons); try apply Forall_nil; try (apply listed_ok; exact N); apply pok_plain; try tok; (apply token_app; [reflexivity | exact L]).
Qed.
Lemma vv_reads loc n : token loc -> token n -> reads (vv_control loc n) [vv_elt loc n].
Proof.
  intros L N. unfold vv_control. pose proof (vv_eok loc n L N) as E.
  assert (R : reads (wrow (e_class (vv_elt loc n)) (e_name (vv_elt loc n)) (map pword (e_props (vv_elt loc n)) ++ []) ++ nl)%string [vv_elt loc n])
    by (apply (wrow_reads (vv_elt loc n)); [exact E | apply spell_props, E | constructor]).
  apply reads_nl2 in R. revert R. match goal with |- reads ?a _ -> reads ?b _ => replace b with a; [intros R; exact R|] end.
  unfold wrow. rewrite app_nil_r. cbn [e_class e_name e_props vv_elt map]. unfold pword, listed_in. cbn [fst snd]. rewrite !spaced_cons. change (spaced []) with "". repeat (progress (rewrite ?app_assoc_s; cbn [append])). reflexivity.
Qed.
Lemma vw_reads loc n : token loc -> token n -> reads (vw_control loc n) [vw_elt loc n].
Proof.
  intros L N. unfold vw_control. pose proof (vw_eok loc n L N) as E.
  assert (R : reads (wrow (e_class (vw_elt loc n)) (e_name (vw_elt loc n)) (map pword (e_props (vw_elt loc n)) ++ []) ++ nl)%string [vw_elt loc n])
    by (apply (wrow_reads (vw_elt loc n)); [exact E | apply spell_props, E | constructor]).
  apply reads_nl2 in R. revert R. match goal with |- reads ?a _ -> reads ?b _ => replace b with a; [intros R; exact R|] end.
  unfold wrow. rewrite app_nil_r. cbn [e_class e_name e_props vw_elt map]. unfold pword, listed_in. cbn [fst snd]. rewrite !spaced_cons. change (spaced []) with "". repeat (progress (rewrite ?app_assoc_s; cbn [append])). reflexivity.
Qed.
Lemma both_reads loc n : token loc -> token n -> reads (both_control loc n) [both_elt loc n].
Proof.
  intros L N. unfold both_control. pose proof (both_eok loc n L N) as E.
  pose (ws := map pword (both_head loc) ++ ["DeltaQ_factor"; "="; "0.25"] ++ map pword (both_tail n)).
  assert (F := proj2 (proj2 (proj2 E))). unfold both_elt in F. cbn [e_props] in F. apply Forall_app in F as [F1 F2]. apply Forall_app in F2 as [_ F2].
  destruct (spell_props _ F1) as [S1 J1]. destruct (spell_props _ F2) as [S2 J2].
  assert (R : reads (wrow (e_class (both_elt loc n)) (e_name (both_elt loc n)) (ws ++ []) ++ nl)%string [both_elt loc n]).
  { apply (wrow_reads (both_elt loc n)); [exact E | | constructor]. split.
    - unfold ws. apply Forall_app. split; [exact S1|]. apply Forall_app. split; [|exact S2].
      repeat (apply Forall_cons); try apply Forall_nil; (split; [split; [discriminate | reflexivity]|]; split; [reflexivity | discriminate]).
    - unfold ws. rewrite joined_app.
      + unfold both_elt. cbn [e_props]. rewrite !map_app. f_equal.
      + apply Forall_map. revert F1. apply Forall_impl. exact pword_eq.
      + intros b q Q. discriminate Q. }
  apply reads_nl2 in R. revert R. match goal with |- reads ?a _ -> reads ?b _ => replace b with a; [intros R; exact R|] end.
  unfold wrow, ws. rewrite app_nil_r. cbn [e_class e_name both_elt]. unfold both_head, both_tail, listed_in. cbn [map app]. unfold pword. cbn [fst snd].
  rewrite !spaced_cons. change (spaced []) with "". repeat (progress (rewrite ?app_assoc_s; cbn [append])). reflexivity.
Qed.

(** *** The names in the sets *)
Lemma add_name_In p l x : In x (add_name p l) <-> In x l \/ x = show_opt (pv_name p).
Proof.
  unfold add_name. destruct (smem (show_opt (pv_name p)) l) eqn:S.
  - apply smem_In in S. split; [intros I; left; exact I|]. intros [I| ->]; assumption.
  - rewrite in_app_iff. cbn. split; (intros [I|I]; [left; exact I|]); [destruct I as [I|[]]; right; symmetry; exact I | right; left; symmetry; exact I].
Qed.
Lemma add_name_NoDup p l : NoDup l -> NoDup (add_name p l).
Proof.
  unfold add_name. destruct (smem (show_opt (pv_name p)) l) eqn:S; [intros H; exact H|]. intros H.
  apply NoDup_Add with (a := show_opt (pv_name p)) (l := l).
  - rewrite <- (app_nil_r l) at 1. apply Add_app.
  - split; [exact H|]. intros I. apply smem_In in I. congruence.
Qed.
Lemma controlled_true c p : controlled_by c p = true <-> pv_control p = Some c.
Proof. unfold controlled_by. destruct (pv_control p) as [x|]; [|split; discriminate]. rewrite String.eqb_eq. split; [intros ->; reflexivity | intros Q; injection Q as ->; reflexivity]. Qed.
Lemma collect_from c ps : forall l, (NoDup l -> NoDup (fold_left (fun l p => if controlled_by c p then add_name p l else l) ps l)) /\
  forall x, In x (fold_left (fun l p => if controlled_by c p then add_name p l else l) ps l) <->
    In x l \/ exists p, In p ps /\ pv_control p = Some c /\ x = show_opt (pv_name p).
Proof.
  induction ps as [|p r IH]; intros l; cbn [fold_left].
  - split; [intros H; exact H|]. intros x. split; [intros I; left; exact I | intros [I|(p & [] & _)]; exact I].
  - destruct (IH (if controlled_by c p then add_name p l else l)) as [N I]. split.
    + intros H. apply N. destruct (controlled_by c p); [apply add_name_NoDup|]; exact H.
    + intros x. rewrite I. destruct (controlled_by c p) eqn:C.
      * apply controlled_true in C. rewrite add_name_In. split.
        -- intros [[A| ->]|(q & A & B)]; [left; exact A | right; exists p; split; [left; reflexivity | split; [exact C | reflexivity]] | right; exists q; split; [right; exact A | exact B]].
        -- intros [A|(q & [<-|A] & B & D)]; [left; left; exact A | left; right; exact D | right; exists q; split; [exact A | split; assumption]].
      * assert (pv_control p <> Some c) as NC by (intros Q; apply controlled_true in Q; congruence). split.
        -- intros [A|(q & A & B)]; [left; exact A | right; exists q; split; [right; exact A | exact B]].
        -- intros [A|(q & [<-|A] & B & D)]; [left; exact A | contradiction | right; exists q; split; [exact A | split; assumption]].
Qed.
Lemma collect_In c ps x : In x (collect_names c ps) <-> exists p, In p ps /\ pv_control p = Some c /\ x = show_opt (pv_name p).
Proof. unfold collect_names. rewrite (proj2 (collect_from c ps [])). split; [intros [[]|H]; exact H | intros H; right; exact H]. Qed.
Lemma collect_NoDup c ps : NoDup (collect_names c ps).
Proof. apply (proj1 (collect_from c ps [])). constructor. Qed.
Lemma last_names_app c ps p : last_names c (ps ++ [p]) = if controlled_by c p then [show_opt (pv_name p)] else [].
Proof. unfold last_names. rewrite fold_left_app. cbn [fold_left]. destruct (controlled_by c p); reflexivity. Qed.
Lemma last_In c ps x : In x (last_names c ps) <-> exists a p, ps = a ++ [p] /\ pv_control p = Some c /\ x = show_opt (pv_name p).
Proof.
  destruct ps as [|q r _] using rev_ind; [split; [intros [] | intros (a & p & Q & _); destruct a; discriminate Q]|].
  rewrite last_names_app. destruct (controlled_by c q) eqn:C.
  - apply controlled_true in C. split.
    + intros [<-|[]]. exists r, q. repeat split; assumption.
    + intros (a & p & Q & _ & ->). apply app_inj_tail in Q as [_ <-]. left. reflexivity.
  - split; [intros []|]. intros (a & p & Q & A & _). apply app_inj_tail in Q as [_ <-]. apply controlled_true in A. congruence.
Qed.
Lemma last_NoDup c ps : NoDup (last_names c ps).
Proof.
  destruct ps as [|q r _] using rev_ind; [constructor|]. rewrite last_names_app. destruct (controlled_by c q); repeat constructor. intros [].
Qed.

Lemma mode_has ps c n : (forall p, In p ps -> pv_name p <> None) -> In n (collect_names c ps) <-> has_mode ps c n.
Proof.
  intros H. rewrite collect_In. split; intros (p & I & A).
  - destruct A as [A B]. exists p. split; [exact I|]. split; [|exact A]. pose proof (H p I). destruct (pv_name p); [cbn in B; subst n; reflexivity | contradiction].
  - destruct A as [A B]. exists p. split; [exact I|]. split; [exact B|]. rewrite A. reflexivity.
Qed.
Lemma mode_last ps c n : (forall p, In p ps -> pv_name p <> None) -> In n (last_names c ps) <-> last_mode ps c n.
Proof.
  intros H. rewrite last_In. split; intros (a & p & I & A); subst ps; pose proof (H p (proj2 (in_app_iff a [p] p) (or_intror (or_introl eq_refl)))) as NN.
  - destruct A as [A B]. exists a, p. split; [reflexivity|]. split; [|exact A]. destruct (pv_name p); [cbn in B; subst n; reflexivity | contradiction].
  - destruct A as [A B]. exists a, p. split; [reflexivity|]. split; [exact B|]. rewrite A. reflexivity.
Qed.

(** *** The controls are those of the specification *)
Lemma boxed_items n : token n -> items ("[" ++ n ++ "]")%string = [n].
Proof.
  intros [_ N]. unfold items. fold strip.
  assert (U : unwrapped ("[" ++ n ++ "]") = n).
  { unfold unwrapped. cbn [append String.length]. rewrite length_app_s. cbn [String.length]. replace (S (String.length n + 1) - 2) with (String.length n) by lia.
    cbn [substring]. apply sub_front. }
  rewrite U, (pieces_free _ _ (token_comma _ N)). cbn [map]. rewrite (proj1 (strip_token n N)). reflexivity.
Qed.
Definition control_elts (loc : string) (vv both : list string) : list element :=
  (if negb (none vv) then vv_curve_elt loc :: map (vv_elt loc) vv else []) ++
  (if negb (none both) then (if none vv then [vv_curve_elt loc] else []) ++ [vw_curve_elt loc] ++ map (both_elt loc) both else []).
Lemma none_true {A} (l : list A) : none l = true <-> l = [].
Proof. destruct l; split; congruence || reflexivity || discriminate. Qed.
Lemma control_elts_In loc vv both e : In e (control_elts loc vv both) <->
  (e = vv_curve_elt loc /\ (vv <> [] \/ both <> [])) \/ (e = vw_curve_elt loc /\ both <> []) \/
  (exists n, e = vv_elt loc n /\ In n vv) \/ (exists n, e = both_elt loc n /\ In n both).
Proof.
  assert (MV : In e (map (vv_elt loc) vv) <-> exists n, e = vv_elt loc n /\ In n vv)
    by (rewrite in_map_iff; split; intros (n & A & B); exists n; (split; [symmetry; exact A | exact B])).
  assert (MB : In e (map (both_elt loc) both) <-> exists n, e = both_elt loc n /\ In n both)
    by (rewrite in_map_iff; split; intros (n & A & B); exists n; (split; [symmetry; exact A | exact B])).
  assert (NV : (exists n, e = vv_elt loc n /\ In n vv) -> vv <> []) by (intros (n & _ & I) ->; exact I).
  assert (NB : (exists n, e = both_elt loc n /\ In n both) -> both <> []) by (intros (n & _ & I) ->; exact I).
  unfold control_elts. rewrite in_app_iff.
  assert (C1 : In e (if negb (none vv) then vv_curve_elt loc :: map (vv_elt loc) vv else []) <-> vv <> [] /\ (e = vv_curve_elt loc \/ exists n, e = vv_elt loc n /\ In n vv)).
  { destruct (none vv) eqn:N; cbn [negb].
    - apply none_true in N. split; [intros [] | intros [Q _]; contradiction].
    - cbn [In]. rewrite MV. assert (vv <> []) by (intros Q; apply none_true in Q; congruence).
      split; [intros [Q|Q]; (split; [assumption|]); [left; symmetry; exact Q | right; exact Q] | intros [_ [Q|Q]]; [left; symmetry; exact Q | right; exact Q]]. }
  assert (C2 : In e (if negb (none both) then (if none vv then [vv_curve_elt loc] else []) ++ [vw_curve_elt loc] ++ map (both_elt loc) both else []) <->
    both <> [] /\ ((vv = [] /\ e = vv_curve_elt loc) \/ e = vw_curve_elt loc \/ exists n, e = both_elt loc n /\ In n both)).
  { destruct (none both) eqn:N; cbn [negb].
    - apply none_true in N. split; [intros [] | intros [Q _]; contradiction].
    - rewrite !in_app_iff, MB. assert (both <> []) by (intros Q; apply none_true in Q; congruence).
      assert (I1 : In e (if none vv then [vv_curve_elt loc] else []) <-> vv = [] /\ e = vv_curve_elt loc).
      { destruct (none vv) eqn:M; [apply none_true in M | assert (vv <> []) by (intros Q; apply none_true in Q; congruence)].
        - split; [intros [Q|[]]; split; [exact M | symmetry; exact Q] | intros [_ Q]; left; symmetry; exact Q].
        - split; [intros [] | intros [Q _]; contradiction]. }
      rewrite I1. cbn [In]. split; [intros [Q|[[Q|[]]|Q]]; (split; [assumption|]); [left; exact Q | right; left; symmetry; exact Q | right; right; exact Q]|].
      intros [_ [Q|[Q|Q]]]; [left; exact Q | right; left; left; symmetry; exact Q | right; right; exact Q]. }
  rewrite C1, C2. assert (D : vv = [] \/ vv <> []) by (destruct vv; [left; reflexivity | right; discriminate]). tauto.
Qed.

Lemma vv_elt_props loc n : token n -> steers (vv_elt loc n) n /\ prop (vv_elt loc n) "mode" = Some "VOLTVAR" /\ prop (vv_elt loc n) "combimode" = None /\
  prop (vv_elt loc n) "vvc_curve1" = Some ("VoltVarCurve_" ++ loc)%string.
Proof.
  intros N. split; [split; [reflexivity|]; exists ("[" ++ n ++ "]")%string; split; [reflexivity | apply boxed_items; exact N]|]. repeat split.
Qed.
Lemma both_elt_props loc n : token n -> steers (both_elt loc n) n /\ prop (both_elt loc n) "mode" = None /\ prop (both_elt loc n) "combimode" = Some "VV_VW" /\
  prop (both_elt loc n) "vvc_curve1" = Some ("VoltVarCurve_" ++ loc)%string /\ prop (both_elt loc n) "voltwatt_curve" = Some ("VoltWattCurve_" ++ loc)%string.
Proof.
  intros N. split; [split; [reflexivity|]; exists ("[" ++ n ++ "]")%string; split; [reflexivity | apply boxed_items; exact N]|]. repeat split.
Qed.
Lemma steers_fun e n m : steers e n -> steers e m -> n = m.
Proof. intros (_ & v & P & I) (_ & w & Q & J). rewrite P in Q. injection Q as <-. rewrite I in J. injection J as <-. reflexivity. Qed.
Lemma app_inj_s a b c : (a ++ b = a ++ c)%string -> b = c.
Proof. induction a as [|x a IH]; [intros Q; exact Q|]. intros Q. injection Q as Q. exact (IH Q). Qed.

Lemma NoDup_app_intro {A} (a b : list A) : NoDup a -> NoDup b -> (forall x, In x a -> ~ In x b) -> NoDup (a ++ b).
Proof.
  induction 1 as [|x r N _ IH]; intros B D; [exact B|]. cbn [app]. constructor.
  - rewrite in_app_iff. intros [I|I]; [exact (N I) | exact (D x (or_introl eq_refl) I)].
  - apply IH; [exact B|]. intros y I. exact (D y (or_intror I)).
Qed.
Lemma controls_spec loc ps vv both : (forall p, In p ps -> pv_name p <> None) -> (forall n, In n vv -> token n) -> (forall n, In n both -> token n) ->
  NoDup vv -> NoDup both -> (forall n, In n vv <-> has_mode ps "voltvar" n) -> (forall n, In n both <-> last_mode ps "voltwatt_voltvar" n) ->
  controls_are ps (control_elts loc vv both).
Proof.
  intros NN TV TB DV DB HV HB.
  assert (VC : volt_var (vv_curve_elt loc)) by (split; [reflexivity|]; eexists; eexists; repeat split; reflexivity).
  assert (WC : volt_watt (vw_curve_elt loc)) by (split; [reflexivity|]; eexists; eexists; repeat split; reflexivity).
  split.
  - intros e I. apply control_elts_In in I as [[-> _]|[[-> _]|[(n & -> & I)|(n & -> & I)]]]; cbn; tauto.
  - intros e I C. apply control_elts_In in I as [[-> _]|[[-> _]|[(n & -> & I)|(n & -> & I)]]]; try discriminate C; exists n.
    + apply vv_elt_props, TV, I.
    + apply both_elt_props, TB, I.
  - intros n. rewrite <- HV. split.
    + intros (e & I & S & M). apply control_elts_In in I as [[-> _]|[[-> _]|[(m & -> & I)|(m & -> & I)]]].
      * destruct S as [S _]. discriminate S.
      * destruct S as [S _]. discriminate S.
      * destruct (vv_elt_props loc m (TV m I)) as [S' _]. rewrite (steers_fun _ _ _ S S'). exact I.
      * destruct (both_elt_props loc m (TB m I)) as (_ & M' & _). rewrite M in M'. discriminate M'.
    + intros I. exists (vv_elt loc n). split; [apply control_elts_In; right; right; left; exists n; split; [reflexivity | exact I]|].
      destruct (vv_elt_props loc n (TV n I)) as (S & M & _). split; assumption.
  - intros n. rewrite <- HB. split.
    + intros (e & I & S & M). apply control_elts_In in I as [[-> _]|[[-> _]|[(m & -> & I)|(m & -> & I)]]].
      * destruct S as [S _]. discriminate S.
      * destruct S as [S _]. discriminate S.
      * destruct (vv_elt_props loc m (TV m I)) as (_ & _ & M' & _). rewrite M in M'. discriminate M'.
      * destruct (both_elt_props loc m (TB m I)) as [S' _]. rewrite (steers_fun _ _ _ S S'). exact I.
    + intros I. exists (both_elt loc n). split; [apply control_elts_In; right; right; right; exists n; split; [reflexivity | exact I]|].
      destruct (both_elt_props loc n (TB n I)) as (S & _ & M & _). split; assumption.
  - intros e n I S. apply control_elts_In in I as [[-> _]|[[-> _]|[(m & -> & I)|(m & -> & I)]]].
    + destruct S as [S _]. discriminate S.
    + destruct S as [S _]. discriminate S.
    + left. split; apply (vv_elt_props loc m (TV m I)).
    + right. split; apply (both_elt_props loc m (TB m I)).
  - intros e I C. exists ("VoltVarCurve_" ++ loc)%string, (vv_curve_elt loc).
    apply control_elts_In in I as [[-> _]|[[-> _]|[(m & -> & I)|(m & -> & I)]]]; try discriminate C.
    + split; [apply (vv_elt_props loc m (TV m I))|]. split; [|repeat split; apply VC]. apply control_elts_In. left. split; [reflexivity|]. left. intros ->. exact I.
    + split; [apply (both_elt_props loc m (TB m I))|]. split; [|repeat split; apply VC]. apply control_elts_In. left. split; [reflexivity|]. right. intros ->. exact I.
  - intros e I C. exists ("VoltWattCurve_" ++ loc)%string, (vw_curve_elt loc).
    apply control_elts_In in I as [[-> _]|[[-> _]|[(m & -> & I)|(m & -> & I)]]]; try (contradiction C; reflexivity).
    split; [apply (both_elt_props loc m (TB m I))|]. split; [|repeat split; apply WC]. apply control_elts_In. right. left. split; [reflexivity|]. intros ->. exact I.
  - unfold control_elts. set (key := fun e => (e_class e, e_name e)).
    assert (ND1 : NoDup (map key (map (vv_elt loc) vv))).
    { rewrite map_map. apply FinFun.Injective_map_NoDup; [|exact DV]. intros a b Q. injection Q as Q. exact Q. }
    assert (ND2 : NoDup (map key (map (both_elt loc) both))).
    { rewrite map_map. apply FinFun.Injective_map_NoDup; [|exact DB]. intros a b Q. injection Q as Q. exact Q. }
    assert (CV : forall l, ~ In ("XYCurve", ("VoltVarCurve_" ++ loc)%string) (map key (map (vv_elt loc) l)))
      by (intros l I; rewrite map_map in I; apply in_map_iff in I as (x & Q & _); discriminate Q).
    assert (CB : forall c l, ~ In ("XYCurve", c) (map key (map (both_elt loc) l)))
      by (intros c l I; rewrite map_map in I; apply in_map_iff in I as (x & Q & _); discriminate Q).
    assert (XB : forall x, In x (map key (map (vv_elt loc) vv)) -> ~ In x (map key (map (both_elt loc) both))).
    { intros x I J. rewrite map_map in I, J. apply in_map_iff in I as (a & <- & _). apply in_map_iff in J as (b & Q & _). discriminate Q. }
    destruct (none vv) eqn:NV, (none both) eqn:NB; cbn [negb app map]; rewrite ?app_nil_r.
    + constructor.
    + repeat constructor; [|apply CB | exact ND2]. intros [Q|I]; [discriminate Q | exact (CB _ _ I)].
    + constructor; [apply CV | exact ND1].
    + rewrite map_app. cbn [map]. constructor.
      * rewrite in_app_iff. intros [I|[Q|I]]; [exact (CV _ I) | discriminate Q | exact (CB _ _ I)].
      * apply NoDup_app_intro; [exact ND1 | constructor; [apply CB | exact ND2]|]. intros x I [Q|J]; [|exact (XB x I J)].
        rewrite map_map in I. apply in_map_iff in I as (a & <- & _). discriminate Q.
Qed.

(** A row whose first word is no command cannot be read. *)
Lemma stray_word z : read_dss ("]New" ++ String " " z)%string = None.
Proof.
  unfold read_dss. cbn [append]. 
  assert (P : exists h r, pieces newline (String "]" (String "N" (String "e" (String "w" (String " " z))))) = (String "]" (String "N" (String "e" (String "w" (String " " h))))) :: r).
  { cbn [pieces]. change (newline "]") with false. change (newline "N") with false. change (newline "e") with false. change (newline "w") with false. change (newline " ") with false. cbn iota.
    pose proof (pieces_nonempty newline z) as N. destruct (pieces newline z) as [|h r]; [contradiction N; reflexivity|]. exists h, r. reflexivity. }
  destruct P as (h & r & ->). cbn [commands].
  assert (W : words (String "]" (String "N" (String "e" (String "w" (String " " h))))) = "]New" :: words h).
  { unfold words. change (String "]" (String "N" (String "e" (String "w" (String " " h))))) with ("]New" ++ String " " h)%string. rewrite cuts_cut by reflexivity. reflexivity. }
  rewrite W. reflexivity.
Qed.
Lemma none_perm {A} (l m : list A) : Permutation l m -> none l = none m.
Proof. intros P. destruct l, m; try reflexivity; [apply Permutation_nil in P | apply Permutation_sym, Permutation_nil in P]; discriminate P. Qed.
Lemma inv_reads order loc vv both : (forall l, Permutation (order l) l) -> token loc -> (forall n, In n vv -> token n) -> (forall n, In n both -> token n) ->
  reads (inv_text order loc vv [] both) (control_elts loc (order vv) (order both)).
Proof.
  intros O L TV TB. unfold inv_text, control_elts. cbn [none negb andb]. rewrite Bool.andb_true_r, (none_perm _ _ (O vv)), (none_perm _ _ (O both)).
  assert (RV : reads (texts (map (vv_control loc) (order vv))) (map (vv_elt loc) (order vv))).
  { apply reads_texts. intros x I. apply vv_reads; [exact L|]. apply TV. exact (Permutation_in _ (O vv) I). }
  assert (RB : reads (texts (map (both_control loc) (order both))) (map (both_elt loc) (order both))).
  { apply reads_texts. intros x I. apply both_reads; [exact L|]. apply TB. exact (Permutation_in _ (O both) I). }
  apply reads_app.
  - destruct (negb (none vv)); [|exact reads_nil]. apply (reads_app _ _ [vv_curve_elt loc]); [apply vv_curve_reads; exact L | exact RV].
  - cbn [append]. destruct (negb (none both)); [|exact reads_nil].
    apply reads_app; [destruct (none vv); [apply vv_curve_reads; exact L | exact reads_nil]|].
    apply (reads_app _ _ [vw_curve_elt loc]); [apply vw_curve_reads; exact L | exact RB].
Qed.
Lemma inv_stray order loc vv vw both : (forall l, Permutation (order l) l) -> token loc -> (forall n, In n vw -> token n) -> vw <> [] ->
  read_dss (inv_text order loc vv vw both) = None.
Proof.
  intros O L TW NE. unfold inv_text. assert (NW : none vw = false) by (destruct vw; [contradiction NE; reflexivity | reflexivity]).
  rewrite NW, Bool.andb_false_r. cbn [negb append].
  assert (RW : reads (texts (map (vw_control loc) (order vw))) (map (vw_elt loc) (order vw))).
  { apply reads_texts. intros x I. apply vw_reads; [exact L|]. apply TW. exact (Permutation_in _ (O vw) I). }
  rewrite !app_assoc_s, (vw_curve_reads loc L), RW.
  match goal with |- option_map _ (option_map _ (read_dss ("]" ++ ?x))) = None => enough (E : read_dss ("]" ++ x) = None) by (rewrite E; reflexivity) end.
  destruct (none both); cbn [negb]; [reflexivity|].
  destruct (none vv).
  - unfold vv_curve. rewrite !app_assoc_s. generalize (loc ++ " npts=6 Yarray=(1.0,1.0,0.0,0.0,-1.0,-1.0) Xarray=(0.5,0.92,0.98,1.02,1.08,1.5)" ++ nl2 ++ "" ++ texts (map (both_control loc) (order both)))%string.
    intros z. exact (stray_word _).
  - cbn [append]. destruct (order both) as [|b r] eqn:OB; [reflexivity|].
    cbn [map texts fold_right]. unfold both_control at 1. rewrite !app_assoc_s. exact (stray_word _).
Qed.
