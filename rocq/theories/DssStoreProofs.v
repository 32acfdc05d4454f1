(** The storage units of the OpenDSS script. *)
From Verif Require Import Base BaseFacts CsvModel DssNameModel DssTextModel DssTransModel DssStoreModel DssNameSpec DssTextSpec DssLoadSpec DssStoreSpec
  DssNameProofs DssTextProofs DssLoadProofs DssLineTextProofs DssTransProofs.
From Coq Require Import QArith Qabs Lia.
Local Open Scope string_scope.
Local Open Scope nat_scope.
Local Open Scope list_scope.

Lemma all_some_iff {A} (l : list (option A)) : (forall o, In o l -> o <> None) -> all_some l = Some (given l).
Proof.
  induction l as [|[x|] r IH]; intros H; [reflexivity | |].
  - cbn [all_some given]. rewrite IH; [reflexivity|]. intros o I. apply H. right. exact I.
  - contradiction (H None (or_introl eq_refl)). reflexivity.
Qed.
Lemma all_some_none {A} (l : list (option A)) : all_some l = None <-> In None l.
Proof.
  induction l as [|[x|] r IH]; cbn [all_some In].
  - split; [discriminate | intros []].
  - destruct (all_some r); split.
    + discriminate.
    + intros [Q|I]; [discriminate Q|]. apply IH in I. discriminate I.
    + intros _. right. apply IH. reflexivity.
    + reflexivity.
  - split; [left; reflexivity | reflexivity].
Qed.
Lemma total_sum l : (total l == sum l)%Q.
Proof.
  unfold total. enough (H : forall a, (fold_left Qplus l a == a + sum l)%Q) by (rewrite H; ring).
  induction l as [|x r IH]; intros a; cbn [fold_left]; [cbn; ring|]. rewrite IH. change (sum (x :: r)) with (x + sum r)%Q. ring.
Qed.
Lemma known_all (f : phase_storage -> option Q) ps : (forall p, In p ps -> f p <> None) -> all_some (map f ps) = Some (given (map f ps)).
Proof. intros H. apply all_some_iff. intros o I. apply in_map_iff in I as (p & <- & I). exact (H p I). Qed.
Lemma unknown_all (f : phase_storage -> option Q) ps : ~ (forall p, In p ps -> f p <> None) -> all_some (map f ps) = None.
Proof.
  intros H. apply all_some_none. destruct (in_dec (fun a b : option Q => ltac:(decide equality; decide equality; [apply Pos.eq_dec | apply Z.eq_dec])) None (map f ps)) as [I|I]; [exact I|].
  exfalso. apply H. intros p J Q. apply I. rewrite <- Q. apply in_map. exact J.
Qed.

Section Sto.
Variable show : Q -> string.
Variable num : string -> option Q.
Hypothesis FS : faithful show num.
Variable root : Q -> Q.
Hypothesis RT : exact_root root.
Variable parent : string -> option (option Q).

Definition kw_field (s : storage) : option string :=
  match so_phases s with Some ps => option_map (fun p => show (milli (total p))) (all_some (map ps_p ps)) | None => None end.
Definition pf_field (s : storage) : option string :=
  match so_phases s with
  | Some ps =>
    match all_some (map ps_p ps), all_some (map ps_q ps) with
    | Some p, Some q => if Qeq_bool (total q) 0 || Qeq_bool (total p) 0 then None else Some (show (total p / root (total p * total p + total q * total q)))
    | _, _ => None
    end
  | None => None
  end.
Definition count_field (s : storage) (v : Q) (ps : list phase_storage) : string := if negb (Qle_bool 300 v) then "1" else str_of (length ps).
Definition kva_field (kv : option Q) (s : storage) : option string :=
  match kv, so_active s with
  | Some _, Some a => Some (show (milli (a / match so_pf s with Some f => Qabs f | None => 1%Q end)))
  | _, _ => None
  end.
Definition store_fields (s : storage) (kv : option Q) (ns : list string) : fields :=
  [("phases", match so_phases s, so_kv s with Some ps, Some v => Some (count_field s v ps) | _, _ => None end);
   ("kW", kw_field s); ("pf", pf_field s);
   ("bus1", option_map (fun b => re_sub b ++ dotted ns)%string (so_bus s));
   ("kV", option_map (fun v => show (milli v)) kv);
   ("kVA", kva_field kv s);
   ("kWRated", option_map (fun v => show (milli v)) (so_rated s));
   ("kWhRated", option_map (fun v => show (milli v)) (so_kwh s));
   ("kWhStored", option_map (fun v => show (milli v)) (so_stored s));
   ("State", Some (match so_state s with Some x => x | None => "IDLING" end));
   ("%reserve", option_map (fun v => show (milli v)) (so_reserve s));
   ("%Discharge", option_map show (so_dis s));
   ("%Charge", option_map show (so_cha s));
   ("%EffCharge", option_map show (so_effc s));
   ("%EffDischarge", option_map show (so_effd s));
   ("%R", option_map show (so_r s));
   ("%X", option_map show (so_x s));
   ("model", option_map show_int (so_model s))].
Definition store_element (n : string) (s : storage) (kv : option Q) (ns : list string) : element := mkElement "Storage" n (props_of (store_fields s kv ns)).

Lemma store_nodes ps ns : Forall2 (fun p n => exists x, ps_phase p = Some x /\ at_node x n) ps ns ->
  texts (map (fun p => "." ++ show_node (ps_phase p))%string ps) = dotted ns.
Proof.
  induction 1 as [|p n ps ns (x & E & A) _ IH]; [reflexivity|]. cbn [map texts fold_right]. change (fold_right append "" (map ?f ?l)) with (texts (map f l)).
  rewrite IH, E. pose proof (node_show x n A) as W. unfold show_phase in W. unfold show_node, map_phase. rewrite W. reflexivity.
Qed.
Lemma phases_nodes' s : (forall p, In p (phases_of s) -> exists x n, ps_phase p = Some x /\ at_node x n) ->
  exists ns, Forall2 (fun p n => exists x, ps_phase p = Some x /\ at_node x n) (phases_of s) ns.
Proof.
  generalize (phases_of s). induction l as [|p r IH]; intros H; [exists []; constructor|].
  destruct (IH (fun q I => H q (or_intror I))) as [ns F]. destruct (H p (or_introl eq_refl)) as (x & n & E & A). exists (n :: ns).
  constructor; [exists x; split; assumption | exact F].
Qed.
Lemma nodes_tokens' ps ns : Forall2 (fun p n => exists x, ps_phase p = Some x /\ at_node x n) ps ns ->
  Forall (fun n => all_chars ordinary n = true) ns /\ Forall (free (Ascii.eqb ".")) ns.
Proof. induction 1 as [|p n ps ns (x & E & H) _ [A B]]; [split; constructor|]. destruct (node_token _ _ H). split; constructor; assumption. Qed.

Lemma store_row s n v ns : so_name s = Some n -> (so_phases s <> None -> so_kv s <> None) -> voltage_of parent s v ->
  (so_active s <> None -> forall f, so_pf s = Some f -> ~ (f == 0)%Q) ->
  Forall2 (fun p n => exists x, ps_phase p = Some x /\ at_node x n) (phases_of s) ns ->
  storage_text show root parent s = Ok (row (store_element n s v ns) [] ++ nl)%string.
Proof.
  intros N PV V PF F. unfold storage_text.
  assert (Ph : phases_text show root s = Ok (field_text ("phases", match so_phases s, so_kv s with Some ps, Some v => Some (count_field s v ps) | _, _ => None end) ++
    field_text ("kW", kw_field s) ++ field_text ("pf", pf_field s))%string).
  { unfold phases_text, kw_field, pf_field. destruct (so_phases s) as [ps|]; [|reflexivity]. destruct (so_kv s) as [x|]; [|contradiction PV; [discriminate | reflexivity]].
    cbn [of_opt bind]. f_equal. unfold count_field. unfold power_text.
    destruct (all_some (map ps_p ps)) as [p|]; cbn [option_map]; [|destruct (negb (Qle_bool 300 x)); cbn [field_text snd append]; rewrite ?app_nil_s; reflexivity].
    destruct (all_some (map ps_q ps)) as [q|]; [destruct (Qeq_bool (total q) 0 || Qeq_bool (total p) 0)|]; destruct (negb (Qle_bool 300 x));
      cbn [field_text snd fst append]; rewrite ?app_nil_s; reflexivity. }
  rewrite Ph. cbn [bind].
  assert (Kv : store_kv parent s = Ok v).
  { unfold store_kv. unfold voltage_of in V. destruct (so_kv s) as [x|]; [subst v; destruct (so_bus s); reflexivity|].
    destruct (so_bus s) as [b|]; [rewrite V | subst v]; reflexivity. }
  rewrite Kv. cbn [bind].
  assert (Ka : kva_text show v s = Ok (field_text ("kVA", kva_field v s))).
  { unfold kva_text, kva_field. destruct v as [x|]; [|reflexivity]. destruct (so_active s) as [a|]; [|reflexivity].
    destruct (so_pf s) as [f|] eqn:E; [|reflexivity]. destruct (Qeq_bool (Qabs f) 0) eqn:Z; [|reflexivity]. exfalso. apply Qeq_bool_iff in Z.
    apply (PF ltac:(discriminate) f eq_refl). revert Z. apply Qabs_case; intros _ Z; [exact Z|]. rewrite <- (Qopp_involutive f), Z. reflexivity. }
  rewrite Ka. cbn [bind]. f_equal.
  assert (B : store_bus s = field_text ("bus1", option_map (fun b => re_sub b ++ dotted ns)%string (so_bus s))).
  { unfold store_bus. apply opt_field. intros b. unfold phases_of in F. destruct (so_phases s) as [ps|].
    - rewrite (store_nodes ps ns F). reflexivity.
    - inversion F; subst. reflexivity. }
  rewrite B, N. cbn [opt_text].
  rewrite (opt_field (fun v => " kV=" ++ show (milli v))%string (fun v => show (milli v)) "kV") by reflexivity.
  rewrite (opt_field (fun v => " kWRated=" ++ show (milli v))%string (fun v => show (milli v)) "kWRated") by reflexivity.
  rewrite (opt_field (fun v => " kWhRated=" ++ show (milli v))%string (fun v => show (milli v)) "kWhRated") by reflexivity.
  rewrite (opt_field (fun v => " kWhStored=" ++ show (milli v))%string (fun v => show (milli v)) "kWhStored") by reflexivity.
  rewrite (opt_field (fun v => " %reserve=" ++ show (milli v))%string (fun v => show (milli v)) "%reserve") by reflexivity.
  rewrite (opt_field (fun v => " %Discharge=" ++ show v)%string show "%Discharge") by reflexivity.
  rewrite (opt_field (fun v => " %Charge=" ++ show v)%string show "%Charge") by reflexivity.
  rewrite (opt_field (fun v => " %EffCharge=" ++ show v)%string show "%EffCharge") by reflexivity.
  rewrite (opt_field (fun v => " %EffDischarge=" ++ show v)%string show "%EffDischarge") by reflexivity.
  rewrite (opt_field (fun v => " %R=" ++ show v)%string show "%R") by reflexivity.
  rewrite (opt_field (fun v => " %X=" ++ show v)%string show "%X") by reflexivity.
  rewrite (opt_field (fun v => " model=" ++ show_int v)%string show_int "model") by reflexivity.
  assert (St : match so_state s with Some x => (" State=" ++ x)%string | None => " State=IDLING" end =
    field_text ("State", Some (match so_state s with Some x => x | None => "IDLING" end))) by (destruct (so_state s); reflexivity).
  rewrite St. unfold store_element. rewrite row_fields. unfold store_fields. cbn [map texts fold_right]. rewrite app_nil_s, !app_assoc_s. reflexivity.
Qed.

Lemma store_element_ok s n v ns : token n -> so_bus s <> Some "" -> Forall (fun x => all_chars ordinary x = true) ns ->
  (forall x, so_state s = Some x -> token x) -> eok (store_element n s v ns).
Proof.
  intros T B FN St. unfold eok. cbn [e_class e_name e_props store_element]. split; [split; [discriminate | reflexivity]|]. split; [reflexivity|]. split; [exact T|].
  apply fields_ok. unfold store_fields.
  repeat (apply Forall_cons; [split; [split; [discriminate | reflexivity] | cbn [snd]; intros w Q]|]); [..|apply Forall_nil];
    try (match type of Q with option_map _ ?o = Some _ => destruct o as [y|]; [|discriminate Q]; injection Q as <-; (exact (proj1 FS _) || apply int_token) end).
  - destruct (so_phases s), (so_kv s); try discriminate Q. injection Q as <-. unfold count_field. destruct (negb _); [split; [discriminate | reflexivity] | apply str_token].
  - unfold kw_field in Q. destruct (so_phases s) as [ps|]; [|discriminate Q]. destruct (all_some _); [|discriminate Q]. injection Q as <-. apply FS.
  - unfold pf_field in Q. destruct (so_phases s) as [ps|]; [|discriminate Q]. destruct (all_some _); [|discriminate Q]. destruct (all_some _); [|discriminate Q].
    destruct (_ || _); [discriminate Q|]. injection Q as <-. apply FS.
  - destruct (so_bus s) as [b|]; [|discriminate Q]. injection Q as <-. apply bus_token; [|exact FN]. intros ->. exact (B eq_refl).
  - unfold kva_field in Q. destruct v; [|discriminate Q]. destruct (so_active s); [|discriminate Q]. injection Q as <-. apply FS.
  - injection Q as <-. destruct (so_state s) as [x|]; [exact (St x eq_refl) | split; [discriminate | reflexivity]].
Qed.

Lemma store_prop n s v ns k : prop (store_element n s v ns) k = look_field k (store_fields s v ns).
Proof. rewrite prop_look. apply look_fields. Qed.
Lemma opt_id {A} (o : option A) : match o with Some v => Some v | None => None end = o.
Proof. destruct o; reflexivity. Qed.
Ltac sf := rewrite store_prop; unfold store_fields; lk; rewrite ?opt_id; reflexivity.
Lemma gives_milli e k o : prop e k = option_map (fun v => show (milli v)) o -> gives num e k (match o with Some x => Some (x / 1000)%Q | None => None end).
Proof. destruct o as [x|]; intros P; [|exact P]. exact (show_gives show num FS e k (milli x) P _ (milli_div x)). Qed.
Lemma gives_plain e k o : prop e k = option_map show o -> gives num e k o.
Proof. destruct o as [x|]; intros P; [|exact P]. exact (show_gives show num FS e k x P x (Qeq_refl x)). Qed.

Lemma store_element_is s n v ns : so_name s = Some n -> (so_phases s <> None -> so_kv s <> None) -> voltage_of parent s v ->
  Forall2 (fun p n => exists x, ps_phase p = Some x /\ at_node x n) (phases_of s) ns ->
  storage_is num parent s (store_element n s v ns).
Proof.
  intros N PV V F. pose proof (nodes_tokens' _ _ F) as [_ FN].
  assert (KW : prop (store_element n s v ns) "kw" = kw_field s) by sf.
  assert (PFp : prop (store_element n s v ns) "pf" = pf_field s) by sf.
  split.
  - reflexivity.
  - exact N.
  - assert (P : prop (store_element n s v ns) "phases" = match so_phases s, so_kv s with Some ps, Some v => Some (count_field s v ps) | _, _ => None end)
      by (rewrite store_prop; unfold store_fields; lk; reflexivity).
    rewrite P. destruct (so_phases s) as [ps|]; [|reflexivity]. destruct (so_kv s) as [x|]; [|contradiction PV; [discriminate | reflexivity]].
    exists x, (if negb (Qle_bool 300 x) then 1 else length ps). split; [reflexivity|]. unfold count_field.
    destruct (Qle_bool 300 x) eqn:L; cbn [negb]; (split; [reflexivity|]).
    + right. split; [apply Qle_bool_iff; exact L | reflexivity].
    + left. split; [|reflexivity]. apply Qnot_le_lt. intros H. apply Qle_bool_iff in H. congruence.
  - intros NP K. unfold known, phases_of, power in *. unfold phases_of. destruct (so_phases s) as [ps|] eqn:E; [|contradiction NP; reflexivity].
    assert (KF : kw_field s = Some (show (milli (total (given (map ps_p ps)))))) by (unfold kw_field; rewrite E, (known_all _ _ K); reflexivity).
    rewrite KF in KW. apply (show_gives show num FS _ _ _ KW). rewrite milli_div, total_sum. reflexivity.
  - intros H. rewrite KW, PFp. unfold kw_field, pf_field. unfold known, phases_of in H. destruct (so_phases s) as [ps|]; [|split; reflexivity].
    destruct H as [H|H]; [discriminate H|]. rewrite (unknown_all _ _ H). split; reflexivity.
  - intros NP K1 K2 Z1 Z2. unfold known, phases_of, power in *. unfold phases_of in *. destruct (so_phases s) as [ps|] eqn:E; [|contradiction NP; reflexivity].
    set (p := given (map ps_p ps)) in *. set (q := given (map ps_q ps)) in *.
    assert (PF : pf_field s = Some (show (total p / root (total p * total p + total q * total q))%Q)).
    { unfold pf_field. rewrite E, (known_all _ _ K1), (known_all _ _ K2). fold p q.
      destruct (Qeq_bool (total q) 0) eqn:A; [apply Qeq_bool_iff in A; rewrite total_sum in A; contradiction|].
      destruct (Qeq_bool (total p) 0) eqn:B; [apply Qeq_bool_iff in B; rewrite total_sum in B; contradiction|]. reflexivity. }
    exists (total p / root (total p * total p + total q * total q))%Q. split; [unfold value; rewrite PFp, PF; apply FS|].
    intros r R0 R. assert (RR : (root (total p * total p + total q * total q) == r)%Q) by (apply RT; [exact R0|]; rewrite R, !total_sum; reflexivity).
    rewrite RR, total_sum. field. intros Z. rewrite Z in R0. discriminate R0.
  - intros H. rewrite PFp. unfold pf_field. unfold known, phases_of, power in H. unfold phases_of in H. destruct (so_phases s) as [ps|]; [|reflexivity].
    destruct (all_some (map ps_p ps)) as [p|] eqn:A; [|reflexivity]. destruct (all_some (map ps_q ps)) as [q|] eqn:B; [|reflexivity].
    assert (SG : forall (l : list (option Q)) w, all_some l = Some w -> given l = w).
    { clear. induction l as [|[x|] r IH]; intros w Q; [injection Q as <-; reflexivity | | discriminate Q]. cbn [all_some] in Q. destruct (all_some r) as [u|]; [|discriminate Q].
      injection Q as <-. cbn [given]. rewrite (IH u eq_refl). reflexivity. }
    destruct H as [H|[H|H]].
    + rewrite (unknown_all _ _ H) in B. discriminate B.
    + rewrite (SG _ _ A), <- total_sum in H. apply Qeq_bool_iff in H. rewrite H, Bool.orb_true_r. reflexivity.
    + rewrite (SG _ _ B), <- total_sum in H. apply Qeq_bool_iff in H. rewrite H. reflexivity.
  - exists ns. split; [exact F|].
    assert (P : prop (store_element n s v ns) "bus1" = option_map (fun b => re_sub b ++ dotted ns)%string (so_bus s)) by sf.
    unfold connects. destruct (so_bus s) as [b|]; [|exact P].
    exists (re_sub b ++ dotted ns)%string, (re_sub b). split; [exact P|]. split; [|apply (sub_kept b)].
    apply terminal_dotted; [apply sub_from_token | exact FN].
  - exists v. split; [exact V|]. split; [apply gives_milli; sf|].
    assert (P : prop (store_element n s v ns) "kva" = kva_field v s) by sf.
    unfold kva_field in P. destruct v as [x|]; [|exact P]. destruct (so_active s) as [a|]; [|exact P].
    exact (show_gives show num FS _ _ _ P _ (milli_div _)).
  - apply gives_milli. sf.
  - apply gives_milli. sf.
  - apply gives_milli. sf.
  - sf.
  - apply gives_milli. sf.
  - apply gives_plain. sf.
  - apply gives_plain. sf.
  - apply gives_plain. sf.
  - apply gives_plain. sf.
  - apply gives_plain. sf.
  - apply gives_plain. sf.
  - sf.
  - apply only_fields. unfold store_fields. repeat (apply Forall_cons; [cbn; tauto|]). apply Forall_nil.
Qed.

Lemma store_reads s : good_storage parent s -> exists t e,
  storage_text show root parent s = Ok t /\ storage_is num parent s e /\
  forall rest els, read_dss rest = Some els -> read_dss (t ++ rest)%string = Some (e :: els).
Proof.
  intros ((n & N & T) & B & PV & (v & V) & Ph & St & PF). destruct (phases_nodes' s Ph) as [ns F]. pose proof (nodes_tokens' _ _ F) as [FT _].
  eexists. exists (store_element n s v ns). split; [exact (store_row s n v ns N PV V PF F)|]. split; [exact (store_element_is s n v ns N PV V F)|].
  intros rest els R. rewrite app_assoc_s. apply row_read; [exact (store_element_ok s n v ns T B FT St) | constructor | exact R].
Qed.
End Sto.
