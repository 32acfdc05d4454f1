(** The capacitors of the OpenDSS script. *)
From Verif Require Import Base BaseFacts CsvModel DssNameModel DssTextModel DssNameSpec DssTextSpec DssLoadSpec DssNameProofs DssTextProofs DssLoadProofs DssLineTextProofs.
From Coq Require Import QArith Lia.
Local Open Scope string_scope.
Local Open Scope nat_scope.
Local Open Scope list_scope.

Definition cap_dot (p : option string) : string := match p with Some "A" => ".1" | Some "B" => ".2" | Some "C" => ".3" | _ => "" end.
Lemma cap_dot_node p : exists ns, cap_node p ns /\ cap_dot p = dotted ns /\ Forall (fun n => all_chars ordinary n = true) ns /\ Forall (free (Ascii.eqb ".")) ns.
Proof.
  destruct p as [s|]; [|exists []; split; [constructor; discriminate | repeat split; constructor]].
  destruct (string_dec s "A") as [->|A]; [exists ["1"]; split; [constructor | repeat split; repeat constructor]|].
  destruct (string_dec s "B") as [->|B]; [exists ["2"]; split; [constructor | repeat split; repeat constructor]|].
  destruct (string_dec s "C") as [->|C]; [exists ["3"]; split; [constructor | repeat split; repeat constructor]|].
  exists []. split; [constructor; intros Q; injection Q as ->; contradiction|]. split; [|split; constructor].
  destruct s as [|[[] [] [] [] [] [] [] []] [|d s]]; try reflexivity; [contradiction C | contradiction A | contradiction B]; reflexivity.
Qed.
Lemma cap_dots (l : list phase_cap) : exists nss, Forall2 cap_node (map pc_phase l) nss /\
  texts (map (fun p => cap_dot (pc_phase p)) l) = dotted (concat nss) /\
  Forall (fun n => all_chars ordinary n = true) (concat nss) /\ Forall (free (Ascii.eqb ".")) (concat nss).
Proof.
  induction l as [|p r (nss & F & T & A & B)]; [exists []; repeat split; constructor|].
  destruct (cap_dot_node (pc_phase p)) as (ns & N & D & A' & B'). exists (ns :: nss). split; [constructor; assumption|].
  cbn [map texts fold_right concat]. change (fold_right append "" (map ?f r)) with (texts (map f r)). rewrite T, D, dotted_app.
  split; [reflexivity|]. split; apply Forall_app; split; assumption.
Qed.

Section Cap.
Variable show : Q -> string.
Variable num : string -> option Q.
Hypothesis FS : faithful show num.

Definition cap_fields (c : capacitor) (ns : list string) : fields :=
  [("bus1", option_map (fun b => re_sub b ++ dotted ns)%string (cp_bus c));
   ("phases", Some (if Nat.eqb (length (cp_phases c)) 2 || Nat.eqb (length (cp_phases c)) 1 then "1" else "3"));
   ("Kv", option_map (fun v => show (milli v)) (cp_kv c));
   ("conn", match cp_conn c with Some "Y" => Some "Wye" | Some "D" => Some "delta" | _ => None end);
   ("Kvar", Some (show (milli (known_sum (map pc_var (cp_phases c))))))].
Definition cap_element (n : string) (c : capacitor) (ns : list string) : element := mkElement "Capacitor" n (props_of (cap_fields c ns)).
Definition control_fields (n : string) (c : capacitor) : fields :=
  [("Capacitor", Some n);
   ("Element", option_map (fun e => "Line." ++ e)%string (cp_element c));
   ("Terminal", option_map (fun _ => "1") (cp_element c));
   ("delay", option_map show (cp_delay c));
   ("Type", option_map (fun m => show_opt (mode_mapping m)) (cp_mode c));
   ("Vmin", option_map show (cp_low c));
   ("Vmax", option_map show (cp_high c));
   ("Ptratio", option_map show (cp_pt c));
   ("Ctratio", option_map show (cp_ct c));
   ("PTPhase", option_map show_phase (cp_ptphase c))].
Definition control_element (n : string) (c : capacitor) : element := mkElement "CapControl" n (props_of (control_fields n c)).

Lemma cap_conn_text (o : option string) :
  match o with Some "Y" => " conn=Wye" | Some "D" => " conn=delta" | _ => "" end =
  field_text ("conn", match o with Some "Y" => Some "Wye" | Some "D" => Some "delta" | _ => None end).
Proof. destruct o as [c|]; [|reflexivity]. destruct c as [|[[] [] [] [] [] [] [] []] [|d c]]; reflexivity. Qed.

Lemma control_row n c : has_control c = true -> cap_control show n c = (nl ++ nl ++ row (control_element n c) [])%string.
Proof.
  intros H. unfold cap_control, control_element. rewrite H, row_fields. unfold control_fields. cbn [map texts fold_right].
  assert (E : opt_text (fun e => " Element=Line." ++ e ++ " Terminal=1")%string (cp_element c) =
    (field_text ("Element", option_map (fun e => "Line." ++ e)%string (cp_element c)) ++ field_text ("Terminal", option_map (fun _ => "1") (cp_element c)))%string)
    by (destruct (cp_element c); reflexivity).
  rewrite E.
  rewrite (opt_field (fun v => " delay=" ++ show v)%string show "delay") by reflexivity.
  rewrite (opt_field (fun m => " Type=" ++ show_opt (mode_mapping m))%string (fun m => show_opt (mode_mapping m)) "Type") by reflexivity.
  rewrite (opt_field (fun v => " Vmin=" ++ show v)%string show "Vmin") by reflexivity.
  rewrite (opt_field (fun v => " Vmax=" ++ show v)%string show "Vmax") by reflexivity.
  rewrite (opt_field (fun v => " Ptratio=" ++ show v)%string show "Ptratio") by reflexivity.
  rewrite (opt_field (fun v => " Ctratio=" ++ show v)%string show "Ctratio") by reflexivity.
  rewrite (opt_field (fun v => " PTPhase=" ++ show_phase v)%string show_phase "PTPhase") by reflexivity.
  rewrite app_nil_s, !app_assoc_s. change (field_text ("Capacitor", Some n)) with (" Capacitor=" ++ n)%string. rewrite !app_assoc_s. reflexivity.
Qed.

Lemma cap_row c n ns : cp_name c = Some n ->
  (if Nat.eqb (length (cp_phases c)) 3 then "" else texts (map (fun p => cap_dot (pc_phase p)) (cp_phases c))) = dotted ns ->
  cap_text show c = Some (row (cap_element n c ns) [] ++ (if has_control c then nl ++ nl ++ row (control_element n c) [] else "") ++ nl ++ nl)%string.
Proof.
  intros N D. unfold cap_text. rewrite N. f_equal.
  assert (B : cap_bus c = field_text ("bus1", option_map (fun b => re_sub b ++ dotted ns)%string (cp_bus c))).
  { unfold cap_bus. apply opt_field. intros b. unfold cap_dot in D. rewrite D. reflexivity. }
  assert (K : cap_control show n c = (if has_control c then nl ++ nl ++ row (control_element n c) [] else "")%string).
  { destruct (has_control c) eqn:H; [exact (control_row n c H)|]. unfold cap_control. rewrite H. reflexivity. }
  assert (P : (if Nat.eqb (length (cp_phases c)) 2 || Nat.eqb (length (cp_phases c)) 1 then " phases=1" else " phases=3") =
    field_text ("phases", Some (if Nat.eqb (length (cp_phases c)) 2 || Nat.eqb (length (cp_phases c)) 1 then "1" else "3")))
    by (destruct (_ || _); reflexivity).
  rewrite B, K, P, cap_conn_text.
  rewrite (opt_field (fun v => " Kv=" ++ show (milli v))%string (fun v => show (milli v)) "Kv") by reflexivity.
  unfold cap_element. rewrite row_fields. unfold cap_fields. cbn [map texts fold_right]. rewrite app_nil_s, !app_assoc_s.
  change (field_text ("Kvar", Some (show ?x))) with (" Kvar=" ++ show x)%string. rewrite !app_assoc_s. reflexivity.
Qed.

Lemma type_token m t : control_type m t -> token t.
Proof. intros []; (split; [discriminate | reflexivity]). Qed.
Lemma mode_type m t : control_type (lower m) t -> show_opt (mode_mapping m) = t.
Proof. unfold mode_mapping. intros H. inversion H as [Q R|Q R|Q R|Q R|Q R]; rewrite <- ?Q; reflexivity. Qed.

Lemma cap_element_ok c n ns : token n -> cp_bus c <> Some "" -> Forall (fun x => all_chars ordinary x = true) ns -> eok (cap_element n c ns).
Proof.
  intros T B FN. unfold eok. cbn [e_class e_name e_props cap_element]. split; [split; [discriminate | reflexivity]|]. split; [reflexivity|]. split; [exact T|].
  apply fields_ok. unfold cap_fields.
  repeat (apply Forall_cons; [split; [split; [discriminate | reflexivity] | cbn [snd]; intros v Q]|]); [..|apply Forall_nil].
  - destruct (cp_bus c) as [b|]; [|discriminate Q]. injection Q as <-. apply bus_token; [|exact FN]. intros ->. exact (B eq_refl).
  - injection Q as <-. destruct (_ || _); (split; [discriminate | reflexivity]).
  - destruct (cp_kv c); [|discriminate Q]. injection Q as <-. apply FS.
  - rewrite conn_spec in Q. destruct (cp_conn c) as [x|]; [|discriminate Q]. revert Q.
    destruct (String.eqb x "Y"); [intros Q; injection Q as <-; split; [discriminate | reflexivity]|].
    destruct (String.eqb x "D"); [intros Q; injection Q as <-; split; [discriminate | reflexivity] | discriminate].
  - injection Q as <-. apply FS.
Qed.
Lemma control_element_ok c n : token n -> (forall x, cp_element c = Some x -> token x) ->
  (forall m, cp_mode c = Some m -> exists t, control_type (lower m) t) -> (forall p, cp_ptphase c = Some p -> exists n, at_node p n) ->
  eok (control_element n c).
Proof.
  intros T E M P. unfold eok. cbn [e_class e_name e_props control_element]. split; [split; [discriminate | reflexivity]|]. split; [reflexivity|]. split; [exact T|].
  apply fields_ok. unfold control_fields.
  repeat (apply Forall_cons; [split; [split; [discriminate | reflexivity] | cbn [snd]; intros v Q]|]); [..|apply Forall_nil].
  - injection Q as <-. exact T.
  - destruct (cp_element c) as [x|]; [|discriminate Q]. injection Q as <-. split; [discriminate|]. cbn [all_chars]. rewrite (proj2 (E x eq_refl)). reflexivity.
  - destruct (cp_element c); [|discriminate Q]. injection Q as <-. split; [discriminate | reflexivity].
  - destruct (cp_delay c); [|discriminate Q]. injection Q as <-. apply FS.
  - destruct (cp_mode c) as [m|]; [|discriminate Q]. destruct (M m eq_refl) as [t K]. injection Q as <-. rewrite (mode_type m t K). exact (type_token _ _ K).
  - destruct (cp_low c); [|discriminate Q]. injection Q as <-. apply FS.
  - destruct (cp_high c); [|discriminate Q]. injection Q as <-. apply FS.
  - destruct (cp_pt c); [|discriminate Q]. injection Q as <-. apply FS.
  - destruct (cp_ct c); [|discriminate Q]. injection Q as <-. apply FS.
  - destruct (cp_ptphase c) as [p|]; [|discriminate Q]. destruct (P p eq_refl) as [m K]. injection Q as <-. rewrite (node_show p m K). destruct K; (split; [discriminate | reflexivity]).
Qed.

Lemma cap_element_is c n ns : cp_name c = Some n -> cap_nodes c ns -> Forall (free (Ascii.eqb ".")) ns -> cap_is num c (cap_element n c ns).
Proof.
  intros N CN FN.
  assert (P : forall k, prop (cap_element n c ns) k = look_field k (cap_fields c ns)) by (intros k; rewrite prop_look; apply look_fields).
  split.
  - reflexivity.
  - exact N.
  - exists ns. split; [exact CN|]. unfold connects. rewrite P. destruct (cp_bus c) as [b|] eqn:B; [|cbn; rewrite B; reflexivity].
    exists (re_sub b ++ dotted ns)%string, (re_sub b). split; [cbn; rewrite B; reflexivity|]. split; [|apply (sub_kept b)].
    apply terminal_dotted; [apply sub_from_token | exact FN].
  - rewrite P. cbn. destruct (length (cp_phases c)) as [|[|[|k]]]; reflexivity.
  - destruct (cp_kv c) as [v|] eqn:V.
    + apply (show_gives show num FS) with (q := milli v); [|apply milli_div]. rewrite P. cbn. rewrite V. reflexivity.
    + cbn [gives]. rewrite P. cbn. rewrite V. reflexivity.
  - rewrite P. cbn. rewrite conn_spec. destruct (match cp_conn c with Some _ => _ | None => _ end); reflexivity.
  - apply (show_gives show num FS) with (q := milli (known_sum (map pc_var (cp_phases c)))); [rewrite P; reflexivity|].
    rewrite milli_div, known_sum_sum. reflexivity.
  - apply only_fields. unfold cap_fields. repeat (apply Forall_cons; [cbn; tauto|]). apply Forall_nil.
Qed.
Lemma control_element_is c n : cp_name c = Some n ->
  (forall m, cp_mode c = Some m -> exists t, control_type (lower m) t) -> (forall p, cp_ptphase c = Some p -> exists n, at_node p n) ->
  control_is num c (control_element n c).
Proof.
  intros N M H.
  assert (P : forall k, prop (control_element n c) k = look_field k (control_fields n c)) by (intros k; rewrite prop_look; apply look_fields).
  assert (G : forall k o, look_field k (control_fields n c) = option_map show o -> gives num (control_element n c) k o).
  { intros k o Q. destruct o as [v|]; [|cbn [gives]; rewrite P; exact Q]. apply (show_gives show num FS) with (q := v); [rewrite P; exact Q | reflexivity]. }
  split.
  - reflexivity.
  - exact N.
  - rewrite P, N. reflexivity.
  - rewrite P. cbn. destruct (cp_element c); reflexivity.
  - rewrite P. cbn. destruct (cp_element c); reflexivity.
  - apply G. cbn. destruct (cp_delay c); reflexivity.
  - destruct (cp_mode c) as [m|] eqn:E; [|rewrite P; cbn; rewrite E; reflexivity]. destruct (M m eq_refl) as [t K]. exists t. split; [exact K|].
    rewrite P. cbn. rewrite E. cbn [option_map]. rewrite (mode_type m t K). reflexivity.
  - apply G. cbn. destruct (cp_low c); reflexivity.
  - apply G. cbn. destruct (cp_high c); reflexivity.
  - apply G. cbn. destruct (cp_pt c); reflexivity.
  - apply G. cbn. destruct (cp_ct c); reflexivity.
  - destruct (cp_ptphase c) as [p|] eqn:E; [|rewrite P; cbn; rewrite E; reflexivity]. destruct (H p eq_refl) as [m K]. exists m. split; [exact K|].
    rewrite P. cbn. rewrite E. cbn [option_map]. rewrite (node_show p m K). reflexivity.
  - apply only_fields. unfold control_fields. repeat (apply Forall_cons; [cbn; tauto|]). apply Forall_nil.
Qed.

Lemma has_control_spec c : has_control c = true <-> controlled c.
Proof.
  unfold has_control, controlled.
  assert (S : forall A (o : option A), some o = true <-> o <> None) by (intros A [x|]; cbn; split; (reflexivity || discriminate || (intros H; contradiction H; reflexivity) || intros _; discriminate)).
  rewrite !Bool.orb_true_iff, !S. tauto.
Qed.

Lemma cap_reads c : good_cap c -> exists t e, cap_text show c = Some t /\ cap_is num c e /\
  ((~ controlled c /\ forall rest els, read_dss rest = Some els -> read_dss (t ++ rest)%string = Some (e :: els)) \/
   (controlled c /\ exists k, control_is num c k /\ forall rest els, read_dss rest = Some els -> read_dss (t ++ rest)%string = Some (e :: k :: els))).
Proof.
  intros ((n & N & T) & B & E & M & H).
  assert (D : exists ns, cap_nodes c ns /\
    (if Nat.eqb (length (cp_phases c)) 3 then "" else texts (map (fun p => cap_dot (pc_phase p)) (cp_phases c))) = dotted ns /\
    Forall (fun n => all_chars ordinary n = true) ns /\ Forall (free (Ascii.eqb ".")) ns).
  { destruct (Nat.eqb_spec (length (cp_phases c)) 3) as [L|L].
    - exists []. split; [left; split; [exact L | reflexivity]|]. repeat split; constructor.
    - destruct (cap_dots (cp_phases c)) as (nss & F & X & A1 & A2). exists (concat nss).
      split; [right; split; [exact L|]; exists nss; split; [exact F | reflexivity]|]. repeat split; assumption. }
  destruct D as (ns & CN & X & T1 & T2).
  eexists. exists (cap_element n c ns). split; [exact (cap_row c n ns N X)|]. split; [exact (cap_element_is c n ns N CN T2)|].
  pose proof (cap_element_ok c n ns T B T1) as EO. pose proof (control_element_ok c n T E M H) as KO.
  destruct (has_control c) eqn:HC.
  - right. split; [apply has_control_spec; exact HC|]. exists (control_element n c). split; [exact (control_element_is c n N M H)|]. intros rest els R.
    rewrite !app_assoc_s. apply row_read2; [exact EO | constructor|]. apply row_read2; [exact KO | constructor | exact R].
  - left. split; [intros K; apply has_control_spec in K; congruence|]. intros rest els R. rewrite !app_assoc_s. apply row_read2; [exact EO | constructor|]. exact R.
Qed.
End Cap.
