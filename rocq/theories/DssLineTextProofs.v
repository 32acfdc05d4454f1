(** The lines of the OpenDSS script. *)
From Verif Require Import Base BaseFacts CsvModel DssNameModel DssTextModel DssNameSpec DssTextSpec DssLoadSpec DssNameProofs DssTextProofs DssLoadProofs.
From Coq Require Import QArith Lia.
Local Open Scope string_scope.
Local Open Scope nat_scope.
Local Open Scope list_scope.

Lemma six p : In p ["A"; "B"; "C"; "N"; "N1"; "N2"] -> (neutral p /\ negb (smem p ["N"; "N1"; "N2"]) = false /\ smem p ["A"; "B"; "C"] = false) \/
  (~ neutral p /\ negb (smem p ["N"; "N1"; "N2"]) = true /\ smem p ["A"; "B"; "C"] = true /\ exists n, at_node p n).
Proof.
  intros [<-|[<-|[<-|[<-|[<-|[<-|[]]]]]]].
  1-3: right; split; [intros [Q|[Q|[Q|[]]]]; discriminate Q|]; split; [reflexivity|]; split; [reflexivity|]; eexists; constructor.
  all: left; split; [cbn; tauto | split; reflexivity].
Qed.
Lemma line_node_texts (ws : list lwire) : (forall w p, In w ws -> lw_phase w = Some p -> In p ["A"; "B"; "C"; "N"; "N1"; "N2"]) ->
  exists ns, line_nodes (map lw_phase ws) ns /\
    texts (map (fun w => if outer (lw_phase w) then opt_text (fun x => "." ++ show_phase x)%string (lw_phase w) else "") ws) = dotted ns /\
    length (filter (fun w => match lw_phase w with Some x => smem x ["A"; "B"; "C"] | None => false end) ws) = length ns /\
    Forall (fun n => all_chars ordinary n = true) ns /\ Forall (free (Ascii.eqb ".")) ns.
Proof.
  induction ws as [|w r IH]; intros H; [exists []; repeat split; constructor|].
  destruct (IH (fun v p I => H v p (or_intror I))) as (ns & L & T & C & A & B). clear IH.
  cbn [map texts fold_right filter]. change (fold_right append "" (map ?f r)) with (texts (map f r)). rewrite T.
  destruct (lw_phase w) as [p|] eqn:P.
  - destruct (six p (H w p (or_introl eq_refl) P)) as [(Ne & O & Ph)|(Ne & O & Ph & n & N)].
    + exists ns. cbn [outer]. rewrite O, Ph. split; [constructor; assumption|]. repeat split; assumption.
    + exists (n :: ns). cbn [outer]. rewrite O, Ph. split; [constructor; assumption|]. cbn [opt_text]. rewrite (node_show _ _ N).
      destruct (node_token _ _ N). split; [reflexivity|]. split; [cbn [length]; now rewrite C|]. split; constructor; assumption.
  - exists ns. cbn [outer append]. split; [constructor; exact L|]. repeat split; assumption.
Qed.
Lemma closed_spec ws : existsb closed_phase ws = true <-> exists w, In w ws /\ conductor w /\ lw_open w <> Some true.
Proof.
  rewrite existsb_exists. split; intros (w & I & H); exists w; (split; [exact I|]).
  - unfold closed_phase in H. rewrite Bool.andb_true_iff in H. destruct H as [O P]. split.
    + unfold conductor, outer in *. destruct (lw_phase w) as [p|]; [|discriminate P]. exists p. split; [reflexivity|].
      intros Ne. rewrite Bool.negb_true_iff in P. assert (smem p ["N"; "N1"; "N2"] = true) by (apply smem_In; exact Ne). congruence.
    + intros Q. rewrite Q in O. discriminate O.
  - destruct H as [(p & P & Ne) O]. unfold closed_phase. rewrite Bool.andb_true_iff. split.
    + destruct (lw_open w) as [[]|]; [contradiction O; reflexivity | reflexivity | reflexivity].
    + unfold outer. rewrite P. destruct (smem p _) eqn:E; [|reflexivity]. apply smem_In in E. contradiction.
Qed.

(** The largest rating. *)
Lemma somes_given {A} (l : list (option A)) : somes l = given l.
Proof. induction l as [|[x|] r IH]; [reflexivity | cbn; now rewrite IH | exact IH]. Qed.
Lemma qmax_l a b : (a <= qmax a b)%Q /\ (b <= qmax a b)%Q /\ (qmax a b = a \/ qmax a b = b).
Proof.
  unfold qmax. destruct (Qle_bool b a) eqn:E.
  - apply Qle_bool_iff in E. split; [apply Qle_refl|]. split; [exact E | left; reflexivity].
  - assert (~ (b <= a)%Q) by (intros H; apply Qle_bool_iff in H; congruence). apply Qnot_le_lt in H.
    split; [apply Qlt_le_weak; exact H|]. split; [apply Qle_refl | right; reflexivity].
Qed.
Lemma qmaximum_spec l : match qmaximum l with None => l = [] | Some m => In m l /\ forall x, In x l -> (x <= m)%Q end.
Proof.
  induction l as [|x r IH]; [reflexivity|]. cbn [qmaximum]. destruct (qmaximum r) as [m|].
  - destruct IH as [I B]. destruct (qmax_l x m) as (A & C & D). split.
    + destruct D as [-> | ->]; [left; reflexivity | right; exact I].
    + intros y [<-|J]; [exact A|]. eapply Qle_trans; [apply B; exact J | exact C].
  - subst r. split; [left; reflexivity|]. intros y [<-|[]]. apply Qle_refl.
Qed.

Section Line.
Variable show : Q -> string.
Variable num : string -> option Q.
Hypothesis FS : faithful show num.

Definition line_fields (l : dline) (c : string) (ns : list string) : fields :=
  [("Units", Some "km");
   ("Length", option_map (fun x => show (qmax (1 # 1000) (milli x))) (ln_length l));
   ("bus1", option_map (fun b => re_sub b ++ dotted ns)%string (ln_from l));
   ("bus2", option_map (fun b => re_sub b ++ dotted ns)%string (ln_to l));
   ("switch", Some (if ln_switch l || ln_breaker l then "y" else "n"));
   ("enabled", match ln_wires l with [] => None | _ => Some (if existsb closed_phase (ln_wires l) then "y" else "n") end);
   ("phases", Some (str_of (length ns)));
   ("geometry", if ln_geo l then Some c else None);
   ("Linecode", if ln_geo l then None else Some (re_sub c))].
Definition line_element (n : string) (l : dline) (c : string) (ns : list string) : element := mkElement "Line" n (props_of (line_fields l c ns)).

Definition fuse_fields (n : string) (l : dline) : fields :=
  [("monitoredobj", Some ("Line." ++ n)%string);
   ("enabled", Some "y");
   ("ratedcurrent", match qmaximum (somes (map lw_rating (ln_wires l))) with Some q => if negb (Qle_bool q 0) then Some (show q) else None | None => None end)].
Definition fuse_element (n : string) (l : dline) : element := mkElement "Fuse" ("Fuse_" ++ n) (props_of (fuse_fields n l)).

Lemma row_fields c n fs : row (mkElement c n (props_of fs)) [] = ("New " ++ c ++ "." ++ n ++ texts (map field_text fs))%string.
Proof.
  unfold row. cbn [e_class e_name e_props]. rewrite app_nil_r, field_texts, spaced_cons. rewrite !app_assoc_s. reflexivity.
Qed.

Lemma fuse_row n l : ln_fuse l = true -> fuse_text show n l = row (fuse_element n l) [].
Proof.
  intros F. unfold fuse_text, fuse_element. rewrite F, row_fields. unfold fuse_fields. cbn [map texts fold_right].
  assert (X : opt_text (fun q => if negb (Qle_bool q 0) then " ratedcurrent=" ++ show q else "")%string (qmaximum (somes (map lw_rating (ln_wires l)))) =
    field_text ("ratedcurrent", match qmaximum (somes (map lw_rating (ln_wires l))) with Some q => if negb (Qle_bool q 0) then Some (show q) else None | None => None end)).
  { destruct (qmaximum _) as [q|]; [|reflexivity]. cbn [opt_text]. destruct (negb _); reflexivity. }
  rewrite X. rewrite app_nil_s. cbn [field_text fst snd]. rewrite !app_assoc_s. cbn [append]. rewrite ?app_assoc_s. reflexivity.
Qed.
Lemma fuse_text_none n l : ln_fuse l = false -> fuse_text show n l = "".
Proof. unfold fuse_text. now intros ->. Qed.

Lemma line_row l n c ns : ln_name l = Some n -> ln_class l = Some c -> node_text l = dotted ns ->
  length (filter (fun w => match lw_phase w with Some x => smem x ["A"; "B"; "C"] | None => false end) (ln_wires l)) = length ns ->
  line_text show l = Ok (Some (row (line_element n l c ns) [] ++ nl ++ nl ++
    if ln_fuse l then row (fuse_element n l) [] ++ nl ++ nl else "")%string).
Proof.
  intros N C T P. unfold line_text. rewrite N, C, T, P.
  assert (E : (if ln_geo l then Ok (" geometry=" ++ show_opt (Some c))%string else do c0 <- of_opt EType (Some c); Ok (" Linecode=" ++ re_sub c0)%string)
    = Ok (field_text ("geometry", if ln_geo l then Some c else None) ++ field_text ("Linecode", if ln_geo l then None else Some (re_sub c)))%string).
  { destruct (ln_geo l); cbn; [now rewrite app_nil_s | reflexivity]. }
  rewrite E. clear E. cbn [bind]. f_equal. f_equal.
  rewrite (opt_field (fun x => " Length=" ++ show (qmax (1 # 1000) (milli x)))%string (fun x => show (qmax (1 # 1000) (milli x))) "Length") by reflexivity.
  rewrite (opt_field (fun b => " bus1=" ++ re_sub b ++ dotted ns)%string (fun b => re_sub b ++ dotted ns)%string "bus1") by reflexivity.
  rewrite (opt_field (fun b => " bus2=" ++ re_sub b ++ dotted ns)%string (fun b => re_sub b ++ dotted ns)%string "bus2") by reflexivity.
  assert (F : (if String.eqb (fuse_text show n l) "" then "" else fuse_text show n l ++ String "010" (String "010" ""))%string
    = (if ln_fuse l then row (fuse_element n l) [] ++ nl ++ nl else "")%string).
  { destruct (ln_fuse l) eqn:Fu; [rewrite (fuse_row n l Fu); reflexivity | rewrite (fuse_text_none n l Fu); reflexivity]. }
  rewrite F. clear F. unfold line_element. rewrite row_fields. rewrite !app_assoc_s. unfold line_fields. cbn [map texts fold_right].
  rewrite !app_assoc_s. change ("New " ++ "Line" ++ "." ++ ?z)%string with ("New Line." ++ z)%string. f_equal. f_equal.
  change (" Units=km" ++ ?z)%string with (field_text ("Units", Some "km") ++ z)%string. do 4 f_equal.
  assert (S : (if ln_switch l || ln_breaker l then " switch=y" else " switch=n") = field_text ("switch", Some (if ln_switch l || ln_breaker l then "y" else "n")))
    by (destruct (ln_switch l || ln_breaker l); reflexivity).
  rewrite S. f_equal.
  assert (W : match ln_wires l with [] => "" | _ => if existsb closed_phase (ln_wires l) then " enabled=y" else " enabled=n" end =
    field_text ("enabled", match ln_wires l with [] => None | _ => Some (if existsb closed_phase (ln_wires l) then "y" else "n") end)).
  { destruct (ln_wires l); [reflexivity|]. destruct (existsb _ _); reflexivity. }
  rewrite W. reflexivity.
Qed.

Lemma line_element_ok l n c ns : token n -> token c -> ln_from l <> Some "" -> ln_to l <> Some "" -> Forall (fun x => all_chars ordinary x = true) ns ->
  eok (line_element n l c ns).
Proof.
  intros T C B1 B2 FN. unfold eok. cbn [e_class e_name e_props line_element]. split; [split; [discriminate | reflexivity]|]. split; [reflexivity|]. split; [exact T|].
  apply fields_ok. unfold line_fields.
  repeat (apply Forall_cons; [split; [split; [discriminate | reflexivity] | cbn [snd]; intros v Q]|]); [..|apply Forall_nil].
  - injection Q as <-. split; [discriminate | reflexivity].
  - destruct (ln_length l); [|discriminate Q]. injection Q as <-. apply FS.
  - destruct (ln_from l) as [b|]; [|discriminate Q]. injection Q as <-. apply bus_token; [|exact FN]. intros ->. exact (B1 eq_refl).
  - destruct (ln_to l) as [b|]; [|discriminate Q]. injection Q as <-. apply bus_token; [|exact FN]. intros ->. exact (B2 eq_refl).
  - injection Q as <-. destruct (_ || _); (split; [discriminate | reflexivity]).
  - destruct (ln_wires l) as [|w r]; [discriminate Q|]. injection Q as <-. match goal with |- token (if ?b then _ else _) => destruct b end; (split; [discriminate | reflexivity]).
  - injection Q as <-. apply str_token.
  - destruct (ln_geo l); [|discriminate Q]. injection Q as <-. exact C.
  - destruct (ln_geo l); [discriminate Q|]. injection Q as <-. destruct C as [C _]. split; [exact (sub_from_ne c C)|]. apply sub_from_token.
Qed.
Lemma fuse_element_ok l n : token n -> eok (fuse_element n l).
Proof.
  intros [T T']. unfold eok. cbn [e_class e_name e_props fuse_element]. split; [split; [discriminate | reflexivity]|]. split; [reflexivity|].
  split; [split; [discriminate|]; rewrite all_app, T'; reflexivity|].
  apply fields_ok. unfold fuse_fields.
  repeat (apply Forall_cons; [split; [split; [discriminate | reflexivity] | cbn [snd]; intros v Q]|]); [..|apply Forall_nil].
  - injection Q as <-. split; [discriminate|]. cbn [all_chars]. rewrite T'. reflexivity.
  - injection Q as <-. split; [discriminate | reflexivity].
  - destruct (qmaximum _) as [q|]; [|discriminate Q]. destruct (negb _); [|discriminate Q]. injection Q as <-. apply FS.
Qed.

Lemma only_fields c n fs ks : Forall (fun f => In (lower (fst f)) ks) fs -> only (mkElement c n (props_of fs)) ks.
Proof.
  intros F k v Q. rewrite prop_look in Q. apply look_In in Q as (k' & I & L). rewrite <- L. cbn [e_props] in I. apply In_props in I.
  rewrite Forall_forall in F. exact (F _ I).
Qed.

Lemma line_element_is l n c ns : ln_name l = Some n -> ln_class l = Some c -> line_nodes (map lw_phase (ln_wires l)) ns -> Forall (free (Ascii.eqb ".")) ns ->
  line_is num l (line_element n l c ns).
Proof.
  intros N C LN FN.
  assert (P : forall k, prop (line_element n l c ns) k = look_field k (line_fields l c ns)) by (intros k; rewrite prop_look; apply look_fields).
  assert (En : prop (line_element n l c ns) "enabled" = match ln_wires l with [] => None | _ => Some (if existsb closed_phase (ln_wires l) then "y" else "n") end).
  { rewrite P. cbn. destruct (ln_geo l); cbn; destruct (ln_wires l); reflexivity. }
  assert (TD : forall b, terminal (re_sub b ++ dotted ns)%string = (re_sub b, ns)).
  { intros b. apply terminal_dotted; [apply sub_from_token | exact FN]. }
  split.
  - reflexivity.
  - exact N.
  - rewrite P. cbn. destruct (ln_geo l); reflexivity.
  - destruct (ln_length l) as [x|] eqn:L.
    + apply (show_gives show num FS) with (q := qmax (1 # 1000) (milli x)).
      * rewrite P. cbn. rewrite L. destruct (ln_geo l); reflexivity.
      * unfold qmax. destruct (Qle_bool (milli x) (1 # 1000)) eqn:A, (Qle_bool 1 x) eqn:B; rewrite ?milli_div; try reflexivity.
        -- apply Qle_bool_iff in A. apply Qle_bool_iff in B. unfold milli in A.
           apply Qle_antisym; [|rewrite <- milli_div; exact A]. rewrite <- milli_div. unfold milli.
           setoid_replace (1 # 1000) with (1 * (1 # 1000))%Q by reflexivity. apply Qmult_le_compat_r; [exact B | discriminate].
        -- exfalso. assert (A' : ~ (milli x <= 1 # 1000)%Q) by (intros H; apply Qle_bool_iff in H; congruence).
           assert (B' : ~ (1 <= x)%Q) by (intros H; apply Qle_bool_iff in H; congruence). apply Qnot_le_lt in A'. apply Qnot_le_lt in B'.
           apply Qlt_le_weak in B'. apply (Qlt_irrefl (milli x)). eapply Qle_lt_trans; [|exact A']. unfold milli.
           setoid_replace (1 # 1000) with (1 * (1 # 1000))%Q at 2 by reflexivity. apply Qmult_le_compat_r; [exact B' | discriminate].
    + cbn [gives]. rewrite P. cbn. rewrite L. destruct (ln_geo l); reflexivity.
  - exists ns. split; [exact LN|]. split; [|split].
    + unfold connects. rewrite P. destruct (ln_from l) as [b|] eqn:B; [|cbn; rewrite B; destruct (ln_geo l); reflexivity].
      exists (re_sub b ++ dotted ns)%string, (re_sub b). split; [cbn; rewrite B; destruct (ln_geo l); reflexivity|]. split; [apply TD | apply (sub_kept b)].
    + unfold connects. rewrite P. destruct (ln_to l) as [b|] eqn:B; [|cbn; rewrite B; destruct (ln_geo l); reflexivity].
      exists (re_sub b ++ dotted ns)%string, (re_sub b). split; [cbn; rewrite B; destruct (ln_geo l); reflexivity|]. split; [apply TD | apply (sub_kept b)].
    + rewrite P. cbn. destruct (ln_geo l); reflexivity.
  - rewrite P. cbn. destruct (ln_geo l); reflexivity.
  - rewrite En. rewrite <- closed_spec. destruct (ln_wires l) as [|w r]; [split; discriminate|].
    destruct (existsb closed_phase (w :: r)); split; (reflexivity || discriminate).
  - rewrite En. destruct (ln_wires l) as [|w r]; [split; [discriminate | intros [H _]; contradiction H; reflexivity]|].
    pose proof (closed_spec (w :: r)) as CS. destruct (existsb closed_phase (w :: r)).
    + split; [discriminate|]. intros [_ H]. destruct (proj1 CS eq_refl) as (v & I & Co & O). contradiction O. apply H; assumption.
    + split; [|reflexivity]. intros _. split; [discriminate|]. intros v I Co. destruct (lw_open v) as [[]|] eqn:O; [reflexivity | |];
        (assert (X : false = true) by (apply CS; exists v; split; [exact I|]; split; [exact Co | rewrite O; discriminate]); discriminate X).
  - rewrite C. destruct (ln_geo l) eqn:G.
    + split; rewrite P; cbn; rewrite G; reflexivity.
    + split; [rewrite P; cbn; rewrite G; reflexivity|]. exists (re_sub c). split; [rewrite P; cbn; rewrite G; reflexivity | apply (sub_kept c)].
  - apply only_fields. unfold line_fields. repeat (apply Forall_cons; [cbn; tauto|]). apply Forall_nil.
Qed.
Lemma fuse_element_is l n : ln_name l = Some n -> fuse_is num l (fuse_element n l).
Proof.
  intros N.
  assert (P : forall k, prop (fuse_element n l) k = look_field k (fuse_fields n l)) by (intros k; rewrite prop_look; apply look_fields).
  assert (R : prop (fuse_element n l) "ratedcurrent" = match qmaximum (given (map lw_rating (ln_wires l))) with Some q => if negb (Qle_bool q 0) then Some (show q) else None | None => None end).
  { rewrite P. rewrite <- somes_given. cbn. destruct (qmaximum _) as [q|]; [|reflexivity]. destruct (negb _); reflexivity. }
  assert (RN : forall k, lower k <> "ratedcurrent" -> look_field k (fuse_fields n l) = look_field k [("monitoredobj", Some ("Line." ++ n)%string); ("enabled", Some "y")]).
  { intros k H. unfold fuse_fields. cbn [look_field]. change (lower "ratedcurrent") with "ratedcurrent".
    destruct (String.eqb_spec "ratedcurrent" (lower k)) as [Q|_]; [contradiction H; symmetry; exact Q | reflexivity]. }
  pose proof (qmaximum_spec (given (map lw_rating (ln_wires l)))) as M.
  split.
  - reflexivity.
  - exists n. split; [exact N|]. split; [reflexivity|]. rewrite P, RN by discriminate. reflexivity.
  - destruct (qmaximum (given (map lw_rating (ln_wires l)))) as [q|].
    + destruct M as [I B]. split.
      * intros m Im Pm Mm. apply (show_gives show num FS) with (q := q).
        -- rewrite R. destruct (Qle_bool q 0) eqn:E; [|reflexivity]. exfalso. apply Qle_bool_iff in E. apply (Qlt_not_le _ _ Pm).
           eapply Qle_trans; [apply B; exact Im | exact E].
        -- apply Qle_antisym; [apply Mm; exact I | apply B; exact Im].
      * intros H. rewrite R. assert (E : Qle_bool q 0 = true) by (apply Qle_bool_iff; apply H; exact I). rewrite E. reflexivity.
    + rewrite M in *. split; [intros m []|]. intros _. exact R.
  - rewrite P, RN by discriminate. reflexivity.
  - apply only_fields. unfold fuse_fields. repeat (apply Forall_cons; [cbn; tauto|]). apply Forall_nil.
Qed.

Lemma line_reads l : good_line l -> exists t e,
  line_text show l = Ok (Some t) /\ line_is num l e /\
  ((ln_fuse l = false /\ forall rest els, read_dss rest = Some els -> read_dss (t ++ rest)%string = Some (e :: els)) \/
   (ln_fuse l = true /\ exists f, fuse_is num l f /\ forall rest els, read_dss rest = Some els -> read_dss (t ++ rest)%string = Some (e :: f :: els))).
Proof.
  intros ((n & N & T) & B1 & B2 & (c & C & Tc) & Ph).
  destruct (line_node_texts (ln_wires l) Ph) as (ns & LN & TX & Cn & T1 & T2).
  eexists. exists (line_element n l c ns). split; [exact (line_row l n c ns N C TX Cn)|].
  split; [exact (line_element_is l n c ns N C LN T2)|].
  pose proof (line_element_ok l n c ns T Tc B1 B2 T1) as EO. pose proof (fuse_element_ok l n T) as FO.
  destruct (ln_fuse l) eqn:F.
  - right. split; [reflexivity|]. exists (fuse_element n l). split; [exact (fuse_element_is l n N)|]. intros rest els R.
    rewrite !app_assoc_s. apply row_read2; [exact EO | constructor|]. apply row_read2; [exact FO | constructor | exact R].
  - left. split; [reflexivity|]. intros rest els R. rewrite !app_assoc_s. apply row_read2; [exact EO | constructor|]. exact R.
Qed.
End Line.
