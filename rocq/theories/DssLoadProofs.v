(** The loads of the OpenDSS script. *)
From Verif Require Import Base BaseFacts CsvModel DssNameModel DssTextModel DssNameSpec DssTextSpec DssLoadSpec DssNameProofs DssTextProofs.
From Coq Require Import QArith Lia DecimalString.
From Coq Require DecimalFacts DecimalPos.
Local Open Scope string_scope.
Local Open Scope nat_scope.
Local Open Scope list_scope.

(** *** Numerals are tokens. *)
Lemma uint_token u : all_chars ordinary (NilEmpty.string_of_uint u) = true.
Proof. induction u; cbn [NilEmpty.string_of_uint all_chars]; rewrite ?IHu; reflexivity. Qed.
Lemma str_token n : token (str_of n).
Proof.
  split; [|apply uint_token]. unfold str_of, Nat.to_uint.
  assert (H : forall k u, (u <> Decimal.Nil \/ k <> 0) -> Nat.to_little_uint k u <> Decimal.Nil).
  { induction k as [|k IH]; intros u H; cbn; [destruct H; [assumption | lia]|]. apply IH. left. clear. destruct u; discriminate. }
  assert (S : forall u, NilEmpty.string_of_uint u = "" -> u = Decimal.Nil) by (intros u; destruct u; [reflexivity | discriminate..]).
  intros Q. apply S in Q. apply (f_equal Decimal.rev) in Q. rewrite DecimalFacts.rev_rev in Q. cbn in Q. revert Q. apply H. left. discriminate.
Qed.
Lemma int_token z : token (show_int z).
Proof.
  unfold show_int, NilEmpty.string_of_int, Z.to_int. destruct z as [|p|p].
  - split; [discriminate | reflexivity].
  - split; [|apply uint_token]. intros Q. assert (S : forall u, NilEmpty.string_of_uint u = "" -> u = Decimal.Nil) by (intros u; destruct u; [reflexivity | discriminate..]).
    apply S in Q. exact (DecimalPos.Unsigned.to_uint_nonnil p Q).
  - split; [discriminate|]. cbn [all_chars]. rewrite uint_token. reflexivity.
Qed.
Lemma node_show x n : at_node x n -> show_phase x = n.
Proof. intros []; reflexivity. Qed.
Lemma node_token x n : at_node x n -> all_chars ordinary n = true /\ free (Ascii.eqb ".") n.
Proof. intros []; split; reflexivity. Qed.

Lemma known_sum_sum l : known_sum l == sum (given l).
Proof.
  unfold known_sum. assert (H : forall l a, fold_left (fun t x => match x with Some q => t + q | None => t end)%Q l a == a + sum (given l)).
  { clear l. induction l as [|[q|] r IH]; intros a; cbn [fold_left given]; [cbn; ring | |]; rewrite ?IH; [|ring].
    change (sum (q :: given r)) with (q + sum (given r))%Q. ring. }
  rewrite H. ring.
Qed.
Lemma milli_div q : milli q == q / 1000.
Proof. unfold milli. field. Qed.

(** Dotted nodes of optional phases. *)
Lemma phase_texts {A} (f : A -> option string) (l : list A) ns :
  Forall2 at_node (given (map f l)) ns ->
  texts (map (fun p => opt_text (fun x => "." ++ show_phase x)%string (f p)) l) = dotted ns.
Proof.
  revert ns. induction l as [|p r IH]; cbn [map given]; intros ns H; [inversion H; reflexivity|].
  destruct (f p) as [x|].
  - inversion H; subst. cbn [map texts fold_right opt_text]. change (fold_right append "" (map ?g ?m)) with (texts (map g m)).
    rewrite (IH _ H4), (node_show _ _ H2). reflexivity.
  - cbn [opt_text texts fold_right append]. change (fold_right append "" (map ?g ?m)) with (texts (map g m)). apply IH. exact H.
Qed.
Lemma phases_nodes {A} (f : A -> option string) (l : list A) :
  (forall p x, In p l -> f p = Some x -> exists n, at_node x n) -> exists ns, Forall2 at_node (given (map f l)) ns.
Proof.
  induction l as [|p r IH]; intros H; [exists []; constructor|].
  destruct (IH (fun q x I => H q x (or_intror I))) as [ns F]. cbn [map given]. destruct (f p) as [x|] eqn:E; [|exists ns; exact F].
  destruct (H p x (or_introl eq_refl) E) as [n N]. exists (n :: ns). constructor; assumption.
Qed.
Lemma nodes_tokens xs ns : Forall2 at_node xs ns -> Forall (fun n => all_chars ordinary n = true) ns /\ Forall (free (Ascii.eqb ".")) ns.
Proof. induction 1 as [|x n xs ns H _ [A B]]; [split; constructor|]. destruct (node_token _ _ H). split; constructor; assumption. Qed.

Section Load.
Variable show : Q -> string.
Variable num : string -> option Q.
Hypothesis FS : faithful show num.
Variable datasets : dict (dict string).
Variable fmts : dict string.
Variable removed : bool.

Definition extra (l : load) : string :=
  match ld_conn l, ld_phases l with
  | Some "D", [p] =>
    match pl_phase p with
    | Some x => match w_phase x with Some 1%Z => ".2" | Some 2%Z => ".3" | Some 3%Z => ".1" | _ => "" end
    | None => ""
    end
  | _, _ => ""
  end.

Lemma extra_nodes l ms : Forall2 at_node (given (map pl_phase (ld_phases l))) ms -> exists ns, load_nodes l ns /\
  (dotted ms ++ extra l)%string = dotted ns /\ Forall (fun n => all_chars ordinary n = true) ns /\ Forall (free (Ascii.eqb ".")) ns.
Proof.
  intros F. pose proof (nodes_tokens _ _ F) as [T1 T2].
  assert (Other : ld_conn l <> Some "D" \/ length (ld_phases l) <> 1 -> exists ns, load_nodes l ns /\
    (dotted ms ++ extra l)%string = dotted ns /\ Forall (fun n => all_chars ordinary n = true) ns /\ Forall (free (Ascii.eqb ".")) ns).
  { intros H. exists ms. split; [exists ms; split; [exact F|]; right; split; [tauto | reflexivity]|].
    assert (E : extra l = "").
    { unfold extra. destruct (ld_conn l) as [c|]; [|reflexivity]. destruct (string_dec c "D") as [->|N].
      - destruct H as [H|H]; [contradiction H; reflexivity|]. destruct (ld_phases l) as [|p [|q r]]; [reflexivity | cbn in H; lia | reflexivity].
      - destruct c as [|[[] [] [] [] [] [] [] []] [|d c]]; try reflexivity. contradiction N; reflexivity. }
    rewrite E, app_nil_s. repeat split; assumption. }
  destruct (ld_conn l) as [c|] eqn:C; [|apply Other; left; discriminate].
  destruct (string_dec c "D") as [->|N]; [|apply Other; left; intros Q; injection Q as ->; exact (N eq_refl)].
  destruct (Nat.eq_dec (length (ld_phases l)) 1) as [L|L]; [|apply Other; right; exact L]. clear Other.
  destruct (ld_phases l) as [|p [|q r]] eqn:P; try discriminate L. cbn [map given] in F.
  assert (E : extra l = match pl_phase p with
    | Some x => match w_phase x with Some 1%Z => ".2" | Some 2%Z => ".3" | Some 3%Z => ".1" | _ => "" end
    | None => "" end) by (unfold extra; rewrite C, P; reflexivity).
  rewrite E. destruct (pl_phase p) as [x|] eqn:X.
  - inversion F as [|? n ? ? H H0]; subst. inversion H0; subst. unfold load_nodes. rewrite C, P. cbn [map given length]. rewrite X. inversion H; subst; cbn [w_phase String.eqb Ascii.eqb Bool.eqb].
    + exists ["1"; "2"]. split; [|repeat split; repeat constructor]. exists ["1"]. split; [exact F|]. left. split; [reflexivity|]. split; [reflexivity|]. exists "1", "2". repeat split. constructor.
    + exists ["2"; "3"]. split; [|repeat split; repeat constructor]. exists ["2"]. split; [exact F|]. left. split; [reflexivity|]. split; [reflexivity|]. exists "2", "3". repeat split. constructor.
    + exists ["3"; "1"]. split; [|repeat split; repeat constructor]. exists ["3"]. split; [exact F|]. left. split; [reflexivity|]. split; [reflexivity|]. exists "3", "1". repeat split. constructor.
    + exists ["0"]. split; [|repeat split; repeat constructor]. exists ["0"]. split; [exact F|]. right. split; [|reflexivity]. right. right. right. reflexivity.
  - inversion F; subst. exists []. unfold load_nodes. rewrite C, P. cbn [map given length]. rewrite X. split; [|repeat split; constructor].
    exists []. split; [exact F|]. right. split; [|reflexivity]. right. right. left. reflexivity.
Qed.

(** Series. *)
Definition kv_ok (kv : string * string) : Prop := (fst kv = "daily" \/ fst kv = "yearly") /\ token (snd kv).
Lemma series_words ts : Forall (shaped datasets fmts) ts -> exists us pl,
  mapM (series_text datasets fmts removed) ts = Ok us /\
  Forall2 (fun t o => match o with Some (k, f) => shape datasets fmts t k f | None => no_data t end) ts pl /\
  Forall kv_ok (given pl) /\
  texts us = spaced (map (fun kv => if removed then String "!" (pword kv) else pword kv) (given pl)).
Proof.
  induction 1 as [|t r H _ (us & pl & M & F & K & T)]; [exists [], []; repeat split; constructor|].
  destruct H as [N|(k & f & (loc & d & L & Lb & G & D & Fm) & Kk & Tf)].
  - exists ("" :: us), (None :: pl). split; [|split; [constructor; assumption | split; [exact K | exact T]]].
    cbn [mapM]. rewrite M. unfold series_text. destruct N as [-> | ->]; [reflexivity|]. destruct (ts_label t); reflexivity.
  - exists ((" " ++ (if removed then "!" else "") ++ k ++ "=" ++ f)%string :: us), (Some (k, f) :: pl). split; [|split; [|split]].
    + cbn [mapM]. rewrite M. unfold series_text. rewrite L. destruct (ts_label t) as [lb|]; [|contradiction Lb; reflexivity].
      rewrite G. cbn [of_opt bind]. rewrite D. cbn [of_opt bind]. rewrite Fm. reflexivity.
    + constructor; [|exact F]. exists loc, d. repeat split; assumption.
    + cbn [given]. constructor; [|exact K]. split; assumption.
    + cbn [texts fold_right given map]. fold (texts us). rewrite spaced_cons, T. change (pword (k, f)) with (k ++ String "=" f)%string. destruct removed; cbn [append]; rewrite ?app_assoc_s; reflexivity.
Qed.
Lemma kv_pok kv : kv_ok kv -> pok kv.
Proof. intros [K T]. split; [|left; exact T]. destruct K as [-> | ->]; (split; [discriminate | reflexivity]). Qed.
Lemma shape_fun t k f k' f' : shape datasets fmts t k f -> shape datasets fmts t k' f' -> k = k' /\ f = f'.
Proof.
  intros (loc & d & L & _ & G & D & F) (loc' & d' & L' & _ & G' & D' & F'). rewrite L in L'. injection L' as <-. rewrite G in G'. injection G' as <-.
  rewrite D in D'. injection D' as <-. rewrite F in F'. injection F' as <-. split; reflexivity.
Qed.
Lemma shape_no_data t k f : shape datasets fmts t k f -> no_data t -> False.
Proof. intros (loc & d & L & Lb & _) [N|N]; [contradiction | congruence]. Qed.

Notation SF := (fun t (o : option (string * string)) => match o with Some (k, f) => shape datasets fmts t k f | None => no_data t end).
Lemma look_series_none ts pl k : Forall2 SF ts pl -> Forall kv_ok (given pl) -> k = "daily" \/ k = "yearly" ->
  (forall u g, In u ts -> ~ shape datasets fmts u k g) -> look k (given pl) = None.
Proof.
  intros F K Kk. induction F as [|t o ts pl H F IH]; intros N; [reflexivity|].
  destruct o as [[k' f]|]; cbn [given] in *.
  - inversion K as [|? ? [K1 _] K2]; subst. change ((k', f) :: given pl) with ([(k', f)] ++ given pl). rewrite look_app.
    rewrite (IH K2 (fun u g I => N u g (or_intror I))). cbn.
    destruct (String.eqb_spec (lower k') (lower k)) as [Q|]; [|reflexivity]. exfalso.
    assert (k' = k) as -> by (cbn [fst] in K1; destruct K1 as [-> | ->], Kk as [-> | ->]; try reflexivity; discriminate Q).
    exact (N t f (or_introl eq_refl) H).
  - apply (IH K). intros u g I. exact (N u g (or_intror I)).
Qed.
Lemma look_series_some a t b pl k f : Forall2 SF (a ++ t :: b) pl -> Forall kv_ok (given pl) -> shape datasets fmts t k f ->
  (forall u g, In u b -> ~ shape datasets fmts u k g) -> (k = "daily" \/ k = "yearly") /\ look k (given pl) = Some f.
Proof.
  intros F K S N. apply Forall2_app_inv_l in F as (pa & pb & Fa & Fb & ->).
  assert (GA : forall (A : Type) (x y : list (option A)), given (x ++ y) = given x ++ given y).
  { intros A x y. induction x as [|[v|] x IH]; [reflexivity | cbn; now rewrite IH | exact IH]. }
  rewrite GA in K |- *. apply Forall_app in K as [_ K]. inversion Fb as [|? o ? pr H Fr]; subst.
  destruct o as [[k' f']|]; [|destruct (shape_no_data _ _ _ S H)]. destruct (shape_fun _ _ _ _ _ S H) as [<- <-].
  cbn [given] in *. inversion K as [|? ? [K1 _] K2]; subst. cbn [fst] in K1. split; [exact K1|].
  rewrite look_app. change ((k, f) :: given pr) with ([(k, f)] ++ given pr). rewrite look_app, (look_series_none b pr k Fr K2 K1 N).
  cbn. now rewrite String.eqb_refl.
Qed.
Lemma look_series_other k l : Forall kv_ok l -> lower k <> "daily" -> lower k <> "yearly" -> look k l = None.
Proof.
  intros K A B. destruct (look k l) as [v|] eqn:E; [|reflexivity]. exfalso. apply look_In in E as (k' & I & L).
  rewrite Forall_forall in K. destruct (proj1 (K _ I)) as [Q|Q]; cbn [fst] in Q; subst k'; [apply A | apply B]; rewrite <- L; reflexivity.
Qed.

(** The fields of a load. *)
Definition load_fields (l : load) (ns : list string) : fields :=
  [("conn", match ld_conn l with Some "Y" => Some "wye" | Some "D" => Some "delta" | _ => None end);
   ("bus1", option_map (fun b => re_sub b ++ dotted ns)%string (ld_bus l));
   ("kV", option_map (fun v => show (milli v)) (ld_kv l));
   ("Vminpu", option_map show (ld_vmin l));
   ("Vmaxpu", option_map show (ld_vmax l));
   ("model", match ld_phases l with [] => None | p :: _ => Some (show_int (pl_model p)) end);
   ("kW", match ld_phases l with [] => None | _ => Some (show (milli (known_sum (map pl_p (ld_phases l))))) end);
   ("kvar", match ld_phases l with [] => None | _ => Some (show (milli (known_sum (map pl_q (ld_phases l))))) end);
   ("Phases", Some (if below300 (ld_kv l) then "1" else str_of (length (ld_phases l))))].
Definition load_element (n : string) (l : load) (ns : list string) (pl : list (option (string * string))) : element :=
  mkElement "Load" n (props_of (load_fields l ns) ++ if removed then [] else given pl).
Definition load_comment (pl : list (option (string * string))) : list string := if removed then map (fun kv => String "!" (pword kv)) (given pl) else [].

Lemma conn_text (o : option string) :
  match o with Some "Y" => " conn=wye" | Some "D" => " conn=delta" | _ => "" end =
  field_text ("conn", match o with Some "Y" => Some "wye" | Some "D" => Some "delta" | _ => None end).
Proof.
  destruct o as [c|]; [|reflexivity]. destruct c as [|[[] [] [] [] [] [] [] []] [|d c]]; reflexivity.
Qed.
Lemma conn_spec (o : option string) (y d : string) :
  match o with Some "Y" => Some y | Some "D" => Some d | _ => None end =
  match o with Some c => if String.eqb c "Y" then Some y else if String.eqb c "D" then Some d else None | None => None end.
Proof. destruct o as [c|]; [|reflexivity]. destruct c as [|[[] [] [] [] [] [] [] []] [|e c]]; reflexivity. Qed.

Lemma load_row l n ns ms us pl : ld_name l = Some n ->
  Forall2 at_node (given (map pl_phase (ld_phases l))) ms -> (dotted ms ++ extra l)%string = dotted ns ->
  mapM (series_text datasets fmts removed) (ld_ts l) = Ok us ->
  texts us = spaced (map (fun kv => if removed then String "!" (pword kv) else pword kv) (given pl)) ->
  load_text show datasets fmts removed l = Ok (Some (row (load_element n l ns pl) (load_comment pl) ++ nl ++ nl)%string).
Proof.
  intros N F X M T. unfold load_text. rewrite N, M. cbn [bind]. f_equal. f_equal.
  assert (B : load_bus l = field_text ("bus1", option_map (fun b => re_sub b ++ dotted ns)%string (ld_bus l))).
  { unfold load_bus. apply opt_field. intros b. fold (extra l). rewrite (phase_texts pl_phase (ld_phases l) ms F).
    rewrite X. reflexivity. }
  rewrite B, T, conn_text. clear B T M X.
  rewrite (opt_field (fun v => " kV=" ++ show (milli v))%string (fun v => show (milli v)) "kV") by reflexivity.
  rewrite (opt_field (fun v => " Vminpu=" ++ show v)%string show "Vminpu") by reflexivity.
  rewrite (opt_field (fun v => " Vmaxpu=" ++ show v)%string show "Vmaxpu") by reflexivity.
  assert (R : row (load_element n l ns pl) (load_comment pl) = ("New Load." ++ n ++ texts (map field_text (load_fields l ns)) ++
    spaced (map (fun kv => if removed then String "!" (pword kv) else pword kv) (given pl)))%string).
  { unfold row, load_element, load_comment. cbn [e_class e_name e_props]. rewrite field_texts, spaced_cons.
    change ("New" ++ String " " (("Load" ++ String "." n) ++ ?z))%string with ("New Load." ++ n ++ z)%string. f_equal. f_equal.
    rewrite <- spaced_app. f_equal. destruct removed.
    - rewrite app_nil_r. reflexivity.
    - rewrite map_app, app_nil_r. reflexivity. }
  rewrite R. clear R. rewrite !app_assoc_s. f_equal. f_equal. unfold load_fields. cbn [map texts fold_right]. rewrite !app_assoc_s.
  do 5 f_equal.
  destruct (ld_phases l) as [|p r] eqn:P.
  - cbn [field_text snd fst append]. f_equal. destruct (below300 (ld_kv l)); reflexivity.
  - cbn [field_text snd fst]. cbn [append]. rewrite ?app_assoc_s. cbn [append]. do 7 f_equal. rewrite ?app_assoc_s. cbn [append].
    do 4 f_equal. rewrite ?app_assoc_s. cbn [append]. do 6 f_equal. rewrite ?app_assoc_s. destruct (below300 (ld_kv l)); reflexivity.
Qed.

Lemma look_load k l ns pl : Forall kv_ok (given pl) -> lower k <> "daily" -> lower k <> "yearly" -> forall n,
  prop (load_element n l ns pl) k = look_field k (load_fields l ns).
Proof.
  intros K A B n. rewrite prop_look. cbn [e_props load_element]. rewrite look_app, <- look_fields.
  destruct removed; [reflexivity|]. rewrite (look_series_other k (given pl) K A B). reflexivity.
Qed.
Lemma show_gives e k q : prop e k = Some (show q) -> forall x, q == x -> gives num e k (Some x).
Proof. intros P x E. cbn. exists q. unfold value. rewrite P. split; [apply FS | exact E]. Qed.
Lemma gives_opt e k (f : Q -> Q) o : prop e k = option_map (fun v => show (f v)) o -> gives num e k (option_map f o).
Proof. destruct o as [v|]; cbn [option_map]; [|intros P; exact P]. intros P. apply (show_gives _ _ _ P). reflexivity. Qed.

Lemma load_element_is l n ns pl : ld_name l = Some n -> load_nodes l ns -> Forall (free (Ascii.eqb ".")) ns ->
  Forall2 SF (ld_ts l) pl -> Forall kv_ok (given pl) ->
  load_is num datasets fmts removed l (load_element n l ns pl).
Proof.
  intros N LN FN F K.
  assert (P : forall k, lower k <> "daily" -> lower k <> "yearly" -> prop (load_element n l ns pl) k = look_field k (load_fields l ns)).
  { intros k A B. apply look_load; assumption. }
  assert (S : forall k, k = "daily" \/ k = "yearly" -> prop (load_element n l ns pl) k = if removed then None else look k (given pl)).
  { intros k A. rewrite prop_look. cbn [e_props load_element]. rewrite look_app, look_fields.
    assert (look_field k (load_fields l ns) = None) as -> by (destruct A as [-> | ->]; reflexivity). destruct removed; [reflexivity|].
    destruct (look k (given pl)); reflexivity. }
  split.
  - reflexivity.
  - exact N.
  - rewrite P by discriminate. cbn. rewrite conn_spec. destruct (match ld_conn l with Some _ => _ | None => _ end); reflexivity.
  - exists ns. split; [exact LN|]. unfold connects. rewrite P by discriminate. destruct (ld_bus l) as [b|] eqn:B; [|cbn; rewrite B; reflexivity].
    exists (re_sub b ++ dotted ns)%string, (re_sub b). split; [cbn; rewrite B; reflexivity|]. split.
    + apply terminal_dotted; [apply sub_from_token | exact FN].
    + apply (sub_kept b).
  - destruct (ld_kv l) as [v|] eqn:V.
    + apply show_gives with (q := milli v); [|apply milli_div]. rewrite P by discriminate. cbn. rewrite V. reflexivity.
    + cbn [gives]. rewrite P by discriminate. cbn. rewrite V. reflexivity.
  - destruct (ld_vmin l) as [v|] eqn:V.
    + apply show_gives with (q := v); [|reflexivity]. rewrite P by discriminate. cbn. rewrite V. reflexivity.
    + cbn [gives]. rewrite P by discriminate. cbn. rewrite V. reflexivity.
  - destruct (ld_vmax l) as [v|] eqn:V.
    + apply show_gives with (q := v); [|reflexivity]. rewrite P by discriminate. cbn. rewrite V. reflexivity.
    + cbn [gives]. rewrite P by discriminate. cbn. rewrite V. reflexivity.
  - destruct (ld_phases l) as [|p r] eqn:L.
    + cbn [gives]. rewrite P by discriminate. cbn. rewrite L. reflexivity.
    + apply show_gives with (q := milli (known_sum (map pl_p (p :: r)))); [|rewrite milli_div, known_sum_sum; reflexivity].
      rewrite P by discriminate. cbn. rewrite L. reflexivity.
  - destruct (ld_phases l) as [|p r] eqn:L.
    + cbn [gives]. rewrite P by discriminate. cbn. rewrite L. reflexivity.
    + apply show_gives with (q := milli (known_sum (map pl_q (p :: r)))); [|rewrite milli_div, known_sum_sum; reflexivity].
      rewrite P by discriminate. cbn. rewrite L. reflexivity.
  - rewrite P by discriminate. cbn. destruct (ld_phases l); reflexivity.
  - exists (if below300 (ld_kv l) then 1 else length (ld_phases l)). split.
    + rewrite P by discriminate. cbn [load_fields look_field]. cbn. destruct (below300 (ld_kv l)); reflexivity.
    + unfold below300. destruct (ld_kv l) as [v|]; [|right; split; [left; reflexivity | reflexivity]].
      destruct (Qle_bool 300 v) eqn:Le; cbn [negb].
      * right. split; [|reflexivity]. right. exists v. split; [reflexivity | apply Qle_bool_iff; exact Le].
      * left. exists v. split; [reflexivity|]. split; [|reflexivity]. apply Qnot_le_lt. intros H. apply Qle_bool_iff in H. congruence.
  - intros k f a t b R E Sh No. rewrite E in F. destruct (look_series_some a t b pl k f F K Sh No) as [Kk Lk].
    rewrite S by exact Kk. rewrite R. exact Lk.
  - intros k Kk H. rewrite S by exact Kk. destruct removed; [reflexivity|]. destruct H as [H|H]; [discriminate|].
    exact (look_series_none _ _ k F K Kk H).
  - intros k v Q. rewrite prop_look in Q. apply look_In in Q as (k' & I & L). rewrite <- L. cbn [e_props load_element] in I.
    apply in_app_or in I as [I|I].
    + apply In_props in I. unfold load_fields in I. cbn [In] in I.
      repeat (destruct I as [I|I]; [injection I as <- _; cbn; tauto|]). destruct I.
    + destruct removed; [destruct I|]. rewrite Forall_forall in K. destruct (proj1 (K _ I)) as [Q|Q]; cbn [fst] in Q; subst k'; cbn; tauto.
Qed.

Lemma load_element_ok l n ns pl : token n -> ld_bus l <> Some "" -> Forall (fun x => all_chars ordinary x = true) ns -> Forall kv_ok (given pl) ->
  eok (load_element n l ns pl) /\ comments (load_comment pl).
Proof.
  intros T B FN K. split.
  - unfold eok. cbn [e_class e_name e_props load_element]. split; [split; [discriminate | reflexivity]|]. split; [reflexivity|]. split; [exact T|].
    apply Forall_app. split; [|destruct removed; [constructor|]; revert K; apply Forall_impl, kv_pok].
    assert (KT : forall s, all_chars ordinary s = true -> s <> "" -> token s) by (intros s X Y; split; assumption).
    apply fields_ok. unfold load_fields.
    repeat (apply Forall_cons; [split; [split; [discriminate | reflexivity] | cbn [snd]; intros v Q]|]); [..|apply Forall_nil].
    + rewrite conn_spec in Q. destruct (ld_conn l) as [c|]; [|discriminate Q]. revert Q. destruct (String.eqb c "Y"); [intros Q; injection Q as <-; split; [discriminate | reflexivity]|].
      destruct (String.eqb c "D"); [intros Q; injection Q as <-; split; [discriminate | reflexivity] | discriminate].
    + destruct (ld_bus l) as [b|]; [|discriminate Q]. injection Q as <-. apply bus_token; [|exact FN]. intros ->. exact (B eq_refl).
    + destruct (ld_kv l); [|discriminate Q]. injection Q as <-. apply FS.
    + destruct (ld_vmin l); [|discriminate Q]. injection Q as <-. apply FS.
    + destruct (ld_vmax l); [|discriminate Q]. injection Q as <-. apply FS.
    + destruct (ld_phases l); [discriminate Q|]. injection Q as <-. apply int_token.
    + destruct (ld_phases l); [discriminate Q|]. injection Q as <-. apply FS.
    + destruct (ld_phases l); [discriminate Q|]. injection Q as <-. apply FS.
    + injection Q as <-. destruct (below300 (ld_kv l)); [split; [discriminate | reflexivity] | apply str_token].
  - unfold load_comment. destruct removed; [|constructor]. apply Forall_map. revert K. apply Forall_impl. intros kv H. apply kv_pok in H.
    split; [exists (pword kv); reflexivity|]. split; [exact (proj2 (pword_word kv H)) | exact (pword_newline kv H)].
Qed.

Lemma load_reads l : good_load datasets fmts l -> exists t e,
  load_text show datasets fmts removed l = Ok (Some t) /\ load_is num datasets fmts removed l e /\
  forall rest els, read_dss rest = Some els -> read_dss (t ++ rest)%string = Some (e :: els).
Proof.
  intros ((n & N & T) & B & Ph & Sh).
  destruct (phases_nodes pl_phase (ld_phases l) Ph) as [ms F].
  destruct (extra_nodes l ms F) as (ns & LN & X & T1 & T2).
  destruct (series_words (ld_ts l) Sh) as (us & pl & M & F2 & K & TX).
  destruct (load_element_ok l n ns pl T B T1 K) as [EO CO].
  exists (row (load_element n l ns pl) (load_comment pl) ++ nl ++ nl)%string, (load_element n l ns pl).
  split; [exact (load_row l n ns ms us pl N F X M TX)|]. split; [exact (load_element_is l n ns pl N LN T2 F2 K)|].
  intros rest els R. rewrite !app_assoc_s. apply row_read2; assumption.
Qed.
End Load.
