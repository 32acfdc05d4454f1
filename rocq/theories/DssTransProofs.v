(** The transformers of the OpenDSS script. *)
From Verif Require Import Base BaseFacts CsvModel DssNameModel DssTextModel DssTransModel DssNameSpec DssTextSpec DssLoadSpec DssTransSpec
  DssNameProofs DssTextProofs DssLoadProofs DssLineTextProofs.
From Coq Require Import QArith Lia.
From Coq Require DecimalNat.
Local Open Scope string_scope.
Local Open Scope nat_scope.
Local Open Scope list_scope.

(** *** Numbers as ints and as naturals *)
Lemma succ_double_of d : Decimal.Little.succ (Decimal.Little.double d) = Decimal.Little.succ_double d.
Proof. destruct d; reflexivity. Qed.
Lemma double_succ d : Decimal.Little.double (Decimal.Little.succ d) = Decimal.Little.succ (Decimal.Little.succ_double d).
Proof. induction d; cbn; try reflexivity; rewrite ?succ_double_of; try reflexivity. now rewrite IHd. Qed.
Lemma little_succ p : Pos.to_little_uint (Pos.succ p) = Decimal.Little.succ (Pos.to_little_uint p).
Proof. induction p; cbn [Pos.succ Pos.to_little_uint]; [rewrite IHp; apply double_succ | symmetry; apply succ_double_of | reflexivity]. Qed.
Lemma show_int_nat k : show_int (Z.of_nat k) = str_of k.
Proof.
  unfold show_int, str_of, Z.to_int. destruct k as [|k]; [reflexivity|]. cbn [Z.of_nat]. unfold DecimalString.NilEmpty.string_of_int. f_equal.
  rewrite <- (SuccNat2Pos.id_succ k). unfold Nat.to_uint, Pos.to_uint. f_equal. generalize (Pos.of_succ_nat k). clear k.
  induction p using Pos.peano_ind; [reflexivity|]. rewrite little_succ, Pos2Nat.inj_succ, IHp. cbn [Nat.to_little_uint].
  now rewrite DecimalNat.Unsigned.to_little_uint_succ.
Qed.

(** Looking a field up by computation. *)
Ltac lk :=
  cbn [look_field app];
  repeat match goal with |- context[String.eqb (lower ?a) (lower ?b)] =>
    let r := eval vm_compute in (String.eqb (lower a) (lower b)) in change (String.eqb (lower a) (lower b)) with r end;
  cbv iota.

Ltac oo := repeat match goal with |- context[match option_map ?f ?o with Some _ => _ | None => _ end] => destruct o; cbn [option_map] end; try reflexivity.

(** *** Fields of windings *)
Lemma props_of_app a b : props_of (a ++ b) = props_of a ++ props_of b.
Proof. induction a as [|[k [v|]] r IH]; [reflexivity | |]; cbn [app props_of]; rewrite ?IH; reflexivity. Qed.
Lemma look_field_app k a b : look_field k (a ++ b) = match look_field k b with Some v => Some v | None => look_field k a end.
Proof. rewrite <- !look_fields, props_of_app. apply look_app. Qed.
Definition no_wdg (fs : fields) : Prop := Forall (fun f => String.eqb (lower (fst f)) "wdg" = false) fs.
Lemma of_winding_fields w cur a r : no_wdg a ->
  of_winding w cur (props_of (a ++ r)) = (if String.eqb cur w then props_of a else []) ++ of_winding w cur (props_of r).
Proof.
  induction 1 as [|[k [v|]] a H _ IH]; [destruct (String.eqb _ _); reflexivity | |]; cbn [app props_of].
  - cbn [of_winding]. cbn [fst] in H. rewrite H, IH. destruct (String.eqb cur w); reflexivity.
  - exact IH.
Qed.
Lemma of_winding_end w cur a : no_wdg a -> of_winding w cur (props_of a) = (if String.eqb cur w then props_of a else []).
Proof. intros H. rewrite <- (app_nil_r a) at 1. rewrite (of_winding_fields w cur a [] H). cbn [props_of of_winding]. now rewrite app_nil_r. Qed.
Lemma of_winding_wdg w cur v r : of_winding w cur (props_of (("wdg", Some v) :: r)) = of_winding w v (props_of r).
Proof. reflexivity. Qed.
Lemma texts_map_app {A} (f : A -> string) a b : texts (map f (a ++ b)) = (texts (map f a) ++ texts (map f b))%string.
Proof. rewrite map_app. apply texts_app. Qed.

Section Trans.
Variable show : Q -> string.
Variable num : string -> option Q.
Hypothesis FS : faithful show num.
Variable taps : bool.

Definition conn_of (c : option string) : option string := match c with Some "Y" => Some "wye" | Some "D" => Some "delta" | _ => None end.
Definition tap_of (w : winding) : option string := option_map show (first_tap taps w).

Definition two_fields (w : winding) (b : string) (ns : list string) : fields :=
  [("conn", conn_of (wd_conn w));
   ("Kv", option_map (fun v => show (milli v)) (wd_v w));
   ("kva", option_map (fun v => show (milli v)) (wd_va w));
   ("EmergHKVA", option_map (fun v => show (milli v)) (wd_emerg w));
   ("%R", option_map show (wd_res w));
   ("bus", Some (re_sub b ++ dotted ns)%string);
   ("Tap", tap_of w)].
Definition center_fields (cnt : nat) (w : winding) (b : string) (ns : list string) : fields :=
  [("conn", conn_of (wd_conn w));
   ("bus", Some (re_sub b ++ dotted ns)%string);
   ("Kv", option_map (fun v => show (milli v)) (wd_v w));
   ("kva", option_map (fun v => show (milli v)) (wd_va w));
   ("EmergHKVA", option_map (fun v => show (milli v)) (wd_emerg w));
   ("Tap", tap_of w);
   ("%R", Some (show (match wd_res w with Some r => r | None => center_r cnt end)))].
Definition head_fields (t : transformer) (np : string) : fields :=
  [("phases", Some np);
   ("windings", Some (str_of (length (tr_windings t))));
   ("%loadloss", option_map show (tr_loss t));
   ("%Noloadloss", option_map show (tr_noload t));
   ("normhkva", option_map show (tr_norm t))].
Definition two_tail (t : transformer) : fields := [("XHL", match tr_reac t with Some [x] => Some (show x) | _ => None end)].
Definition center_tail (t : transformer) : fields :=
  match tr_reac t with
  | Some [a; b; c] => [("XHL", Some (show a)); ("XLT", Some (show b)); ("XHT", Some (show c))]
  | Some _ => []
  | None => [("XHL", Some "2.040000"); ("XHT", Some "2.040000"); ("XLT", Some "1.360000")]
  end.
Definition two_all (t : transformer) (np : string) (w1 w2 : winding) (b1 b2 : string) (ns1 ns2 : list string) : fields :=
  head_fields t np ++ ("wdg", Some "1") :: two_fields w1 b1 ns1 ++ ("wdg", Some "2") :: two_fields w2 b2 ns2 ++ two_tail t.
Definition center_all (t : transformer) (np : string) (w1 w2 w3 : winding) (b1 b2 : string) (ns : list string) : fields :=
  head_fields t np ++ ("wdg", Some "1") :: center_fields 0 w1 b1 ns ++ ("wdg", Some "2") :: center_fields 1 w2 b2 ["1"; "0"] ++
  ("wdg", Some "3") :: center_fields 2 w3 b2 ["0"; "2"] ++ center_tail t.

(** *** Texts *)
Lemma conn_words_field c : conn_words c = field_text ("conn", conn_of c).
Proof. unfold conn_words, conn_of. destruct c as [c|]; [|reflexivity]. destruct c as [|[[] [] [] [] [] [] [] []] [|d c]]; reflexivity. Qed.
Lemma rating_field w : rating_words show w =
  (field_text ("Kv", option_map (fun v => show (milli v)) (wd_v w)) ++
   field_text ("kva", option_map (fun v => show (milli v)) (wd_va w)) ++
   field_text ("EmergHKVA", option_map (fun v => show (milli v)) (wd_emerg w)))%string.
Proof.
  unfold rating_words. rewrite (opt_field (fun v => " Kv=" ++ show (milli v))%string (fun v => show (milli v)) "Kv") by reflexivity.
  rewrite (opt_field (fun v => " kva=" ++ show (milli v))%string (fun v => show (milli v)) "kva") by reflexivity.
  rewrite (opt_field (fun v => " EmergHKVA=" ++ show (milli v))%string (fun v => show (milli v)) "EmergHKVA") by reflexivity. reflexivity.
Qed.
Lemma tap_field w : tapped taps w -> tap_words show taps w = Ok (field_text ("Tap", tap_of w)).
Proof.
  intros H. unfold tap_words, tap_of, first_tap, tapped in *. destruct taps; [|reflexivity]. destruct (wd_phases w) as [|p r]; [contradiction (H eq_refl); reflexivity|].
  destruct (pw_tap p); reflexivity.
Qed.

Lemma next_field p x n : pw_phase p = Some x -> at_node x n ->
  (exists m, next_node n m /\ next_text (pw_phase p) = ("." ++ m)%string) \/ (n = "0" /\ next_text (pw_phase p) = "").
Proof.
  intros P A. rewrite P. unfold next_text, map_phase. destruct A; cbn; try (left; eexists; split; [constructor | reflexivity]). right. split; reflexivity.
Qed.
Lemma two_nodes_text w : phased w -> exists ns, two_nodes_are w ns /\
  (two_nodes w ++ (if wd_ground w then ".0" else ""))%string = dotted ns /\ Forall (fun n => all_chars ordinary n = true) ns /\ Forall (free (Ascii.eqb ".")) ns.
Proof.
  intros Ph. assert (H : exists ms, two_nodes w = dotted ms /\ Forall (fun n => all_chars ordinary n = true) ms /\ Forall (free (Ascii.eqb ".")) ms /\
    ((length (wd_phases w) = 3 /\ ms = []) \/ (length (wd_phases w) <> 3 /\ spread (wd_conn w) (map pw_phase (wd_phases w)) ms))).
  { unfold two_nodes. destruct (Nat.eqb_spec (length (wd_phases w)) 3) as [E|E].
    - exists []. split; [reflexivity|]. split; [constructor|]. split; [constructor|]. left. split; [exact E | reflexivity].
    - destruct (phases_nodes pw_phase (wd_phases w) Ph) as [ms F]. rewrite (phase_texts pw_phase (wd_phases w) ms F).
      destruct (nodes_tokens _ _ F) as [T1 T2].
      assert (Same : (match wd_conn w, wd_phases w with Some "D", [p] => next_text (pw_phase p) | _, _ => "" end) = "" ->
        (wd_conn w <> Some "D" \/ length (map pw_phase (wd_phases w)) <> 1 \/ ms = [] \/ ms = ["0"]) ->
        exists ms0, (dotted ms ++ match wd_conn w, wd_phases w with Some "D", [p] => next_text (pw_phase p) | _, _ => "" end)%string = dotted ms0 /\
          Forall (fun n => all_chars ordinary n = true) ms0 /\ Forall (free (Ascii.eqb ".")) ms0 /\
          ((length (wd_phases w) = 3 /\ ms0 = []) \/ (length (wd_phases w) <> 3 /\ spread (wd_conn w) (map pw_phase (wd_phases w)) ms0))).
      { intros -> C. exists ms. rewrite app_nil_s. split; [reflexivity|]. split; [exact T1|]. split; [exact T2|]. right. split; [exact E|].
        exists ms. split; [exact F|]. right. split; [exact C | reflexivity]. }
      destruct (wd_conn w) as [c|] eqn:C; [|apply Same; [reflexivity | left; discriminate]].
      destruct (string_dec c "D") as [->|Nc].
      2: { apply Same; [|left; congruence]. destruct c as [|[[] [] [] [] [] [] [] []] [|d c]]; try reflexivity. contradiction Nc; reflexivity. }
      destruct (wd_phases w) as [|p [|q r]] eqn:W; [apply Same; [reflexivity | right; left; discriminate] | | apply Same; [reflexivity | right; left; discriminate]].
      destruct (pw_phase p) as [x|] eqn:P.
      + destruct (Ph p x) as [n An]; [rewrite W; left; reflexivity | exact P|].
        cbn [map given] in F. rewrite P in F. cbn [given] in F. inversion F as [|? m ? ? Am Fr]; subst. inversion Fr; subst.
        assert (n = m) as -> by (apply node_show in An; apply node_show in Am; congruence).
        destruct (next_field p x m P An) as [(k & Nx & Tx)|[Z Tx]].
        * rewrite P in Tx. rewrite Tx. exists [m; k]. split; [unfold dotted; cbn [map texts fold_right append]; rewrite ?app_nil_s, ?app_assoc_s; reflexivity|].
          destruct (node_token _ _ An) as [A1 A2]. assert (all_chars ordinary k = true /\ free (Ascii.eqb ".") k) as [K1 K2] by (destruct Nx; split; reflexivity).
          split; [constructor; [exact A1|]; constructor; [exact K1 | constructor]|]. split; [constructor; [exact A2|]; constructor; [exact K2 | constructor]|].
          right. split; [discriminate|]. exists [m]. split; [cbn [map given]; rewrite P; constructor; [exact An | constructor]|].
          left. split; [reflexivity|]. split; [reflexivity|]. exists m, k. repeat split; exact Nx.
        * rewrite P in Tx. apply Same; [exact Tx|]. right. right. right. congruence.
      + apply Same; [reflexivity|]. right. right. left. cbn [map given] in F. rewrite P in F. inversion F. reflexivity. }
  destruct H as (ms & T & T1 & T2 & S). exists (ms ++ (if wd_ground w then ["0"] else [])). split; [exists ms; split; [reflexivity | exact S]|].
  split; [rewrite T, dotted_app; destruct (wd_ground w); reflexivity|].
  split; apply Forall_app; split; try assumption; destruct (wd_ground w); repeat constructor.
Qed.

Lemma two_winding_text cnt b w ns : tapped taps w -> (two_nodes w ++ (if wd_ground w then ".0" else ""))%string = dotted ns ->
  two_winding show taps cnt b w = Ok (texts (map field_text (("wdg", Some (str_of (S cnt))) :: two_fields w b ns))).
Proof.
  intros T D. unfold two_winding. rewrite (tap_field w T). cbn [bind]. f_equal. rewrite conn_words_field, rating_field.
  rewrite (opt_field (fun r => " %R=" ++ show r)%string show "%R") by reflexivity.
  unfold two_fields. cbn [map texts fold_right]. change (field_text ("wdg", Some ?x)) with (" wdg=" ++ x)%string.
  change (field_text ("bus", Some ?x)) with (" bus=" ++ x)%string. rewrite <- D, ?app_assoc_s, ?app_nil_s. reflexivity.
Qed.
Lemma center_winding_text lp cnt b w ns : tapped taps w -> (match cnt with 0 => primary_nodes lp w | 1 => Ok ".1.0" | _ => Ok ".0.2" end) = Ok (dotted ns) ->
  center_winding show taps lp cnt b w = Ok (texts (map field_text (("wdg", Some (str_of (S cnt))) :: center_fields cnt w b ns))).
Proof.
  intros T D. unfold center_winding. rewrite D, (tap_field w T). cbn [bind]. f_equal. rewrite conn_words_field, rating_field.
  unfold center_fields. cbn [map texts fold_right]. change (field_text ("wdg", Some ?x)) with (" wdg=" ++ x)%string.
  change (field_text ("bus", Some ?x)) with (" bus=" ++ x)%string. rewrite ?app_assoc_s, ?app_nil_s. reflexivity.
Qed.

Lemma phases_field t w r np : tr_windings t = w :: r ->
  show_int (if Nat.eqb (length (tr_windings t)) 3 then match wd_conn w with Some "D" => (Z.of_nat (length (wd_phases w)) - 1)%Z | _ => Z.of_nat (length (wd_phases w)) end else Z.of_nat (length (wd_phases w))) = np ->
  phases_words t = (field_text ("phases", Some np) ++ field_text ("windings", Some (str_of (length (tr_windings t)))))%string.
Proof.
  intros W <-. unfold phases_words. rewrite W. change (field_text ("phases", Some ?x)) with (" phases=" ++ x)%string.
  change (field_text ("windings", Some ?x)) with (" windings=" ++ x)%string. rewrite app_assoc_s. reflexivity.
Qed.
Lemma head_text t w r np : tr_windings t = w :: r ->
  show_int (if Nat.eqb (length (tr_windings t)) 3 then match wd_conn w with Some "D" => (Z.of_nat (length (wd_phases w)) - 1)%Z | _ => Z.of_nat (length (wd_phases w)) end else Z.of_nat (length (wd_phases w))) = np ->
  (phases_words t ++ opt_text (fun v => " %loadloss=" ++ show v) (tr_loss t) ++ opt_text (fun v => " %Noloadloss=" ++ show v) (tr_noload t) ++
   opt_text (fun v => " normhkva=" ++ show v) (tr_norm t))%string = texts (map field_text (head_fields t np)).
Proof.
  intros W N. rewrite (phases_field t w r np W N).
  rewrite (opt_field (fun r => " %loadloss=" ++ show r)%string show "%loadloss") by reflexivity.
  rewrite (opt_field (fun r => " %Noloadloss=" ++ show r)%string show "%Noloadloss") by reflexivity.
  rewrite (opt_field (fun r => " normhkva=" ++ show r)%string show "normhkva") by reflexivity.
  unfold head_fields. cbn [map texts fold_right]. rewrite ?app_assoc_s, ?app_nil_s. reflexivity.
Qed.

Lemma two_row t n b1 b2 w1 w2 np ns1 ns2 : tr_name t = Some n -> tr_from t = Some b1 -> tr_to t = Some b2 -> tr_windings t = [w1; w2] ->
  tapped taps w1 -> tapped taps w2 -> show_int (Z.of_nat (length (wd_phases w1))) = np ->
  (two_nodes w1 ++ (if wd_ground w1 then ".0" else ""))%string = dotted ns1 -> (two_nodes w2 ++ (if wd_ground w2 then ".0" else ""))%string = dotted ns2 ->
  trans_text show taps t = Ok (row (mkElement "Transformer" n (props_of (two_all t np w1 w2 b1 b2 ns1 ns2))) [] ++ nl ++ nl)%string.
Proof.
  intros N B1 B2 W T1 T2 NP D1 D2. unfold trans_text. rewrite B1, B2. cbn [of_opt bind]. rewrite W.
  rewrite (two_winding_text 0 b1 w1 ns1 T1 D1). cbn [bind]. rewrite (two_winding_text 1 b2 w2 ns2 T2 D2). cbn [bind].
  f_equal. rewrite row_fields, N. unfold two_all.
  assert (X : match tr_reac t with Some [x] => (" XHL=" ++ show x)%string | _ => "" end = texts (map field_text (two_tail t))).
  { unfold two_tail. destruct (tr_reac t) as [[|x [|y l]]|]; try reflexivity. cbn [map texts fold_right]. rewrite app_nil_s. reflexivity. }
  rewrite X. cbn [opt_text]. pose proof (head_text t w1 [w2] np W) as HT. rewrite W in HT. cbn [length Nat.eqb] in HT. specialize (HT NP).
  rewrite texts_map_app, <- HT. rewrite (app_comm_cons (two_fields w1 b1 ns1)), texts_map_app. rewrite (app_comm_cons (two_fields w2 b2 ns2)), texts_map_app.
  rewrite !app_assoc_s. reflexivity.
Qed.
Lemma center_row t n b1 b2 w1 w2 w3 np ns : tr_name t = Some n -> tr_from t = Some b1 -> tr_to t = Some b2 -> tr_windings t = [w1; w2; w3] -> tr_center t = true ->
  tapped taps w1 -> tapped taps w2 -> tapped taps w3 ->
  show_int (match wd_conn w1 with Some "D" => (Z.of_nat (length (wd_phases w1)) - 1)%Z | _ => Z.of_nat (length (wd_phases w1)) end) = np ->
  (forall lp, primary_nodes lp w1 = Ok (dotted ns)) ->
  trans_text show taps t = Ok (row (mkElement "Transformer" n (props_of (center_all t np w1 w2 w3 b1 b2 ns))) [] ++ nl ++ nl)%string.
Proof.
  intros N B1 B2 W Ce T1 T2 T3 NP D. unfold trans_text. rewrite B1, B2. cbn [of_opt bind]. rewrite W, Ce.
  rewrite (center_winding_text _ 0 b1 w1 ns T1 (D _)). cbn [bind].
  rewrite (center_winding_text _ 1 b2 w2 ["1"; "0"] T2 eq_refl). cbn [bind]. rewrite (center_winding_text _ 2 b2 w3 ["0"; "2"] T3 eq_refl). cbn [bind].
  f_equal. rewrite row_fields, N. unfold center_all.
  assert (X : match tr_reac t with Some [a; b; c] => (" XHL=" ++ show a ++ " XLT=" ++ show b ++ " XHT=" ++ show c)%string | Some _ => "" | None => " XHL=2.040000 XHT=2.040000 XLT=1.360000" end
    = texts (map field_text (center_tail t))).
  { unfold center_tail. destruct (tr_reac t) as [[|a [|b [|c [|d l]]]]|]; try reflexivity. cbn [map texts fold_right].
    change (field_text ("XHL", Some ?x)) with (" XHL=" ++ x)%string. change (field_text ("XLT", Some ?x)) with (" XLT=" ++ x)%string.
    change (field_text ("XHT", Some ?x)) with (" XHT=" ++ x)%string. rewrite app_nil_s, !app_assoc_s. reflexivity. }
  rewrite X. cbn [opt_text]. pose proof (head_text t w1 [w2; w3] np W) as HT. rewrite W in HT. cbn [length Nat.eqb] in HT. specialize (HT NP).
  rewrite texts_map_app, <- HT. rewrite (app_comm_cons (center_fields 0 w1 b1 ns)), texts_map_app. rewrite (app_comm_cons (center_fields 1 w2 b2 _)), texts_map_app.
  rewrite (app_comm_cons (center_fields 2 w3 b2 _)), texts_map_app. rewrite !app_assoc_s. reflexivity.
Qed.

(** *** The elements are well formed *)
Lemma conn_token c v : conn_of c = Some v -> token v.
Proof.
  unfold conn_of. destruct c as [c|]; [|discriminate]. destruct c as [|[[] [] [] [] [] [] [] []] [|d c]]; try discriminate; intros Q; injection Q as <-; (split; [discriminate | reflexivity]).
Qed.
Notation fok := (fun f : string * option string => token (fst f) /\ forall v, snd f = Some v -> token v).
Lemma shown {A} (f : A -> Q) o v : option_map (fun x => show (f x)) o = Some v -> token v.
Proof. destruct o; [|discriminate]. intros Q. injection Q as <-. apply FS. Qed.
Lemma two_fields_ok w b ns : b <> "" -> Forall (fun n => all_chars ordinary n = true) ns -> Forall fok (two_fields w b ns).
Proof.
  intros B N. unfold two_fields. repeat (apply Forall_cons; [split; [split; [discriminate | reflexivity] | cbn [snd]; intros v Q]|]); [..|apply Forall_nil].
  - exact (conn_token _ _ Q).
  - exact (shown milli _ _ Q).
  - exact (shown milli _ _ Q).
  - exact (shown milli _ _ Q).
  - exact (shown (fun x => x) _ _ Q).
  - injection Q as <-. apply bus_token; assumption.
  - exact (shown (fun x => x) _ _ Q).
Qed.
Lemma center_fields_ok cnt w b ns : b <> "" -> Forall (fun n => all_chars ordinary n = true) ns -> Forall fok (center_fields cnt w b ns).
Proof.
  intros B N. unfold center_fields. repeat (apply Forall_cons; [split; [split; [discriminate | reflexivity] | cbn [snd]; intros v Q]|]); [..|apply Forall_nil].
  - exact (conn_token _ _ Q).
  - injection Q as <-. apply bus_token; assumption.
  - exact (shown milli _ _ Q).
  - exact (shown milli _ _ Q).
  - exact (shown milli _ _ Q).
  - exact (shown (fun x => x) _ _ Q).
  - injection Q as <-. apply FS.
Qed.
Lemma head_fields_ok t np : token np -> Forall fok (head_fields t np).
Proof.
  intros T. unfold head_fields. repeat (apply Forall_cons; [split; [split; [discriminate | reflexivity] | cbn [snd]; intros v Q]|]); [..|apply Forall_nil].
  - injection Q as <-. exact T.
  - injection Q as <-. apply str_token.
  - exact (shown (fun x => x) _ _ Q).
  - exact (shown (fun x => x) _ _ Q).
  - exact (shown (fun x => x) _ _ Q).
Qed.
Lemma wdg_ok k : fok ("wdg", Some (str_of k)).
Proof. split; [split; [discriminate | reflexivity]|]. intros v Q. injection Q as <-. apply str_token. Qed.
Lemma two_all_ok t np w1 w2 b1 b2 ns1 ns2 : token np -> b1 <> "" -> b2 <> "" ->
  Forall (fun n => all_chars ordinary n = true) ns1 -> Forall (fun n => all_chars ordinary n = true) ns2 -> Forall fok (two_all t np w1 w2 b1 b2 ns1 ns2).
Proof.
  intros T B1 B2 N1 N2. unfold two_all. apply Forall_app. split; [apply head_fields_ok; exact T|]. apply Forall_cons; [exact (wdg_ok 1)|].
  apply Forall_app. split; [apply two_fields_ok; assumption|]. apply Forall_cons; [exact (wdg_ok 2)|]. apply Forall_app. split; [apply two_fields_ok; assumption|].
  unfold two_tail. constructor; [|constructor]. split; [split; [discriminate | reflexivity]|]. intros v Q. cbn [snd] in Q.
  destruct (tr_reac t) as [[|x [|y l]]|]; try discriminate Q. injection Q as <-. apply FS.
Qed.
Lemma center_all_ok t np w1 w2 w3 b1 b2 ns : token np -> b1 <> "" -> b2 <> "" ->
  Forall (fun n => all_chars ordinary n = true) ns -> Forall fok (center_all t np w1 w2 w3 b1 b2 ns).
Proof.
  intros T B1 B2 N. unfold center_all. apply Forall_app. split; [apply head_fields_ok; exact T|]. apply Forall_cons; [exact (wdg_ok 1)|].
  apply Forall_app. split; [apply center_fields_ok; assumption|]. apply Forall_cons; [exact (wdg_ok 2)|].
  apply Forall_app. split; [apply center_fields_ok; [exact B2 | repeat constructor]|]. apply Forall_cons; [exact (wdg_ok 3)|].
  apply Forall_app. split; [apply center_fields_ok; [exact B2 | repeat constructor]|].
  unfold center_tail. destruct (tr_reac t) as [[|a [|b [|c [|d l]]]]|];
    repeat (apply Forall_cons; [split; [split; [discriminate | reflexivity] | cbn [snd]; intros v Q; injection Q as <-; (apply FS || (split; [discriminate | reflexivity]))]|]); apply Forall_nil.
Qed.

(** *** What the elements say *)
Lemma gives_milli e k o : prop e k = option_map (fun v => show (milli v)) o -> gives num e k (thousandth o).
Proof.
  destruct o as [v|]; cbn [option_map thousandth]; [|intros P; exact P]. intros P. apply (show_gives show num FS _ _ _ P). apply milli_div.
Qed.
Lemma gives_same e k o : prop e k = option_map show o -> gives num e k o.
Proof. intros P. pose proof (gives_opt show num FS e k (fun x => x) o P) as H. destruct o; exact H. Qed.
Lemma conn_of_is c : conn_of c = connection c.
Proof. unfold conn_of, connection. apply (conn_spec c "wye" "delta"). Qed.

Notation wkeys := ["conn"; "bus"; "kv"; "kva"; "emerghkva"; "tap"; "%r"].
Lemma winding_is_of e w b ns : (forall k, In k ["conn"; "bus"; "kv"; "kva"; "emerghkva"; "tap"] -> prop e k = look_field k (two_fields w b ns)) ->
  Forall (free (Ascii.eqb ".")) ns -> winding_is num taps w (Some b) ns e.
Proof.
  intros H F. split.
  - rewrite H by (cbn; tauto). unfold two_fields. lk. apply conn_of_is.
  - exists (re_sub b ++ dotted ns)%string, (re_sub b). split; [rewrite H by (cbn; tauto); reflexivity|].
    split; [apply terminal_dotted; [apply sub_from_token | exact F] | apply (sub_kept b)].
  - apply gives_milli. rewrite H by (cbn; tauto). unfold two_fields. lk. oo.
  - apply gives_milli. rewrite H by (cbn; tauto). unfold two_fields. lk. oo.
  - apply gives_milli. rewrite H by (cbn; tauto). unfold two_fields. lk. oo.
  - apply gives_same. rewrite H by (cbn; tauto). unfold two_fields. lk. unfold tap_of. oo.
Qed.

Lemma no_wdg_two w b ns : no_wdg (two_fields w b ns).
Proof. unfold two_fields. repeat (apply Forall_cons; [reflexivity|]). apply Forall_nil. Qed.
Lemma no_wdg_center c w b ns : no_wdg (center_fields c w b ns).
Proof. unfold center_fields. repeat (apply Forall_cons; [reflexivity|]). apply Forall_nil. Qed.
Lemma no_wdg_head t np : no_wdg (head_fields t np).
Proof. unfold head_fields. repeat (apply Forall_cons; [reflexivity|]). apply Forall_nil. Qed.
Lemma no_wdg_tail t : no_wdg (two_tail t) /\ no_wdg (center_tail t).
Proof. split; [repeat constructor|]. unfold center_tail. destruct (tr_reac t) as [[|a [|b [|c [|d l]]]]|]; repeat (apply Forall_cons; [reflexivity|]); apply Forall_nil. Qed.

Section Two.
Variables (t : transformer) (np : string) (w1 w2 : winding) (n b1 b2 : string) (ns1 ns2 : list string).
Let e := mkElement "Transformer" n (props_of (two_all t np w1 w2 b1 b2 ns1 ns2)).
Lemma two_first k : prop (winding_of e 1) k = look_field k (head_fields t np ++ two_fields w1 b1 ns1).
Proof.
  rewrite prop_look. unfold winding_of, e. cbn [e_props]. unfold two_all. rewrite (of_winding_fields _ _ _ _ (no_wdg_head t np)).
  rewrite of_winding_wdg, (of_winding_fields _ _ _ _ (no_wdg_two w1 b1 ns1)), of_winding_wdg.
  rewrite (of_winding_end "1" "2"); [|apply Forall_app; split; [apply no_wdg_two | apply no_wdg_tail]].
  change (String.eqb "1" (str_of 1)) with true. change (String.eqb "2" (str_of 1)) with false. cbv iota. rewrite app_nil_r, <- props_of_app. apply look_fields.
Qed.
Lemma two_second k : prop (winding_of e 2) k = look_field k (two_fields w2 b2 ns2 ++ two_tail t).
Proof.
  rewrite prop_look. unfold winding_of, e. cbn [e_props]. unfold two_all. rewrite (of_winding_fields _ _ _ _ (no_wdg_head t np)).
  rewrite of_winding_wdg, (of_winding_fields _ _ _ _ (no_wdg_two w1 b1 ns1)), of_winding_wdg.
  rewrite (of_winding_end "2" "2"); [|apply Forall_app; split; [apply no_wdg_two | apply no_wdg_tail]].
  change (String.eqb "1" (str_of 2)) with false. change (String.eqb "2" (str_of 2)) with true. cbv iota. cbn [app]. apply look_fields.
Qed.
End Two.
Section Center.
Variables (t : transformer) (np : string) (w1 w2 w3 : winding) (n b1 b2 : string) (ns : list string).
Let e := mkElement "Transformer" n (props_of (center_all t np w1 w2 w3 b1 b2 ns)).
Lemma center_first k : prop (winding_of e 1) k = look_field k (head_fields t np ++ center_fields 0 w1 b1 ns).
Proof.
  rewrite prop_look. unfold winding_of, e. cbn [e_props]. unfold center_all. rewrite (of_winding_fields _ _ _ _ (no_wdg_head t np)).
  rewrite of_winding_wdg, (of_winding_fields _ _ _ _ (no_wdg_center _ w1 b1 ns)), of_winding_wdg.
  rewrite (of_winding_fields _ _ _ _ (no_wdg_center _ w2 b2 _)), of_winding_wdg.
  rewrite (of_winding_end "1" "3"); [|apply Forall_app; split; [apply no_wdg_center | apply no_wdg_tail]].
  change (String.eqb "1" (str_of 1)) with true. change (String.eqb "2" (str_of 1)) with false. change (String.eqb "3" (str_of 1)) with false. cbv iota. cbn [app].
  rewrite app_nil_r, <- props_of_app. apply look_fields.
Qed.
Lemma center_second k : prop (winding_of e 2) k = look_field k (center_fields 1 w2 b2 ["1"; "0"]).
Proof.
  rewrite prop_look. unfold winding_of, e. cbn [e_props]. unfold center_all. rewrite (of_winding_fields _ _ _ _ (no_wdg_head t np)).
  rewrite of_winding_wdg, (of_winding_fields _ _ _ _ (no_wdg_center _ w1 b1 ns)), of_winding_wdg.
  rewrite (of_winding_fields _ _ _ _ (no_wdg_center _ w2 b2 _)), of_winding_wdg.
  rewrite (of_winding_end "2" "3"); [|apply Forall_app; split; [apply no_wdg_center | apply no_wdg_tail]].
  change (String.eqb "1" (str_of 2)) with false. change (String.eqb "2" (str_of 2)) with true. change (String.eqb "3" (str_of 2)) with false. cbv iota. cbn [app].
  rewrite app_nil_r. apply look_fields.
Qed.
Lemma center_third k : prop (winding_of e 3) k = look_field k (center_fields 2 w3 b2 ["0"; "2"] ++ center_tail t).
Proof.
  rewrite prop_look. unfold winding_of, e. cbn [e_props]. unfold center_all. rewrite (of_winding_fields _ _ _ _ (no_wdg_head t np)).
  rewrite of_winding_wdg, (of_winding_fields _ _ _ _ (no_wdg_center _ w1 b1 ns)), of_winding_wdg.
  rewrite (of_winding_fields _ _ _ _ (no_wdg_center _ w2 b2 _)), of_winding_wdg.
  rewrite (of_winding_end "3" "3"); [|apply Forall_app; split; [apply no_wdg_center | apply no_wdg_tail]].
  change (String.eqb "1" (str_of 3)) with false. change (String.eqb "2" (str_of 3)) with false. change (String.eqb "3" (str_of 3)) with true. cbv iota. cbn [app].
  apply look_fields.
Qed.
End Center.


Lemma wdg_numbers (fs : fields) m : Forall (fun f => lower (fst f) = "wdg" -> exists n, snd f = Some (str_of n) /\ 1 <= n <= m) fs ->
  forall k v, In (k, v) (props_of fs) -> lower k = "wdg" -> exists n, v = str_of n /\ 1 <= n <= m.
Proof.
  intros F k v I L. apply In_props in I. rewrite Forall_forall in F. destruct (F _ I L) as (n & Q & B). cbn [snd] in Q. injection Q as ->. exists n. split; [reflexivity | exact B].
Qed.
Lemma no_wdg_any fs m : no_wdg fs -> Forall (fun f => lower (fst f) = "wdg" -> exists n, snd f = Some (str_of n) /\ 1 <= n <= m) fs.
Proof. apply Forall_impl. intros f H Q. rewrite Q in H. discriminate H. Qed.

Lemma two_header t np w1 w2 n b1 b2 ns1 ns2 : tr_name t = Some n -> tr_windings t = [w1; w2] ->
  header_is num t (mkElement "Transformer" n (props_of (two_all t np w1 w2 b1 b2 ns1 ns2))).
Proof.
  intros N W. set (e := mkElement _ _ _).
  assert (P : forall k, prop e k = look_field k (two_all t np w1 w2 b1 b2 ns1 ns2)) by (intros k; rewrite prop_look; apply look_fields).
  split.
  - reflexivity.
  - exact N.
  - rewrite P. unfold two_all, head_fields, two_fields, two_tail. lk. reflexivity.
  - unfold e. cbn [e_props]. apply wdg_numbers. rewrite W. cbn [length]. unfold two_all. apply Forall_app. split; [apply no_wdg_any, no_wdg_head|].
    apply Forall_cons; [intros _; exists 1; split; [reflexivity | lia]|]. apply Forall_app. split; [apply no_wdg_any, no_wdg_two|].
    apply Forall_cons; [intros _; exists 2; split; [reflexivity | lia]|]. apply Forall_app. split; [apply no_wdg_any, no_wdg_two | apply no_wdg_any, no_wdg_tail].
  - apply gives_same. rewrite P. unfold two_all, head_fields, two_fields, two_tail. lk. oo.
  - apply gives_same. rewrite P. unfold two_all, head_fields, two_fields, two_tail. lk. oo.
  - apply gives_same. rewrite P. unfold two_all, head_fields, two_fields, two_tail. lk. oo.
  - apply only_fields. unfold two_all, head_fields, two_fields, two_tail. cbn [app]. repeat (apply Forall_cons; [cbn; tauto|]). apply Forall_nil.
Qed.
Lemma center_header t np w1 w2 w3 n b1 b2 ns : tr_name t = Some n -> tr_windings t = [w1; w2; w3] ->
  header_is num t (mkElement "Transformer" n (props_of (center_all t np w1 w2 w3 b1 b2 ns))).
Proof.
  intros N W. set (e := mkElement _ _ _).
  assert (P : forall k, prop e k = look_field k (center_all t np w1 w2 w3 b1 b2 ns)) by (intros k; rewrite prop_look; apply look_fields).
  split.
  - reflexivity.
  - exact N.
  - rewrite P. unfold center_all, head_fields, center_fields, center_tail. destruct (tr_reac t) as [[|a [|b [|c [|d l]]]]|]; lk; reflexivity.
  - unfold e. cbn [e_props]. apply wdg_numbers. rewrite W. cbn [length]. unfold center_all. apply Forall_app. split; [apply no_wdg_any, no_wdg_head|].
    apply Forall_cons; [intros _; exists 1; split; [reflexivity | lia]|]. apply Forall_app. split; [apply no_wdg_any, no_wdg_center|].
    apply Forall_cons; [intros _; exists 2; split; [reflexivity | lia]|]. apply Forall_app. split; [apply no_wdg_any, no_wdg_center|].
    apply Forall_cons; [intros _; exists 3; split; [reflexivity | lia]|]. apply Forall_app. split; [apply no_wdg_any, no_wdg_center | apply no_wdg_any, no_wdg_tail].
  - apply gives_same. rewrite P. unfold center_all, head_fields, center_fields, center_tail. destruct (tr_reac t) as [[|a [|b [|c [|d l]]]]|]; lk; oo.
  - apply gives_same. rewrite P. unfold center_all, head_fields, center_fields, center_tail. destruct (tr_reac t) as [[|a [|b [|c [|d l]]]]|]; lk; oo.
  - apply gives_same. rewrite P. unfold center_all, head_fields, center_fields, center_tail. destruct (tr_reac t) as [[|a [|b [|c [|d l]]]]|]; lk; oo.
  - apply only_fields. unfold center_all, head_fields, center_fields, center_tail. cbn [app].
    repeat (apply Forall_cons; [cbn; tauto|]). destruct (tr_reac t) as [[|a [|b [|c [|d l]]]]|]; repeat (apply Forall_cons; [cbn; tauto|]); apply Forall_nil.
Qed.

Lemma two_reads t : good_two taps t -> exists x e, trans_text show taps t = Ok x /\ two_is num taps t e /\
  forall rest els, read_dss rest = Some els -> read_dss (x ++ rest)%string = Some (e :: els).
Proof.
  intros (((n & N & T) & (b1 & B1 & E1) & (b2 & B2 & E2)) & L & Ph & Tp).
  destruct (tr_windings t) as [|w1 [|w2 [|w3 r]]] eqn:W; try discriminate L. clear L.
  inversion Ph as [|? ? P1 Ph']; subst. inversion Ph' as [|? ? P2 _]; subst. inversion Tp as [|? ? T1 Tp']; subst. inversion Tp' as [|? ? T2 _]; subst.
  destruct (two_nodes_text w1 P1) as (ns1 & S1 & D1 & A1 & F1). destruct (two_nodes_text w2 P2) as (ns2 & S2 & D2 & A2 & F2).
  pose proof (two_row t n b1 b2 w1 w2 _ ns1 ns2 N B1 B2 W T1 T2 eq_refl D1 D2) as R. rewrite show_int_nat in R.
  eexists. exists (mkElement "Transformer" n (props_of (two_all t (str_of (length (wd_phases w1))) w1 w2 b1 b2 ns1 ns2))). split; [exact R|].
  set (e := mkElement _ _ _).
  assert (P : forall k, prop e k = look_field k (two_all t (str_of (length (wd_phases w1))) w1 w2 b1 b2 ns1 ns2)) by (intros k; rewrite prop_look; apply look_fields).
  split.
  - split.
    + apply two_header; assumption.
    + exists w1, w2, ns1, ns2. split; [exact W|]. split; [exact S1|]. split; [exact S2|]. rewrite B1, B2.
      split; [|split; [|split; [|split]]].
      * apply winding_is_of; [|exact F1]. intros k I. unfold e. rewrite two_first, look_field_app. 
        destruct (look_field k (two_fields w1 b1 ns1)); [reflexivity|]. cbn [In] in I.
        repeat (destruct I as [<-|I]; [unfold head_fields; lk; reflexivity|]). destruct I.
      * apply gives_same. unfold e. rewrite two_first. unfold two_fields, head_fields. lk. oo.
      * apply winding_is_of; [|exact F2]. intros k I. unfold e. rewrite two_second, look_field_app.
        assert (X : look_field k (two_tail t) = None); [|now rewrite X]. cbn [In] in I.
        repeat (destruct I as [<-|I]; [unfold two_tail; lk; reflexivity|]). destruct I.
      * apply gives_same. unfold e. rewrite two_second. unfold two_fields, two_tail. lk. oo.
      * rewrite P. unfold two_all, head_fields, two_fields, two_tail. lk. reflexivity.
    + assert (X : prop e "xhl" = match tr_reac t with Some [x] => Some (show x) | _ => None end).
      { rewrite P. unfold two_all, head_fields, two_fields, two_tail. lk. destruct (tr_reac t) as [[|x [|y l]]|]; reflexivity. }
      destruct (tr_reac t) as [[|x [|y l]]|]; try exact X. apply (show_gives show num FS _ _ _ X). reflexivity.
    + split; rewrite P; unfold two_all, head_fields, two_fields, two_tail; lk; reflexivity.
  - intros rest els Rd. rewrite !app_assoc_s. apply row_read2; [|constructor | exact Rd]. unfold eok, e. cbn [e_class e_name e_props].
    split; [split; [discriminate | reflexivity]|]. split; [reflexivity|]. split; [exact T|]. apply fields_ok. apply two_all_ok; try assumption. apply str_token.
Qed.

Lemma primary_text w ns : primary_at w ns -> (forall lp, primary_nodes lp w = Ok (dotted ns)) /\
  Forall (fun n => all_chars ordinary n = true) ns /\ Forall (free (Ascii.eqb ".")) ns.
Proof.
  assert (S : forall x n, at_node x n -> show_opt (option_map show_int (map_phase (Some x))) = n) by (intros x n []; reflexivity).
  intros [w' p r x n W C P A|w' p q r x y n m W C P Q A B].
  - split; [|destruct (node_token _ _ A); split; repeat constructor; assumption].
    intros lp. unfold primary_nodes. rewrite W, P, (S _ _ A). f_equal. unfold dotted. cbn [map texts fold_right append]. f_equal. f_equal.
    destruct (wd_conn w') as [c|]; [|reflexivity]. destruct (string_dec c "D") as [->|Nc]; [contradiction C; reflexivity|].
    destruct c as [|[[] [] [] [] [] [] [] []] [|d c]]; try reflexivity. contradiction Nc; reflexivity.
  - split; [|destruct (node_token _ _ A), (node_token _ _ B); split; repeat constructor; assumption].
    intros lp. unfold primary_nodes. rewrite W, P, Q, C, (S _ _ A), (S _ _ B). f_equal. unfold dotted. cbn [map texts fold_right append]. rewrite app_nil_s. reflexivity.
Qed.
Lemma center_reads t : good_center taps t -> exists x e, trans_text show taps t = Ok x /\ center_is num taps t e /\
  forall rest els, read_dss rest = Some els -> read_dss (x ++ rest)%string = Some (e :: els).
Proof.
  intros (((n & N & T) & (b1 & B1 & E1) & (b2 & B2 & E2)) & Ce & Tp & w1 & w2 & w3 & ns & W & PA). rewrite W in Tp.
  inversion Tp as [|? ? T1 Tp']; subst. inversion Tp' as [|? ? T2 Tp'']; subst. inversion Tp'' as [|? ? T3 _]; subst.
  destruct (primary_text w1 ns PA) as (D & A & F).
  pose proof (center_row t n b1 b2 w1 w2 w3 _ ns N B1 B2 W Ce T1 T2 T3 eq_refl D) as R.
  set (k1 := match wd_conn w1 with Some "D" => length (wd_phases w1) - 1 | _ => length (wd_phases w1) end).
  assert (K : show_int (match wd_conn w1 with Some "D" => (Z.of_nat (length (wd_phases w1)) - 1)%Z | _ => Z.of_nat (length (wd_phases w1)) end) = str_of k1).
  { rewrite <- show_int_nat. f_equal. unfold k1. assert (G : 1 <= length (wd_phases w1)) by (destruct PA as [? ? ? ? ? Q|? ? ? ? ? ? ? ? Q]; rewrite Q; cbn; lia).
    destruct (wd_conn w1) as [c|]; [|reflexivity]. destruct (string_dec c "D") as [->|Nc]; [lia|].
    destruct c as [|[[] [] [] [] [] [] [] []] [|d c]]; try reflexivity. contradiction Nc; reflexivity. }
  rewrite K in R.
  eexists. exists (mkElement "Transformer" n (props_of (center_all t (str_of k1) w1 w2 w3 b1 b2 ns))). split; [exact R|].
  set (e := mkElement _ _ _).
  assert (P : forall k, prop e k = look_field k (center_all t (str_of k1) w1 w2 w3 b1 b2 ns)) by (intros k; rewrite prop_look; apply look_fields).
  assert (TC : forall k cnt w b m, In k ["conn"; "bus"; "kv"; "kva"; "emerghkva"; "tap"] -> look_field k (center_fields cnt w b m) = look_field k (two_fields w b m)).
  { intros k cnt w b m I. cbn [In] in I. repeat (destruct I as [<-|I]; [unfold center_fields, two_fields, tap_of; lk; oo|]). destruct I. }
  assert (HK : forall k, In k ["conn"; "bus"; "kv"; "kva"; "emerghkva"; "tap"] -> look_field k (head_fields t (str_of k1)) = None /\ look_field k (center_tail t) = None).
  { intros k I. cbn [In] in I. unfold head_fields, center_tail. destruct (tr_reac t) as [[|x [|y [|z [|u l]]]]|];
      repeat (destruct I as [<-|I]; [split; lk; reflexivity|]); destruct I. }
  split.
  - split.
    + apply center_header; assumption.
    + exists w1, w2, w3, ns. split; [exact W|]. split; [exact PA|]. rewrite B1, B2.
      split; [|split; [|split; [|split; [|split; [|split]]]]].
      * apply winding_is_of; [|exact F]. intros k I. unfold e. rewrite center_first, look_field_app, (TC k _ _ _ _ I), (proj1 (HK k I)).
        destruct (look_field k (two_fields w1 b1 ns)); reflexivity.
      * apply winding_is_of; [|repeat constructor]. intros k I. unfold e. rewrite center_second, (TC k _ _ _ _ I). reflexivity.
      * apply winding_is_of; [|repeat constructor]. intros k I. unfold e. rewrite center_third, look_field_app, (TC k _ _ _ _ I), (proj2 (HK k I)). reflexivity.
      * intros NR. apply gives_same. unfold e. rewrite center_first. unfold center_fields, head_fields. lk. destruct (wd_res w1); [reflexivity | contradiction NR; reflexivity].
      * intros NR. apply gives_same. unfold e. rewrite center_second. unfold center_fields. lk. destruct (wd_res w2); [reflexivity | contradiction NR; reflexivity].
      * intros NR. apply gives_same. unfold e. rewrite center_third. unfold center_fields, center_tail.
        destruct (tr_reac t) as [[|x [|y [|z [|u l]]]]|]; lk; (destruct (wd_res w3); [reflexivity | contradiction NR; reflexivity]).
      * rewrite P. unfold center_all, head_fields, center_fields, center_tail. destruct (tr_reac t) as [[|x [|y [|z [|u l]]]]|]; lk; reflexivity.
    + assert (Q : forall k, prop e k = look_field k (center_all t (str_of k1) w1 w2 w3 b1 b2 ns)) by exact P.
      unfold center_all, center_tail in Q. destruct (tr_reac t) as [[|x [|y [|z [|u l]]]]|].
      1-3,5-6: repeat split; rewrite Q; unfold head_fields, center_fields; lk; reflexivity.
      split; [|split].
      * apply (show_gives show num FS) with (q := x); [|reflexivity]. rewrite Q; unfold head_fields, center_fields; lk; reflexivity.
      * apply (show_gives show num FS) with (q := y); [|reflexivity]. rewrite Q; unfold head_fields, center_fields; lk; reflexivity.
      * apply (show_gives show num FS) with (q := z); [|reflexivity]. rewrite Q; unfold head_fields, center_fields; lk; reflexivity.
  - intros rest els Rd. rewrite !app_assoc_s. apply row_read2; [|constructor | exact Rd]. unfold eok, e. cbn [e_class e_name e_props].
    split; [split; [discriminate | reflexivity]|]. split; [reflexivity|]. split; [exact T|]. apply fields_ok. apply center_all_ok; try assumption. apply str_token.
Qed.
End Trans.
