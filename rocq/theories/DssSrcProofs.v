(** Proofs about the power sources of the OpenDSS writer and reader. *)
From Verif Require Import Base BaseFacts CsvModel TextModel DssNameModel DssTextModel DssNameSpec DssTextSpec DssLoadSpec DssNameProofs DssTextProofs DssLoadProofs DssLineTextProofs DssStoreProofs.
From Verif Require Import DssNodeProofs DssRdLoadModel DssRdLoadSpec DssRdLoadProofs DssRdCapSpec DssSrcModel DssSrcSpec.
From Coq Require Import Reals QArith Qreals Lia.
Local Open Scope string_scope.
Local Open Scope nat_scope.
Local Open Scope list_scope.

(** ** Writing *)
Lemma length_app_s (a b : string) : String.length (a ++ b)%string = String.length a + String.length b.
Proof. induction a as [|c a IH]; [reflexivity|]. cbn. now rewrite IH. Qed.
Lemma substring_front a b : substring 0 (String.length a) (a ++ b)%string = a.
Proof. induction a as [|c a IH]; [now destruct b|]. cbn. now rewrite IH. Qed.
Lemma cut_at_end w b : w <> "" -> cut_at w (b ++ w)%string <> None.
Proof.
  intros W. induction b as [|c b IH]; [destruct w as [|c w]; [congruence|]; cbn [append cut_at]; assert (String.prefix (String c w) (String c w) = true) as -> by (apply prefix_correct; cbn; f_equal; rewrite <- (app_nil_s w) at 2; apply substring_front); discriminate|].
  cbn [append cut_at]. destruct (String.prefix _ _); [discriminate|]. destruct (cut_at w (b ++ w)) as [[x y]|]; [discriminate|contradiction].
Qed.
Lemma cleaned_suffix b : cleaned (b ++ "_src")%string = b.
Proof.
  unfold cleaned. destruct (cut_at "_src" (b ++ "_src")) eqn:E; [|destruct (cut_at_end "_src" b ltac:(discriminate) E)]. rewrite length_app_s. cbn [String.length]. replace (String.length b + 4 - 4) with (String.length b) by lia. apply substring_front.
Qed.
Lemma cleaned_plain b : ~ has "_src" b -> cleaned b = b.
Proof. intros H. unfold cleaned. rewrite cut_at_none; [reflexivity|discriminate|exact H]. Qed.

Section Write.
Variable show : Q -> string.
Variable num : string -> option Q.
Hypothesis FS : faithful show num.
Definition source_fields (s : source) (b : string) : fields :=
  [("bus1", Some (re_sub b)); ("pu", option_map show (so_pu s)); ("basekV", option_map (fun v => show (v / 1000)%Q) (so_kv s));
   ("R1", option_map (fun z => show (fst z)) (so_z1 s)); ("X1", option_map (fun z => show (snd z)) (so_z1 s));
   ("R0", option_map (fun z => show (fst z)) (so_z0 s)); ("X0", option_map (fun z => show (snd z)) (so_z0 s))].
Definition source_element (s : source) (b : string) : element := mkElement "Circuit" "Full_Network" (props_of (source_fields s b)).
Lemma source_row s b : so_name s <> None -> so_pu s <> None -> at_source s b -> exists t, source_text show s = Ok t /\ ("New Circuit.Full_Network " ++ t)%string = row (source_element s b) [].
Proof.
  intros N P A. unfold source_text. destruct (so_name s) as [n|] eqn:En; [|congruence]. cbn [of_opt bind]. eexists. split; [reflexivity|].
  assert (B : match so_conn s with Some c => c | None => cleaned n end = b).
  { unfold at_source in A. destruct (so_conn s); [now symmetry|]. destruct A as (n' & E & [-> | ->] & H); rewrite En in E; injection E as ->; [apply cleaned_suffix|now apply cleaned_plain]. }
  rewrite B. destruct (so_pu s) as [p|] eqn:Ep; [|congruence].
  unfold source_element. rewrite row_fields. unfold source_fields. rewrite Ep. cbn [map texts fold_right]. rewrite app_nil_s.
  rewrite (opt_field (fun v => " basekV=" ++ show (v / 1000)%Q)%string (fun v => show (v / 1000)%Q) "basekV") by reflexivity.
  assert (Z : forall z a b, opt_text (fun z => " " ++ a ++ "=" ++ show (fst z) ++ " " ++ b ++ "=" ++ show (snd z))%string z = (field_text (a, option_map (fun z => show (fst z)) z) ++ field_text (b, option_map (fun z => show (snd z)) z))%string).
  { intros [z|] x y; [|reflexivity]. cbn [opt_text field_text option_map fst snd]. cbn [append]. rewrite !app_assoc_s. cbn [append]. rewrite ?app_assoc_s. reflexivity. }
  assert (Z1 : opt_text (fun z => " R1=" ++ show (fst z) ++ " X1=" ++ show (snd z))%string (so_z1 s) = (field_text ("R1", option_map (fun z => show (fst z)) (so_z1 s)) ++ field_text ("X1", option_map (fun z => show (snd z)) (so_z1 s)))%string) by exact (Z (so_z1 s) "R1" "X1").
  assert (Z0 : opt_text (fun z => " R0=" ++ show (fst z) ++ " X0=" ++ show (snd z))%string (so_z0 s) = (field_text ("R0", option_map (fun z => show (fst z)) (so_z0 s)) ++ field_text ("X0", option_map (fun z => show (snd z)) (so_z0 s)))%string) by exact (Z (so_z0 s) "R0" "X0").
  rewrite Z1, Z0. cbn [option_map].
  change (field_text ("bus1", Some ?x)) with (" bus1=" ++ x)%string. change (field_text ("pu", Some ?x)) with (" pu=" ++ x)%string. rewrite !app_assoc_s. reflexivity.
Qed.
Lemma source_element_ok s b : b <> "" -> eok (source_element s b).
Proof.
  intros B. unfold eok. cbn [e_class e_name e_props source_element]. split; [split; [discriminate | reflexivity]|]. split; [reflexivity|]. split; [split; [discriminate|reflexivity]|].
  apply fields_ok. unfold source_fields. repeat (apply Forall_cons; [split; [split; [discriminate | reflexivity] | cbn [snd]; intros v Q]|]); [..|apply Forall_nil].
  - injection Q as <-. rewrite <- (app_nil_s (re_sub b)). apply (bus_token b []); [exact B|constructor].
  - destruct (so_pu s); [|discriminate Q]. injection Q as <-. apply FS.
  - destruct (so_kv s); [|discriminate Q]. injection Q as <-. apply FS.
  - destruct (so_z1 s); [|discriminate Q]. injection Q as <-. apply FS.
  - destruct (so_z1 s); [|discriminate Q]. injection Q as <-. apply FS.
  - destruct (so_z0 s); [|discriminate Q]. injection Q as <-. apply FS.
  - destruct (so_z0 s); [|discriminate Q]. injection Q as <-. apply FS.
Qed.
Lemma source_element_is s b : circuit_is num s b (source_element s b).
Proof.
  assert (P : forall k, prop (source_element s b) k = look_field k (source_fields s b)) by (intros k; rewrite prop_look; apply look_fields).
  assert (G : forall k o, look_field k (source_fields s b) = option_map show o -> gives num (source_element s b) k o).
  { intros k o Q. destruct o as [v|]; [|cbn [gives]; rewrite P; exact Q]. apply (show_gives show num FS) with (q := v); [rewrite P; exact Q | reflexivity]. }
  split; [reflexivity|]. split; [reflexivity|]. split.
  { exists (re_sub b), (re_sub b). split; [now rewrite P|]. split; [|apply (sub_kept b)]. rewrite <- (app_nil_s (re_sub b)) at 1. apply (terminal_dotted (re_sub b) []); [apply sub_from_token|constructor]. }
  split; [apply G; cbn; now destruct (so_pu s)|]. split; [apply G; cbn; now destruct (so_kv s)|].
  split; [apply G; cbn; now destruct (so_z1 s)|]. split; [apply G; cbn; now destruct (so_z1 s)|]. split; [apply G; cbn; now destruct (so_z0 s)|]. split; [apply G; cbn; now destruct (so_z0 s)|].
  apply only_fields. unfold source_fields. repeat (apply Forall_cons; [cbn; tauto|]). apply Forall_nil.
Qed.
End Write.

(** ** Reading *)
Lemma z_impedance num d kz kr kx : impedance num d kz kr kx (z_of num d kz kr kx).
Proof.
  unfold z_of. split; [|split].
  - intros a b r x -> -> ->. reflexivity.
  - intros a b r x L -> -> A B -> ->. destruct (String.eqb_spec a ""); [contradiction|]. destruct (String.eqb_spec b ""); [contradiction|]. cbn [orb]. destruct (d kz) as [[s|l]|]; try reflexivity. destruct (L l eq_refl).
  - intros -> ->. reflexivity.
Qed.
Lemma bus_source d b : source_at d b -> source_bus d = Some b.
Proof.
  intros (t & ns & D & T). unfold source_bus, text_of. rewrite D, split_pieces. unfold terminal in T. destruct (pieces (Ascii.eqb ".") t) as [|x [|y r]] eqn:E; [destruct (pieces_nonempty _ _ E)| |]; injection T as <- <-; [f_equal; exact (pieces_one _ _ _ E)|reflexivity].
Qed.
Section Read.
Variable num : string -> option R.
Variable delim : ascii.
Lemma row_step r b x y st : row_at num delim r b x y -> xy_step num delim st r = (SNum x, SNum y).
Proof.
  intros (Ne & n & xs & ys & P & _ & Nx & Ny). unfold xy_step. destruct (String.eqb_spec (strip r) ""); [contradiction|]. rewrite split_pieces, P. cbn [map]. now rewrite Nx, Ny.
Qed.
Lemma empty_step r st : empty_row r -> xy_step num delim st r = st.
Proof. unfold empty_row, xy_step. intros ->. reflexivity. Qed.
Lemma pos_ok coordinates : rows_ok num delim coordinates -> exists p, source_pos num delim coordinates = Ok [p].
Proof.
  intros G. unfold source_pos. assert (X : exists a b, fold_left (xy_step num delim) (match coordinates with Some l => l | None => [] end) (SNone, SNone) = (a, b) /\ (forall s, a <> SText s) /\ (forall s, b <> SText s)).
  { destruct coordinates as [rows|]; [|exists SNone, SNone; repeat split; discriminate]. specialize (G rows). induction rows as [|r rows IH] using rev_ind; [exists SNone, SNone; repeat split; discriminate|].
    destruct IH as (a & b & E & A & B). { intros r' _ H. apply (G r' eq_refl), in_or_app. now left. } rewrite fold_left_app. cbn [fold_left]. rewrite E. destruct (G r eq_refl) as [Em|(c & x & y & Ra)]; [apply in_or_app; right; now left|rewrite empty_step by exact Em; eauto|]. rewrite (row_step _ _ _ _ _ Ra). exists (SNum x), (SNum y). repeat split; discriminate. }
  destruct X as (a & b & -> & A & B). cbn [fst snd]. destruct a as [|s|u]; [|destruct (A s eq_refl)|]; (destruct b as [|s'|u']; [|destruct (B s' eq_refl)|]); eexists; reflexivity.
Qed.
Lemma source_ok coordinates p st x b : source_pos num delim coordinates = Ok p -> enabled (snd x) = true -> source_at (snd x) b ->
  exists r m, parse_source num delim coordinates st x = Ok ((b ++ "_src")%string, snd (fst st) ++ [r], snd st ++ [m]) /\ reads_source num x b r /\ meta_of b r m /\ rs_pos r = p /\ rs_phases r = ["A"; "B"; "C"].
Proof.
  intros P E A. destruct st as [[sn srcs] metas]. unfold parse_source. unfold enabled in E. destruct (snd x "enabled") as [[s|l]|]; try discriminate E. cbn [of_opt bind]. rewrite E, P. cbn [bind]. rewrite (bus_source _ _ A).
  eexists _, _. split; [reflexivity|]. split; [|split; [repeat split|split; reflexivity]].
  constructor; cbn; try reflexivity; try (eexists; split; [apply states_float|reflexivity]); apply z_impedance.
Qed.
End Read.
