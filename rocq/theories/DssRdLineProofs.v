(** Lemmas about the lines of the OpenDSS reader. *)
From Verif Require Import Base BaseFacts CsvModel TextModel DssNameModel UnitsModel UnitsSpec UnitsProofs MatrixModel MatrixSpec MatrixProofs DssTextModel DssTextSpec DssTextProofs DssLoadSpec DssNodeSpec DssNodeProofs
  DssRdLoadModel DssRdLoadSpec DssRdLoadProofs DssRdTransModel DssRdTransProofs DssRdLineModel DssRdLineSpec.
From Verif Require GlmSpec GlmProofs CsvProofs.
From Coq Require Import QArith Qcanon Lia.
Local Open Scope string_scope.
Local Open Scope nat_scope.
Local Open Scope list_scope.

Lemma line_cut n : cut_at "ine." ("Line." ++ n) = Some ("L", n).
Proof. cbn. assert (String.prefix "" n = true) as -> by now destruct n. now rewrite substring_all by lia. Qed.
Lemma line_piece n : ~ has "ine." n -> second_piece "ine." ("Line." ++ n) = Some n.
Proof. intros H. unfold second_piece. rewrite line_cut. now rewrite cut_at_none by (discriminate || exact H). Qed.
Lemma within_has w s : w <> "" -> within w s = true <-> has w s.
Proof.
  intros W. unfold within. pose proof (cut_at_has w s) as H. destruct (cut_at w s); split; intros X; try congruence.
  - assert (w = "" \/ has w s) as [Y|Y] by (apply H; discriminate); [congruence|exact Y].
  - destruct H as [_ H]. destruct H; auto.
Qed.
Lemma within_not w s : w <> "" -> within w s = false <-> ~ has w s.
Proof. intros W. rewrite <- (within_has w s W). destruct (within w s); split; congruence. Qed.

(** *** Matrices *)
Lemma word_strip w : GlmSpec.word w -> strip w = w.
Proof. intros W. unfold strip. rewrite <- (app_nil_s w) at 1. rewrite GlmProofs.lstrip_word, GlmProofs.rstrip_word by exact W. cbn. apply app_nil_s. Qed.
Lemma word_free w : GlmSpec.word w -> free (Ascii.eqb " ") w.
Proof.
  intros [_ E]. unfold free. induction w as [|c w IH]; [reflexivity|]. destruct E as [C E]. cbn [all_chars]. rewrite IH by exact E. destruct (Ascii.eqb_spec " " c) as [<-|]; [discriminate C|reflexivity].
Qed.
Lemma concat_split ws : ws <> [] -> Forall GlmSpec.word ws -> split_on " " (String.concat " " ws) = ws.
Proof.
  intros N F. rewrite split_pieces. induction F as [|w ws W F IH]; [congruence|]. destruct ws as [|x ws]; [apply pieces_free, word_free, W|].
  change (String.concat " " (w :: x :: ws)) with (w ++ String " " (String.concat " " (x :: ws)))%string. rewrite pieces_cut by (apply word_free, W || reflexivity). now rewrite IH by discriminate.
Qed.
Lemma concat_strip a ws b : GlmSpec.blank a -> GlmSpec.blank b -> ws <> [] -> Forall GlmSpec.word ws -> strip (a ++ String.concat " " ws ++ b) = String.concat " " ws.
Proof.
  intros A B N F. unfold strip. rewrite GlmProofs.lstrip_blank by exact A.
  assert (L : lstrip (String.concat " " ws ++ b) = (String.concat " " ws ++ b)%string).
  { destruct F as [|w ws W F]; [congruence|]. destruct ws as [|x ws]; [apply GlmProofs.lstrip_word, W|]. change (String.concat " " (w :: x :: ws)) with (w ++ String " " (String.concat " " (x :: ws)))%string. rewrite CsvProofs.sapp_assoc. apply GlmProofs.lstrip_word, W. }
  rewrite L. clear L. induction F as [|w ws W F IH]; [congruence|]. destruct ws as [|x ws].
  - cbn [String.concat]. rewrite GlmProofs.rstrip_word by exact W. rewrite GlmProofs.rstrip_blank by exact B. apply app_nil_s.
  - change (String.concat " " (w :: x :: ws)) with (w ++ String " " (String.concat " " (x :: ws)))%string. rewrite CsvProofs.sapp_assoc, GlmProofs.rstrip_word by exact W. f_equal.
    change (String " " (String.concat " " (x :: ws)) ++ b)%string with (" " ++ (String.concat " " (x :: ws) ++ b))%string. rewrite GlmProofs.rstrip_pre; rewrite IH by discriminate; [reflexivity|].
    inversion F; subst. match goal with H : GlmSpec.word x |- _ => destruct H as [X _] end. destruct x; [congruence|destruct ws; discriminate].
Qed.

Section Lines.
Variable int_ : string -> option Z.
Variable num : string -> option Q.
Variable source : string.
Variables fuses reclosers linecodes geometries wiredata cndata : list (string * data).

Lemma unit_found d f code : unit_is d f -> exists u, unit_of d code = Ok u /\ unit_worth u f.
Proof.
  intros (s & D & W). unfold unit_of. rewrite D. set (l := ["ft"; "mi"; "m"; "km"; "kft"; "cm"; "in"]).
  destruct (existsb (String.eqb (lower s)) l) eqn:E.
  - exists s. split; [reflexivity|]. destruct W as [W|[W _]]; [exact W|]. exfalso. apply existsb_exists in E as (x & I & X). apply String.eqb_eq in X.
    assert (exists g, In (x, g) metre_table) as (g & G). { cbn in I. unfold metre_table. repeat (destruct I as [<-|I]; [eexists; cbn; tauto|]). destruct I. }
    apply (W g). apply unit_worth_lower. now rewrite X.
  - exists "km". split; [reflexivity|]. destruct W as [W|[W ->]].
    + exfalso. apply unit_worth_lower in W. enough (existsb (String.eqb (lower s)) l = true) by congruence. apply existsb_exists. exists (lower s). split; [|apply String.eqb_refl].
      unfold metre_table in W. cbn in W. unfold l. cbn. repeat (destruct W as [W|W]; [injection W as <- _; tauto|]). destruct W.
    + apply unit_worth_lower. cbn. tauto.
Qed.
Lemma worth_pos u f : unit_worth u f -> ~ (f == 0)%Q.
Proof. intros W. apply unit_worth_lower in W. unfold metre_table in W. cbn in W. repeat (destruct W as [W|W]; [injection W as _ <-; intros X; discriminate X|]). destruct W. Qed.
Lemma row_read u f ws qs : unit_worth u f -> Forall2 (fun w q => num w = Some q) ws qs -> exists r, row_of num u ws = Some r /\ Forall2 (fun x q => (x * f == q)%Q) r qs.
Proof.
  intros W F. unfold row_of. induction F as [|w q ws qs N F (r & E & Q)]; [exists []; split; [reflexivity|constructor]|]. cbn [mapM]. rewrite N.
  destruct (to_meters_value u f q (KwBool true) W) as (x & X & V). cbn in V. unfold per_meter. rewrite X. cbn [of_opt bind]. unfold per_meter in E.
  match type of E with match ?m with _ => _ end = _ => destruct m as [t|]; [|discriminate] end. injection E as ->. cbn [bind]. exists (x :: r). split; [reflexivity|]. constructor; [|exact Q].
  rewrite V. unfold Qdiv. rewrite <- Qmult_assoc, (Qmult_comm (/ f)), Qmult_inv_r by exact (worth_pos _ _ W). apply Qmult_1_r.
Qed.

Lemma rows_read u f : unit_worth u f -> forall rs m, Forall2 (row_text num) rs m ->
  exists r, mapM (fun r => of_opt EValue (row_of num u (map strip (split_on " " (strip r))))) rs = Ok r /\ Forall2 (Forall2 (fun x q => (x * f == q)%Q)) r m.
Proof.
  intros W rs m F. induction F as [|t qs rs m (a & ws & b & A & B & N & Ws & -> & Q) F (r & E & R)]; [exists []; split; [reflexivity|constructor]|].
  cbn [mapM]. rewrite concat_strip, concat_split by assumption. assert (map strip ws = ws) as ->. { clear - Ws. induction Ws as [|w ws W F IH]; [reflexivity|]. cbn [map]. now rewrite word_strip, IH. }
  destruct (row_read u f ws qs W Q) as (x & -> & X). cbn [of_opt bind]. rewrite E. cbn [bind]. exists (x :: r). split; [reflexivity|now constructor].
Qed.
Lemma F2_cell {A B} (P : A -> B -> Prop) r m : Forall2 (Forall2 P) r m -> forall i j q, cell m i j q -> exists x, cell r i j x /\ P x q.
Proof. intros F i j q (row & R & C). destruct (F2_nth _ _ _ F _ _ R) as (row' & R' & F'). destruct (F2_nth _ _ _ F' _ _ C) as (x & X & Y). exists x. split; [exists row'; auto|exact Y]. Qed.
Lemma map_cell {A B} (f : A -> B) m i j x : cell m i j x -> cell (map (map f) m) i j (f x).
Proof. intros (r & R & X). exists (map f r). now rewrite !nth_error_map, R, X. Qed.
Lemma map_dims {A B} (f : A -> B) m a b : dims m a b -> dims (map (map f) m) a b.
Proof. intros [L R]. split; [now rewrite map_length|]. intros row I. apply in_map_iff in I as (x & <- & I). rewrite map_length. auto. Qed.
Lemma F2_triangular {A B} (P : A -> B -> Prop) r m : Forall2 (Forall2 P) r m -> lower_triangular m -> lower_triangular r.
Proof. intros F T i row R. destruct (F2_nth_l _ _ _ F _ _ R) as (row' & R' & F'). rewrite (F2_length _ _ _ F'). exact (T _ _ R'). Qed.
Lemma map_triangular {A B} (f : A -> B) m : lower_triangular m -> lower_triangular (map (map f) m).
Proof. intros T i row R. rewrite nth_error_map in R. destruct (nth_error m i) as [x|] eqn:E; [|discriminate]. injection R as <-. rewrite map_length. exact (T _ _ E). Qed.
Lemma matrix_read u f v m : unit_worth u f -> matrix_text num v m -> m <> [] /\ exists r, matrix_of num u v = Some r /\ matrix_per_metre f m r.
Proof.
  intros W [(s & q & -> & B & N & ->)|(s & -> & B & F & T)]; unfold matrix_of.
  - split; [discriminate|]. rewrite (proj2 (within_not "|" s ltac:(discriminate)) B). destruct (row_read u f [s] [q] W) as (r & -> & Q); [repeat constructor; exact N|]. exists [r]. split; [reflexivity|].
    inversion Q as [|x y r' l' X Y]; subst. inversion Y; subst. split; [split; [reflexivity|intros row [<-|[]]; reflexivity]|]. intros i j q' (row & R & C).
    destruct (Nat.max i j) as [|k] eqn:M; [|destruct k; discriminate R]. injection R as <-. assert (i = 0) as -> by lia. assert (j = 0) as -> by lia. injection C as <-. exists x. split; [now exists [x]|exact X].
  - split. { intros ->. inversion F as [Z|]. symmetry in Z. exact (pieces_nonempty _ _ Z). }
    assert (NE : m <> []). { intros ->. inversion F as [Z|]. symmetry in Z. exact (pieces_nonempty _ _ Z). }
    rewrite (proj2 (within_has "|" s ltac:(discriminate)) B). rewrite split_pieces. destruct (rows_read u f W _ _ F) as (r & -> & R). 
    assert (Tr : lower_triangular (map (map Q2Qc) r)) by (apply map_triangular; exact (F2_triangular _ _ _ R T)).
    assert (Nr : map (map Q2Qc) r <> []) by (destruct R; [congruence|discriminate]).
    destruct (symmetrize_triangular _ Nr Tr) as (y & -> & D & C & S). exists (map (map this) y). split; [reflexivity|]. rewrite map_length, (F2_length _ _ _ R) in D. split; [now apply map_dims|].
    intros i j q E. destruct (F2_cell _ _ _ R _ _ _ E) as (x & X & XV). exists (this (Q2Qc x)). split.
    + apply map_cell. apply map_cell with (f := Q2Qc) in X. apply C in X. destruct (Nat.max_spec i j) as [[L M]|[L M]]; rewrite M in X.
      * rewrite Nat.min_l in X by lia. apply S, X.
      * rewrite Nat.min_r in X by lia. exact X.
    + rewrite <- XV. cbn. now rewrite Qred_correct.
Qed.
Lemma zip_total {A B C} (f : A -> B -> C) : forall a b, length a = length b -> exists l, zip_with f a b = Some l /\ length l = length a /\ forall i x y, nth_error a i = Some x -> nth_error b i = Some y -> nth_error l i = Some (f x y).
Proof.
  induction a as [|x a IH]; intros [|y b] L; try discriminate L; cbn [zip_with].
  - exists []. split; [reflexivity|]. split; [reflexivity|]. intros [|i]; discriminate.
  - injection L as L. destruct (IH b L) as (l & -> & Ln & N). exists (f x y :: l). split; [reflexivity|]. split; [cbn; now rewrite Ln|]. intros [|i] p q P Q; cbn in *; [congruence|exact (N _ _ _ P Q)].
Qed.
Lemma all_some_total {A} (l : list (option A)) : (forall o, In o l -> o <> None) -> exists r, all_some l = Some r /\ length r = length l /\ forall i x, nth_error l i = Some (Some x) -> nth_error r i = Some x.
Proof.
  induction l as [|[x|] l IH]; intros H; cbn [all_some].
  - exists []. split; [reflexivity|]. split; [reflexivity|]. intros [|i]; discriminate.
  - destruct IH as (r & -> & L & N); [intros o I; apply H; now right|]. exists (x :: r). split; [reflexivity|]. split; [cbn; now rewrite L|]. intros [|i] y Y; cbn in *; [congruence|exact (N _ _ Y)].
  - destruct (H None (or_introl eq_refl) eq_refl).
Qed.
Lemma complex_read n r x : dims r n n -> dims x n n -> exists z, complex_of r x = Some z /\ dims z n n /\ forall i j a b, cell r i j a -> cell x i j b -> cell z i j (a, b).
Proof.
  intros [Lr Rr] [Lx Rx]. unfold complex_of. destruct (zip_total (zip_with (@pair Q Q)) r x) as (l & -> & Ll & Nl); [congruence|].
  assert (Rows : forall i o, nth_error l i = Some o -> exists p q, nth_error r i = Some p /\ nth_error x i = Some q /\ o = zip_with pair p q /\ length p = n /\ length q = n).
  { intros i o E. assert (i < length r) by (rewrite <- Ll; apply nth_error_Some; congruence). destruct (nth_error r i) as [p|] eqn:P; [|apply nth_error_None in P; lia]. destruct (nth_error x i) as [q|] eqn:Q; [|apply nth_error_None in Q; lia].
    rewrite (Nl _ _ _ P Q) in E. injection E as <-. exists p, q. repeat split; auto; [exact (Rr _ (nth_error_In _ _ P))|exact (Rx _ (nth_error_In _ _ Q))]. }
  destruct (all_some_total l) as (z & -> & Lz & Nz). { intros o I. apply In_nth_error in I as (i & I). destruct (Rows _ _ I) as (p & q & _ & _ & -> & Lp & Lq). destruct (zip_total (@pair Q Q) p q) as (t & -> & _); [congruence|discriminate]. }
  exists z. split; [reflexivity|]. split; [split; [congruence|]|].
  - intros row I. apply In_nth_error in I as (i & I). assert (i < length l) by (rewrite <- Lz; apply nth_error_Some; congruence). destruct (nth_error l i) as [o|] eqn:O; [|apply nth_error_None in O; lia].
    destruct (Rows _ _ O) as (p & q & _ & _ & Eo & Lp & Lq). destruct (zip_total (@pair Q Q) p q) as (t & E & Lt & _); [congruence|]. rewrite Eo, E in O. rewrite (Nz _ _ O) in I. injection I as <-. congruence.
  - intros i j a b (p & P & A) (q & Hq & B). destruct (zip_total (@pair Q Q) p q) as (t & E & Lt & Nt). { rewrite (Rr _ (nth_error_In _ _ P)). symmetry. exact (Rx _ (nth_error_In _ _ Hq)). }
    exists t. split; [|exact (Nt _ _ _ A B)]. apply Nz. rewrite (Nl _ _ _ P Hq), E. reflexivity.
Qed.

(** *** Names, ends and kinds *)
Lemma watched_read l : watching l -> exists ns, watched_all l = Ok ns /\ forall n, In n ns <-> exists x, In x l /\ watches x n.
Proof.
  intros H. induction l as [|x l IH]; [exists []; split; [reflexivity|]; intros n; split; [intros []|intros (y & [] & _)]|].
  destruct (H x (or_introl eq_refl)) as (m & s & D & N). destruct IH as (ns & E & I); [intros y Y; apply H; now right|]. unfold watched_all in *. cbn [mapM]. unfold watched at 1. rewrite D. cbn [of_opt bind]. rewrite split_pieces, N. cbn [of_opt bind]. rewrite E. cbn [bind].
  exists (m :: ns). split; [reflexivity|]. intros n. split.
  - intros [->|J]; [exists x; split; [now left|]; exists s; auto|]. apply I in J as (y & J & W). exists y. split; [now right|exact W].
  - intros (y & [<-|J] & W); [left|right; apply I; eauto]. destruct W as (s' & D' & N'). rewrite D in D'. injection D' as <-. congruence.
Qed.
Lemma kind_read fs rs n d : (forall m, In m fs <-> exists x, In x fuses /\ watches x m) -> (forall m, In m rs <-> exists x, In x reclosers /\ watches x m) -> kinded fuses reclosers n d (kind_of fs rs n d).
Proof.
  intros F R. unfold kind_of. destruct (smem n fs) eqn:Sf; [apply smem_In, F in Sf as (x & I & W); exact (kd_fuse _ _ _ _ x I W)|]. apply smem_not_In in Sf.
  assert (NF : forall x, In x fuses -> ~ watches x n) by (intros x I W; apply Sf, F; eauto).
  destruct (smem n rs) eqn:Sr; [apply kd_recloser; [exact NF|left; apply R; now apply smem_In]|]. apply smem_not_In in Sr.
  assert (NR : forall x, In x reclosers -> ~ watches x n) by (intros x I W; apply Sr, R; eauto). cbn [orb].
  destruct (within "recloser" n) eqn:Wr; [apply kd_recloser; [exact NF|right; now apply within_has]|]. apply within_not in Wr; [|discriminate].
  destruct (within "breaker" n) eqn:Wb; [apply kd_breaker; auto; now apply within_has|]. apply within_not in Wb; [|discriminate].
  unfold yes. destruct (d "Switch") as [v|] eqn:Sw; [|apply kd_none; auto; unfold yes; rewrite Sw; discriminate]. destruct (is_yes v) eqn:Y.
  - destruct v as [s|]; [|discriminate]. apply String.eqb_eq in Y. subst s. apply kd_switch; auto.
  - apply kd_none; auto. unfold yes. rewrite Sw. intros X. injection X as ->. discriminate Y.
Qed.
Lemma end_read d k t b ns : d k = Some (PText t) -> terminal t = (b, ns) -> (ns = [] -> strip b = b) ->
  fst (end_of int_ d k) = Some b /\ (ns = [] -> snd (end_of int_ d k) = [1; 2; 3]%Z) /\ forall zs, ns <> [] -> Forall2 (fun m z => int_ m = Some z) ns zs -> snd (end_of int_ d k) = zs.
Proof.
  intros D T S. unfold end_of, text_of. rewrite D. rewrite split_pieces. unfold terminal in T. destruct (pieces (Ascii.eqb ".") t) as [|x l] eqn:E; [destruct (pieces_nonempty _ _ E)|]. injection T as -> ->.
  destruct ns as [|m ns].
  - rewrite (pieces_one _ _ _ E), S by reflexivity. repeat split. intros zs X. congruence.
  - split; [reflexivity|]. split; [discriminate|]. intros zs _ F. cbn [snd]. assert (mapM (fun x => of_opt EValue (int_ x)) (m :: ns) = Ok zs) as ->; [|reflexivity].
    clear - F. induction F as [|w z l r H F IH]; [reflexivity|]. cbn [mapM]. rewrite H. cbn [of_opt bind]. now rewrite IH.
Qed.
Lemma qstates_float d k : qstates num d k (qfloat num d k).
Proof.
  unfold qstates. destruct (qfloat num d k) as [r|] eqn:E; unfold qfloat, text_of in E; destruct (d k) as [[s|l]|] eqn:D; try discriminate E.
  - exists s. auto.
  - intros r (s' & D' & N). rewrite D in D'. injection D' as <-. congruence.
  - intros r (s' & D' & N). congruence.
  - intros r (s' & D' & N). congruence.
Qed.
Lemma phase_read z : phase_no z (r_phase_int z).
Proof.
  unfold r_phase_int. destruct (Z.eqb_spec z 1) as [->|A]; [constructor|]. destruct (Z.eqb_spec z 2) as [->|B]; [constructor|]. destruct (Z.eqb_spec z 3) as [->|C]; [constructor|]. constructor. lia.
Qed.

(** *** Wires without a geometry *)
Lemma wire_read fs full kind zs d i : d "enabled" <> None -> exists w, plain_wire num fs full kind zs d i = Ok w /\ reads_wire num d zs kind i w /\ rw_fuse w = smem full fs.
Proof.
  intros E. unfold plain_wire. assert (X : exists o, (if kind_is KSwitch kind then do v <- of_opt EKey (d "enabled"); Ok (Some (negb (is_yes v))) else Ok None) = Ok o /\ (kind = Some KSwitch -> o = Some (negb (enabled d))) /\ (kind <> Some KSwitch -> o = None)).
  { destruct kind as [[]|]; cbn [kind_is]; try (exists None; split; [reflexivity|]; split; [discriminate|reflexivity]). unfold enabled. destruct (d "enabled") as [v|]; [|congruence]. cbn [of_opt bind]. eexists. split; [reflexivity|]. split; [intros _; destruct v; reflexivity|congruence]. }
  destruct X as (o & -> & O1 & O2). cbn [bind]. eexists. split; [reflexivity|]. split; [|reflexivity]. constructor; cbn [rw_node rw_amp rw_emamp rw_switch rw_open rw_breaker rw_recloser]; try apply qstates_float.
  - destruct (nth_error zs i) as [z|] eqn:N; [left; exists z; split; [reflexivity|apply phase_read]|right; split; [now apply nth_error_None|reflexivity]].
  - destruct kind as [[]|]; cbn; split; congruence.
  - auto.
  - destruct kind as [[]|]; cbn; split; congruence.
  - destruct kind as [[]|]; cbn; split; congruence.
Qed.
Lemma wires_read fs full kind len zs d v : d "enabled" <> None -> forall k s ws, length ws = s -> (forall i w, nth_error ws i = Some w -> reads_wire num d zs kind i w /\ rw_fuse w = smem full fs) ->
  exists ws', foldM (wire_step int_ num wiredata cndata fs full kind len None zs) (seq s k) (v, d, None, ws) = Ok (v, d, None, ws') /\ length ws' = s + k /\ forall i w, nth_error ws' i = Some w -> reads_wire num d zs kind i w /\ rw_fuse w = smem full fs.
Proof.
  intros E. induction k as [|k IH]; intros s ws L H; cbn [seq foldM].
  - exists ws. split; [reflexivity|]. split; [lia|exact H].
  - destruct (wire_read fs full kind zs d s E) as (w & Ew & W). assert (wire_step int_ num wiredata cndata fs full kind len None zs (v, d, None, ws) s = Ok (v, d, None, ws ++ [w])) as -> by (unfold wire_step; now rewrite Ew). destruct (IH (S s) (ws ++ [w])) as (ws' & -> & L' & H'); [rewrite app_length; cbn; lia| |].
    + intros i x X. destruct (Nat.lt_ge_cases i (length ws)) as [I|I]; [rewrite nth_error_app1 in X by exact I; exact (H _ _ X)|]. rewrite nth_error_app2 in X by exact I. destruct (i - length ws) as [|j] eqn:J; [|destruct j; discriminate X]. injection X as <-. assert (i = s) as -> by lia. exact W.
    + exists ws'. split; [reflexivity|]. split; [lia|exact H'].
Qed.
Lemma no_geo d : d "geometry" = None \/ (exists g, d "geometry" = Some (PText g) /\ (g = "" \/ forall x, In x geometries -> fst x <> ("linegeometry." ++ lower g)%string)) -> geometry_of geometries d = None.
Proof.
  intros [G|(g & G & H)]; unfold geometry_of, text_of; rewrite G; [reflexivity|]. destruct (String.eqb_spec g "") as [->|N]; [reflexivity|]. destruct H as [->|H]; [congruence|].
  induction geometries as [|[n x] l IH]; [reflexivity|]. cbn [find_data]. destruct (String.eqb_spec n ("linegeometry." ++ lower g)) as [->|_]; [destruct (H _ (or_introl eq_refl) eq_refl)|]. apply IH. intros y Y. apply H. now right.
Qed.
Lemma line_read fs rs v full d n b1 b2 zs f k mr mx mc : (forall m, In m fs <-> exists x, In x fuses /\ watches x m) -> (forall m, In m rs <-> exists x, In x reclosers /\ watches x m) ->
  d "Switch" <> None -> d "enabled" <> None -> counts d = true -> reports_line int_ num geometries full d n b1 b2 zs f k mr mx mc ->
  exists l, parse_line int_ num source linecodes geometries wiredata cndata fs rs v full d = Ok (v, Some l) /\ reads_line int_ num source fuses reclosers d n b1 b2 zs f k mr mx mc l /\ Forall (fun w => rw_fuse w = smem full fs) (rn_wires l).
Proof.
  intros Fs Rs Sw En Cn [-> Pl Co Un (ql & Le) (t1 & ns1 & B1 & T1 & N1) (t2 & ns2 & B2 & T2 & N2) Ph Fa (vr & Rm & Mr) (vx & Xm & Mx) (vc & Cm & Mc) Sm Ge]. unfold parse_line.
  destruct (d "Switch") as [sw|] eqn:Esw; [|congruence]. cbn [of_opt bind].
  assert (exists on, (if is_yes sw then Ok true else do e <- of_opt EKey (d "enabled"); Ok (is_yes e)) = Ok on /\ on = true) as (on & -> & ->).
  { unfold counts, enabled in Cn. rewrite Esw in Cn. destruct (is_yes sw) eqn:Y; [eauto|]. assert ((match sw with PText s => String.eqb s "Yes" | _ => false end) = false) as Z by (destruct sw; exact Y || reflexivity). rewrite Z in Cn. cbn [orb] in Cn.
    destruct (d "enabled") as [e|]; [|discriminate]. cbn [of_opt bind]. exists (is_yes e). split; [reflexivity|]. destruct e; [exact Cn|discriminate Cn]. }
  cbn [bind negb]. rewrite line_piece by exact Pl. cbn [of_opt bind].
  assert (exists code, code_of linecodes d = Ok code /\ d "linecode" = option_map PText (fst code)) as (code & -> & Ec).
  { unfold code_of. destruct Co as [->|(c & ->)]; eexists; (split; reflexivity). }
  cbn [bind]. destruct (unit_found d f (snd code) Un) as (u & -> & W). cbn [bind].
  destruct (end_read d "bus1" t1 b1 ns1 B1 T1) as (F1 & A1 & Z1); [intros X; destruct N1 as [(_ & S & _)|(C & _)]; [exact S|congruence]|].
  destruct (end_read d "bus2" t2 b2 ns2 B2 T2 N2) as (F2 & _ & _).
  assert (check_ends int_ d = Ok tt) as ->. { unfold check_ends. rewrite B1, B2. now destruct (same_list _ _). }
  destruct (end_of int_ d "bus1") as [bf zf] eqn:Eb. cbn [fst snd] in F1, A1, Z1. cbn [bind]. subst bf.
  assert (zf = zs) as -> by (destruct N1 as [(X & _ & ->)|(X & Y)]; auto).
  destruct (matrix_read u f vr mr W Mr) as (Nr & r & Er & Dr & Cr). destruct (matrix_read u f vx mx W Mx) as (Nx & x & Ex & Dx & Cx). destruct (matrix_read u f vc mc W Mc) as (Nc & c & Ecc & Mcc). rewrite <- Sm in Dx.
  destruct (complex_read _ r x Dr Dx) as (z & Ez & Dz & Cz).
  assert (imped_of num u d (snd code) = Ok z) as ->. { unfold imped_of, from_both, present. cbn [forallb]. rewrite Rm, Xm. cbn [andb bind]. now rewrite Er, Ex, Ez. }
  cbn [bind]. assert (cap_of num u d (snd code) = Ok c) as ->. { unfold cap_of, from_both, present. cbn [forallb]. rewrite Cm. cbn [andb bind]. now rewrite Ecc. }
  cbn [bind]. rewrite (no_geo d Ge). assert (conductors int_ d None = Ok (Z.of_nat k)) as ->. { unfold conductors. now rewrite (int_whole int_ d "phases" _ Ph). }
  cbn [bind]. rewrite Nat2Z.id. set (len := match qfloat num d "length" with Some q => meters (Some q) u | None => Some 0%Q end).
  destruct (wires_read fs ("Line." ++ n) (kind_of fs rs (lower n) d) len zs d v En k 0 [] eq_refl) as (ws & Ew & Lw & Hw); [intros [|i]; discriminate|].
  match goal with |- context [bind ?x _] => assert (HH : x = Ok (v, d, None, ws)) by exact Ew; rewrite HH; clear HH end. cbn [bind]. eexists. split; [reflexivity|]. split.
  - constructor; cbn [rn_name rn_feeder rn_class rn_length rn_from rn_to rn_kind rn_fault rn_Z rn_C rn_wires]; auto.
    + unfold len. destruct Le as (s & Ds & Ns). destruct (to_meters_value u f ql KwAbsent W) as (y & Ey & Vy). exists ql, y. split; [exists s; auto|]. unfold qfloat, text_of. rewrite Ds, Ns. unfold meters. rewrite Ey. split; [reflexivity|exact Vy].
    + apply kind_read; assumption.
    + unfold fault_of. destruct (d "faultrate") eqn:Ef; [|congruence]. apply qstates_float.
    + split; [exact Dz|]. intros i j q q' E1 E2. destruct (Cr _ _ _ E1) as (a & Ca & Va). destruct (Cx _ _ _ E2) as (b & Cb & Vb). exists a, b. split; [exact (Cz _ _ _ _ Ca Cb)|auto].
    + intros i w I. exact (proj1 (Hw _ _ I)).
  - cbn [rn_wires]. apply Forall_forall. intros w I. apply In_nth_error in I as (i & I). exact (proj2 (Hw _ _ I)).
Qed.
End Lines.
