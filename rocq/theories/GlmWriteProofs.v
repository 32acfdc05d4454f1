(** Proofs about the GridLAB-D writer. *)
From Verif Require Import Base BaseFacts NetworkModel SortProofs VoltProofs NetworkQueries GlmWriteModel GlmWriteSpec.
From Coq Require Import QArith Lia Permutation DecimalString DecimalNat.
Local Open Scope string_scope.
Local Open Scope nat_scope.
Local Open Scope list_scope.

(** ** Rows *)
Fixpoint nob (s : string) : bool := match s with "" => true | String c t => (negb (Ascii.eqb c " ") && nob t)%bool end.
Lemma nob_blank s : no_blank s -> nob s = true.
Proof.
  induction s as [|c t IH]; cbn; intros H; [reflexivity|]. apply andb_true_intro; split.
  - destruct (Ascii.eqb c " ") eqn:E; [|reflexivity]. apply Ascii.eqb_eq in E. subst c. exfalso. exact (H "" t eq_refl).
  - apply IH. intros a b E. apply (H (String c a) b). cbn. now rewrite E.
Qed.
Lemma nob_app a b : nob (a ++ b)%string = (nob a && nob b)%bool.
Proof. induction a as [|c t IH]; cbn; [reflexivity|]. rewrite IH. now rewrite andb_assoc. Qed.
Definition okb (k : string) : bool := match k with "" => false | _ => nob k end.

Lemma until_key k r : nob k = true -> until " " (k ++ String " " r)%string = k.
Proof.
  induction k as [|c t IH]; intros H; [reflexivity|]. cbn in H. apply andb_true_iff in H. destruct H as [Hc Ht].
  cbn [append until]. destruct (Ascii.eqb c " "); [discriminate Hc|]. now rewrite (IH Ht).
Qed.
Lemma after_key k r : nob k = true -> after " " (k ++ String " " r)%string = r.
Proof.
  induction k as [|c t IH]; intros H; [reflexivity|]. cbn in H. apply andb_true_iff in H. destruct H as [Hc Ht].
  cbn [append after]. destruct (Ascii.eqb c " "); [discriminate Hc|]. now rewrite (IH Ht).
Qed.
Lemma chop_semi v : chop (v ++ ";")%string = v.
Proof. induction v as [|c t IH]; [reflexivity|]. cbn [append chop]. rewrite IH. now destruct t. Qed.
Lemma sapp_assoc a b c : ((a ++ b) ++ c)%string = (a ++ b ++ c)%string.
Proof. induction a as [|x t IH]; [reflexivity|]. cbn. now rewrite IH. Qed.

Lemma trim_key k r : okb k = true -> trim (k ++ r)%string = (k ++ r)%string.
Proof. destruct k as [|c t]; [discriminate|]. cbn. intros H. apply andb_true_iff in H. destruct H as [Hc _]. destruct (Ascii.eqb c " "); [discriminate Hc|reflexivity]. Qed.
Lemma okb_nob k : okb k = true -> nob k = true.
Proof. destruct k; [discriminate|trivial]. Qed.
Lemma row_property k v : okb k = true -> property (prow (k, v)) = (k, v).
Proof.
  intros H. unfold property, prow. cbn [fst snd].
  assert (E : trim ("    " ++ k ++ " " ++ v ++ ";") = (k ++ " " ++ v ++ ";")%string) by (cbn [append trim]; exact (trim_key k _ H)).
  rewrite E. cbn [append]. rewrite (until_key k _ (okb_nob k H)), (after_key k _ (okb_nob k H)). now rewrite chop_semi.
Qed.
Lemma row_property5 k v : okb k = true -> property ("     " ++ k ++ " " ++ v ++ ";")%string = (k, v).
Proof.
  intros H. unfold property.
  assert (E : trim ("     " ++ k ++ " " ++ v ++ ";") = (k ++ " " ++ v ++ ";")%string) by (cbn [append trim]; exact (trim_key k _ H)).
  rewrite E. cbn [append]. rewrite (until_key k _ (okb_nob k H)), (after_key k _ (okb_nob k H)). now rewrite chop_semi.
Qed.

(** ** Objects *)
(** the row that opens an object of a class *)
Definition glued : list string := ["transformer"; "regulator"; "underground_line"; "fuse"; "switch"; "overhead_line"].
Definition head_of (cls : string) : string := if smem cls glued then ("object " ++ cls ++ "{")%string else ("object " ++ cls ++ " {")%string.
(** the rows of objects *)
Inductive shape : list string -> list block -> Prop :=
| sh_nil : shape [] []
| sh_module : shape module_rows []
| sh_obj : forall cls ps body, Forall2 (fun r p => r = prow p \/ r = String " " (prow p)) body ps -> shape (head_of cls :: body ++ ["};"; ""]) [(cls, ps)]
| sh_app : forall a b x y, shape a x -> shape b y -> shape (a ++ b) (x ++ y).
Definition decodes (rows : list string) (bs : list block) : Prop := shape rows bs /\ forall rest, objects None (rows ++ rest) = bs ++ objects None rest.
Definition head_ok (head cls : string) : Prop := opens head = Some cls /\ head = head_of cls.
Definition keys_ok (ps : list (string * string)) : Prop := forall p, In p ps -> okb (fst p) = true.

Lemma dec_nil : decodes [] [].
Proof. split; [constructor|]. intros rest. reflexivity. Qed.
Lemma dec_app a b x y : decodes a x -> decodes b y -> decodes (a ++ b) (x ++ y).
Proof. intros [S1 H1] [S2 H2]. split; [now constructor|]. intros rest. rewrite <- !app_assoc, H1, H2. reflexivity. Qed.
Lemma dec_flat {A} (f : A -> list string) (g : A -> list block) l : (forall o, In o l -> decodes (f o) (g o)) -> decodes (flat_map f l) (flat_map g l).
Proof.
  induction l as [|o l IH]; intros H; [exact dec_nil|]. cbn. apply dec_app; [apply H; now left|]. apply IH. intros x Hx. apply H. now right.
Qed.
Lemma dec_file rows bs : decodes rows bs -> file rows = bs.
Proof. intros [_ H]. unfold file. specialize (H []). rewrite !app_nil_r in H. exact H. Qed.

Lemma objects_open cls r t cur : opens r = Some cls -> objects cur (r :: t) = objects (Some (cls, [])) t.
Proof. intros H. cbn [objects]. now rewrite H. Qed.
Lemma objects_props cls ps : forall acc rest, keys_ok ps -> objects (Some (cls, acc)) (map prow ps ++ rest) = objects (Some (cls, acc ++ ps)) rest.
Proof.
  induction ps as [|[k v] ps IH]; intros acc rest H; [now rewrite app_nil_r|].
  cbn [map app objects]. assert (Hk : okb k = true) by (apply (H (k, v)); now left).
  assert (E1 : opens (prow (k, v)) = None) by reflexivity. rewrite E1.
  assert (E2 : String.eqb (prow (k, v)) "};" = false) by reflexivity. rewrite E2.
  rewrite (row_property k v Hk), IH by (intros p Hp; apply H; now right). now rewrite <- app_assoc.
Qed.
Lemma prows ps : Forall2 (fun r p => r = prow p \/ r = String " " (prow p)) (map prow ps) ps.
Proof. induction ps; constructor; auto. Qed.
Lemma dec_obj head cls ps : head_ok head cls -> keys_ok ps -> decodes (obj_rows head ps) [(cls, ps)].
Proof.
  intros [Ho Hh] Hk. split; [rewrite Hh; apply sh_obj, prows|]. intros rest. unfold obj_rows. cbn [app]. rewrite (objects_open cls _ _ _ Ho), <- app_assoc, objects_props by exact Hk. reflexivity.
Qed.

(** ** Values *)
Definition vals (ps : list (string * string)) (k : string) : list string := map snd (filter (fun p => String.eqb (fst p) k) ps).
Lemma values_vals c ps k : values (c, ps) k = vals ps k.
Proof. reflexivity. Qed.
Lemma vals_app a b k : vals (a ++ b) k = vals a k ++ vals b k.
Proof. unfold vals. now rewrite filter_app, map_app. Qed.
Lemma vals_oprop {A} (o : option A) k f k' : vals (oprop o k f) k' = if String.eqb k k' then opt o f else [].
Proof. destruct o; cbn; destruct (String.eqb k k'); reflexivity. Qed.
Lemma vals_cons k v ps k' : vals ((k, v) :: ps) k' = (if String.eqb k k' then [v] else []) ++ vals ps k'.
Proof. unfold vals. cbn [filter fst]. destruct (String.eqb k k'); reflexivity. Qed.
Lemma vals_flat {A} (f : A -> list (string * string)) l k : vals (flat_map f l) k = flat_map (fun x => vals (f x) k) l.
Proof. induction l as [|x l IH]; [reflexivity|]. cbn [flat_map]. now rewrite vals_app, IH. Qed.
Lemma vals_nil k : vals [] k = [].
Proof. reflexivity. Qed.
Lemma flat_nil {A B} (f : A -> list B) l : (forall x, In x l -> f x = []) -> flat_map f l = [].
Proof. induction l as [|x l IH]; intros H; [reflexivity|]. cbn. rewrite (H x) by now left. apply IH. intros y Hy. apply H. now right. Qed.
Lemma flat_ext' {A B} (f g : A -> list B) l : (forall x, In x l -> f x = g x) -> flat_map f l = flat_map g l.
Proof. induction l as [|x l IH]; intros H; [reflexivity|]. cbn. rewrite (H x) by now left. f_equal. apply IH. intros y Hy. apply H. now right. Qed.

(** ** Elements *)
Section Blocks.
Variable num : Q -> string.
Variable cplx : Q -> Q -> string.

Definition node_b (n : gnode) : block := ("node", node_props n ++ [("nominal_voltage", match n_volt n with Some v => num v | None => "12470" end)]).
Definition cap_b (c : gcap) : block := ("capacitor", cap_props num c).
Definition trafo_b (ns : onames) (t : gtrafo) : block := ("transformer", trafo_props ns t).
Definition reg_b (ns : onames) (r : greg) : block := ("regulator", reg_props ns r).
Definition line_b (ns : onames) (l : gline) : block :=
  let ph := match l_wires l with Some ws => phase_text wi_phase ws | None => "" end in
  (line_class l, snd (line_head num ns l) ++ oprop (l_name l) "name" nname ++ oprop (l_from l) "from" nname ++ oprop (l_to l) "to" nname ++ (if String.eqb ph "" then [] else [("phases", ph)])).

Lemma keys_oprop {A} (o : option A) k f : okb k = true -> keys_ok (oprop o k f).
Proof. intros H p Hp. destruct o; [|destruct Hp]. destruct Hp as [<-|[]]. exact H. Qed.
Lemma keys_app a b : keys_ok a -> keys_ok b -> keys_ok (a ++ b).
Proof. intros H1 H2 p Hp. apply in_app_or in Hp. destruct Hp; auto. Qed.
Lemma keys_nil : keys_ok [].
Proof. intros p []. Qed.
Lemma keys_cons k v ps : okb k = true -> keys_ok ps -> keys_ok ((k, v) :: ps).
Proof. intros H1 H2 p [<-|Hp]; auto. Qed.
Hint Resolve keys_oprop keys_app keys_nil keys_cons : core.
Ltac kapp := match goal with |- keys_ok (oprop _ _ _ ++ _) => apply keys_app; [apply keys_oprop; reflexivity|] end.

Lemma dec_node n : decodes (node_rows num n) [node_b n].
Proof.
  split.
  { unfold node_rows, node_b. change (map prow (node_props n) ++ [node_voltage num n; "};"; ""]) with (map prow (node_props n) ++ [node_voltage num n] ++ ["};"; ""]). rewrite app_assoc.
    apply (sh_obj "node"). apply Forall2_app; [apply prows|]. constructor; [|constructor]. unfold node_voltage. destruct (n_volt n); auto. }
  intros rest. unfold node_rows, node_b. cbn [app]. rewrite (objects_open "node") by reflexivity. rewrite <- app_assoc, objects_props.
  - cbn [app objects]. unfold node_voltage. destruct (n_volt n) as [v|].
    + assert (E1 : opens ("     nominal_voltage " ++ num v ++ ";") = None) by reflexivity. rewrite E1.
      assert (E2 : String.eqb ("     nominal_voltage " ++ num v ++ ";") "};" = false) by reflexivity. rewrite E2.
      assert (E3 : property ("     nominal_voltage " ++ num v ++ ";") = ("nominal_voltage", num v)) by (exact (row_property5 "nominal_voltage" (num v) eq_refl)).
      rewrite E3. reflexivity.
    + reflexivity.
  - unfold node_props. apply keys_app; [apply keys_oprop; reflexivity|]. apply keys_app.
    + destruct (n_name n) as [x|]; auto. destruct (String.eqb x "sourcebus"); auto.
    + destruct (n_phases n) as [[|p l]|]; auto.
Qed.

Lemma phase_text_spec {A} (f : A -> option string) l : phase_text f l = String.concat "" (some (map f l)).
Proof. unfold phase_text, some. f_equal. induction l as [|x l IH]; [reflexivity|]. cbn. now rewrite IH. Qed.

Lemma cap_keys c : (forall j p, In j (olist (c_pcs c)) -> pc_phase j = Some p -> no_blank p) -> keys_ok (cap_props num c).
Proof.
  intros H. unfold cap_props. repeat kapp. apply keys_app; [destruct (c_low c); auto|].
  repeat kapp. destruct (c_pcs c) as [l|]; [|auto]. cbn in H. apply keys_app.
  - intros p Hp. apply in_flat_map in Hp. destruct Hp as (j & Hj & Hp). unfold pcap_props in Hp. destruct (pc_phase j) as [ph|] eqn:Ep; [|destruct Hp].
    destruct (pc_var j); [|destruct Hp]. pose proof (nob_blank _ (H j ph Hj Ep)) as N. destruct Hp as [<-|[<-|[]]]; cbn; exact N.
  - destruct (String.eqb (phase_text pc_phase l) ""); auto.
Qed.

Lemma node_ok n : node_says num n (node_b n).
Proof.
  unfold node_says, node_b. cbn [fst]. rewrite !values_vals. split; [reflexivity|]. unfold node_props. rewrite !vals_app, !vals_oprop.
  destruct n as [nm ph v]. cbn [n_name n_phases n_volt]. 
  assert (B : forall k, vals (match nm with Some x => if String.eqb x "sourcebus" then [("bustype", "SWING")] else [] | None => [] end) k
     = if String.eqb "bustype" k then (if oeqb nm (Some "sourcebus") then ["SWING"] else []) else []).
  { intros k. destruct nm as [x|]; cbn [oeqb]; [|now destruct (String.eqb "bustype" k)]. destruct (String.eqb x "sourcebus"); [|now destruct (String.eqb "bustype" k)].
    cbn [vals filter map fst snd]. destruct (String.eqb "bustype" k); reflexivity. }
  rewrite !B. 
  assert (P : forall k, vals (match ph with Some (p :: l) => [("phases", (String.concat "" (p :: l) ++ "N")%string)] | _ => [] end) k
     = if String.eqb "phases" k then (match olist ph with [] => [] | l => [(String.concat "" l ++ "N")%string] end) else []).
  { intros k. destruct ph as [[|p l]|]; cbn [olist]; try (now destruct (String.eqb "phases" k)). cbn [vals filter map fst snd]. destruct (String.eqb "phases" k); reflexivity. }
  rewrite !P. cbn -[String.concat oeqb]. rewrite ?app_nil_r. repeat (split; [reflexivity|]).
  intros k Hk. unfold keys in Hk. cbn [snd] in Hk. rewrite !map_app in Hk. cbn. apply in_app_or in Hk. destruct Hk as [Hk|Hk].
  - apply in_app_or in Hk. destruct Hk as [Hk|Hk]; [destruct nm; cbn in Hk; tauto|]. apply in_app_or in Hk. destruct Hk as [Hk|Hk].
    + destruct nm as [x|]; [|destruct Hk]. destruct (String.eqb x "sourcebus"); cbn in Hk; tauto.
    + destruct ph as [[|p l]|]; cbn in Hk; tauto.
  - cbn in Hk. tauto.
Qed.

Lemma pcap_vals_other j k : (forall x, String.eqb ("capacitor_" ++ x)%string k = false) -> (forall x, String.eqb ("switch" ++ x)%string k = false) -> vals (pcap_props num j) k = [].
Proof.
  intros H1 H2. unfold pcap_props. destruct (pc_phase j); [|reflexivity]. destruct (pc_var j); [|reflexivity]. rewrite !vals_cons, H1, H2. reflexivity.
Qed.
Lemma pcap_vals j ph : vals (pcap_props num j) ("capacitor_" ++ ph)%string =
  match pc_phase j, pc_var j with Some p, Some v => if String.eqb p ph then [num (v / 1000000)%Q] else [] | _, _ => [] end.
Proof. unfold pcap_props. destruct (pc_phase j); [|reflexivity]. destruct (pc_var j); [|reflexivity]. rewrite !vals_cons, vals_nil. cbn -[Qdiv]. destruct (String.eqb s ph); reflexivity. Qed.

Lemma cap_ok c : cap_says num c (cap_b c).
Proof.
  unfold cap_says, cap_b. cbn [fst]. split; [reflexivity|].
  assert (T : forall k, (forall x, String.eqb ("capacitor_" ++ x)%string k = false) -> (forall x, String.eqb ("switch" ++ x)%string k = false) ->
    vals (match c_pcs c with Some l => flat_map (pcap_props num) l ++ (if String.eqb (phase_text pc_phase l) "" then [] else [("phases", phase_text pc_phase l)]) | None => [] end) k
    = if String.eqb "phases" k then (if String.eqb (String.concat "" (some (map pc_phase (olist (c_pcs c))))) "" then [] else [String.concat "" (some (map pc_phase (olist (c_pcs c))))]) else []).
  { intros k H1 H2. destruct (c_pcs c) as [l|]; [|destruct (String.eqb "phases" k); reflexivity]. rewrite vals_app, vals_flat, flat_nil by (intros; now apply pcap_vals_other).
    rewrite <- phase_text_spec. cbn [app olist]. destruct (String.eqb (phase_text pc_phase l) ""); [now destruct (String.eqb "phases" k)|].
    rewrite vals_cons. destruct (String.eqb "phases" k); reflexivity. }
  assert (K : forall k, vals (match c_low c with Some _ => [("voltage_set_high", match c_high c with Some h => num h | None => "None" end)] | None => [] end) k
    = if String.eqb "voltage_set_high" k then match c_low c with Some _ => [match c_high c with Some h => num h | None => "None" end] | None => [] end else []).
  { intros k. destruct (c_low c); [|now destruct (String.eqb "voltage_set_high" k)]. rewrite vals_cons. destruct (String.eqb "voltage_set_high" k); reflexivity. }
  assert (V : forall k, (forall x, String.eqb ("capacitor_" ++ x)%string k = false) -> (forall x, String.eqb ("switch" ++ x)%string k = false) -> vals (cap_props num c) k =
    (if String.eqb "name" k then opt (c_name c) n_ else []) ++ (if String.eqb "nominal_voltage" k then opt (c_volt c) num else []) ++
    (if String.eqb "time_dela" k then opt (c_delay c) num else []) ++ (if String.eqb "control" k then opt (c_mode c) (fun m => m) else []) ++
    (if String.eqb "voltage_set_low" k then opt (c_low c) num else []) ++
    (if String.eqb "voltage_set_high" k then match c_low c with Some _ => [match c_high c with Some h => num h | None => "None" end] | None => [] end else []) ++
    (if String.eqb "pt_phase" k then opt (c_ptphase c) (fun m => m) else []) ++ (if String.eqb "parent" k then opt (c_conn c) n_ else []) ++
    (if String.eqb "phases" k then (if String.eqb (String.concat "" (some (map pc_phase (olist (c_pcs c))))) "" then [] else [String.concat "" (some (map pc_phase (olist (c_pcs c))))]) else [])).
  { intros k H1 H2. unfold cap_props. rewrite !vals_app, !vals_oprop, K, T by assumption. reflexivity. }
  rewrite !values_vals.
  split; [rewrite V by reflexivity; cbn -[n_]; now rewrite ?app_nil_r|].
  split; [rewrite V by reflexivity; cbn -[n_]; now rewrite ?app_nil_r|].
  split; [rewrite V by reflexivity; cbn -[n_]; now rewrite ?app_nil_r|].
  split; [rewrite V by reflexivity; cbn -[n_]; now rewrite ?app_nil_r|].
  split. { intros Hh Hl. rewrite V by reflexivity. cbn -[n_]. rewrite app_nil_r. destruct (c_high c); [|congruence]. destruct (c_low c); [reflexivity|congruence]. }
  split; [rewrite V by reflexivity; cbn -[n_]; now rewrite ?app_nil_r|].
  split; [rewrite V by reflexivity; cbn -[n_]; now rewrite ?app_nil_r|].
  split; [|cbv zeta; rewrite V by reflexivity; reflexivity].
  intros ph. rewrite values_vals. unfold cap_props. rewrite !vals_app, !vals_oprop, K.
  assert (C : forall k, In k ["name"; "nominal_voltage"; "time_dela"; "control"; "voltage_set_low"; "voltage_set_high"; "pt_phase"; "parent"; "phases"] -> String.eqb k ("capacitor_" ++ ph)%string = false).
  { intros k Hk. cbn in Hk. repeat (destruct Hk as [<-|Hk]; [reflexivity|]). destruct Hk. }
  rewrite !C by (cbn; tauto). cbn [app]. unfold vars. destruct (c_pcs c) as [l|]; [|reflexivity].
  cbn [olist]. rewrite vals_app, vals_flat.
  assert (Z : vals (if String.eqb (phase_text pc_phase l) "" then [] else [("phases", phase_text pc_phase l)]) ("capacitor_" ++ ph)%string = []).
  { destruct (String.eqb (phase_text pc_phase l) ""); reflexivity. }
  rewrite Z, app_nil_r. apply flat_ext'. intros j _. exact (pcap_vals j ph).
Qed.

(** *** Loads *)
Lemma vals_concat {A} (f : A -> res (list (string * string))) g k l r : mapM f l = Ok r -> (forall x y, In x l -> f x = Ok y -> vals y k = g x) -> vals (concat r) k = flat_map g l.
Proof.
  revert r. induction l as [|x l IH]; intros r E H; cbn in E; [injection E as <-; reflexivity|].
  destruct (f x) as [y|] eqn:Ex; [|discriminate]. destruct (mapM f l) as [ys|] eqn:El; [|discriminate]. injection E as <-. cbn [concat flat_map].
  rewrite vals_app, (H x y (or_introl eq_refl) Ex). f_equal. apply IH; [reflexivity|]. intros x' y' Hi. apply H. now right.
Qed.
Lemma zip_inv kind ph a b r : zip_pair num kind ph a b = Ok r -> exists x y, a = Some x /\ b = Some y /\
  r = [((kind ++ "_fraction_" ++ ph)%string, num (x + y)%Q); ((kind ++ "_pf_" ++ ph)%string, num (x / (x + y))%Q)].
Proof.
  unfold zip_pair. destruct a as [x|]; [|discriminate]. destruct b as [y|]; [|discriminate]. cbn [of_opt bind]. unfold qdiv.
  destruct (Qeq_bool (x + y) 0); [discriminate|]. cbn [bind]. intros E. injection E as <-. exists x, y. auto.
Qed.
(** What a phase load writes *)
Lemma pload_inv j ps : pload_props num cplx j = Ok ps ->
  ps = [] /\ (pl_phase j = None \/ pl_zip j = None \/ (zeqb (pl_zip j) 1 = false /\ (pl_p j = None \/ pl_q j = None))) \/
  exists ph, pl_phase j = Some ph /\
    ((exists z a b, pl_zip j = Some z /\ Z.eqb z 1 = false /\ pl_p j = Some a /\ pl_q j = Some b /\ ps = [(("constant_power_" ++ ph)%string, strip_p (cplx a b))]) \/
     (exists a b c d e f x y, pl_zip j = Some 1%Z /\ pl_pc j = Some a /\ pl_qc j = Some b /\ pl_pp j = Some c /\ pl_qp j = Some d /\ pl_pi j = Some e /\ pl_qi j = Some f /\
       pl_p j = Some x /\ pl_q j = Some y /\ ps = [(("current_fraction_" ++ ph)%string, num (a + b)%Q); (("current_pf_" ++ ph)%string, num (a / (a + b))%Q);
         (("power_fraction_" ++ ph)%string, num (c + d)%Q); (("power_pf_" ++ ph)%string, num (c / (c + d))%Q);
         (("impedance_fraction_" ++ ph)%string, num (e + f)%Q); (("impedance_pf_" ++ ph)%string, num (e / (e + f))%Q); (("base_power_" ++ ph)%string, cplx x y)])).
Proof.
  unfold pload_props. destruct (pl_phase j) as [ph|]; [|intros E; injection E as <-; left; auto].
  destruct (pl_zip j) as [z|]; [|intros E; injection E as <-; left; auto]. destruct (Z.eqb z 1) eqn:Ez.
  - intros E. apply Z.eqb_eq in Ez. subst z. destruct (zip_pair num "current" ph _ _) as [c|] eqn:E1; [|discriminate].
    destruct (zip_pair num "power" ph _ _) as [p|] eqn:E2; [|discriminate]. destruct (zip_pair num "impedance" ph _ _) as [i|] eqn:E3; [|discriminate].
    cbn [bind] in E. destruct (pl_p j) as [x|]; [|discriminate]. destruct (pl_q j) as [y|]; [|discriminate]. cbn [bind of_opt] in E. injection E as <-.
    apply zip_inv in E1, E2, E3. destruct E1 as (a & b & -> & -> & ->), E2 as (c0 & d & -> & -> & ->), E3 as (e & f & -> & -> & ->).
    right. exists ph. split; [reflexivity|]. right. exists a, b, c0, d, e, f, x, y. repeat (split; [reflexivity|]). reflexivity.
  - destruct (pl_p j) as [x|]; [|intros E; injection E as <-; left; split; [reflexivity|]; right; right; split; [exact Ez|now left]].
    destruct (pl_q j) as [y|]; [|intros E; injection E as <-; left; split; [reflexivity|]; right; right; split; [exact Ez|now right]].
    intros E. injection E as <-. right. exists ph. split; [reflexivity|]. left. exists z, x, y. auto.
Qed.
Lemma load_keys l ps : (forall j p, In j (olist (ld_pls l)) -> pl_phase j = Some p -> no_blank p) -> load_props num cplx l = Ok ps -> keys_ok ps.
Proof.
  intros H E. unfold load_props in E. destruct (match ld_pls l with Some pls => mapM (pload_props num cplx) pls | None => Ok [] end) as [r|] eqn:Er; [|discriminate].
  cbn [bind] in E. injection E as <-. repeat kapp. destruct (ld_pls l) as [pls|]; [|injection Er as <-; exact keys_nil].
  cbn [olist] in H. apply mapM_Forall2 in Er. induction Er as [|j x pls r Ej Er IH]; [exact keys_nil|]. cbn [concat]. apply keys_app.
  - apply pload_inv in Ej. destruct Ej as [[-> _]|(ph & Ep & Ej)]; [exact keys_nil|]. pose proof (nob_blank _ (H j ph (or_introl eq_refl) Ep)) as N.
    destruct Ej as [(z & a & b & _ & _ & _ & _ & ->)|(a & b & c & d & e & f & x' & y' & _ & _ & _ & _ & _ & _ & _ & _ & _ & ->)];
      intros p Hp; cbn in Hp; repeat (destruct Hp as [<-|Hp]; [cbn; exact N|]); destruct Hp.
  - apply IH. intros j' p Hj'. apply H. now right.
Qed.
Ltac zip_case ph := intros j y Ej; apply pload_inv in Ej;
    destruct Ej as [[-> Hn]|(q & Ep & [(z & a & b & Ez & Ez1 & Ea & Eb & ->)|(a & b & c & d & e & f & x' & y' & Ez & E1 & E2 & E3 & E4 & E5 & E6 & E7 & E8 & ->)])];
    [ destruct Hn as [Hn|[Hn|[Hz [Hn|Hn]]]]; rewrite ?Hn, ?Hz; cbn; try reflexivity; try (destruct (pl_phase j); cbn; try reflexivity); try (now rewrite ?andb_false_r); try (now destruct (pl_zip j)); try (destruct (pl_zip j); try reflexivity; now destruct (pl_p j))
    | rewrite ?Ep, ?Ez, ?Ea, ?Eb; cbn [oeqb zeqb]; rewrite ?Ez1; cbn -[strip_p]; rewrite ?andb_true_r, ?andb_false_r; try (destruct (String.eqb q ph)); reflexivity
    | rewrite ?Ep, ?Ez, ?E1, ?E2, ?E3, ?E4, ?E5, ?E6, ?E7, ?E8; cbn -[strip_p Qdiv Qplus]; rewrite ?andb_true_r, ?andb_false_r; try (destruct (String.eqb q ph)); reflexivity ].
Lemma list_ascii_app a b : list_ascii_of_string (a ++ b)%string = list_ascii_of_string a ++ list_ascii_of_string b.
Proof. induction a as [|c a IH]; cbn; [reflexivity|now f_equal]. Qed.
Lemma is_paren_true c : is_paren c = true -> c = "("%char \/ c = ")"%char.
Proof. unfold is_paren. intros H. apply orb_prop in H. destruct H as [H|H]; apply Ascii.eqb_eq in H; auto. Qed.
Lemma is_paren_false c : is_paren c = false -> c <> "("%char /\ c <> ")"%char.
Proof. intros H. split; intros ->; discriminate H. Qed.
Lemma lstrip_split s : exists a, s = (a ++ lstrip_p s)%string /\ (forall c, In c (list_ascii_of_string a) -> is_paren c = true) /\ (forall c u, lstrip_p s = String c u -> is_paren c = false).
Proof.
  induction s as [|c s (a & E & A & B)]; [exists ""; repeat split; [intros c []|intros c u H; discriminate H]|]. cbn [lstrip_p]. destruct (is_paren c) eqn:P.
  - exists (String c a). split; [cbn; now f_equal|]. split; [|exact B]. intros x [<-|H]; auto.
  - exists "". split; [reflexivity|]. split; [intros x []|]. intros x u H. now injection H as <- <-.
Qed.
Lemma rstrip_split s : exists b, s = (rstrip_p s ++ b)%string /\ (forall c, In c (list_ascii_of_string b) -> is_paren c = true) /\ (forall c u, rstrip_p s = (u ++ String c "")%string -> is_paren c = false) /\ (rstrip_p s <> "" -> forall c u, s = String c u -> exists v, rstrip_p s = String c v).
Proof.
  induction s as [|c s (b & E & A & B & _)]; [exists ""; split; [reflexivity|]; split; [intros c []|]; split; [intros c [|? ?] H; discriminate H|congruence]|]. cbn [rstrip_p]. destruct (rstrip_p s) as [|d r] eqn:R.
  - cbn in E. subst b. destruct (is_paren c) eqn:P.
    + exists (String c s). split; [reflexivity|]. split; [intros x [<-|H]; auto|]. split; [intros x [|? ?] H; discriminate H|congruence].
    + exists s. split; [reflexivity|]. split; [exact A|]. split; [|intros _ x u H; injection H as <- <-; eauto]. intros x [|y u] H; [now injection H as <-|]. injection H as <- H. destruct u; discriminate H.
  - exists b. split; [rewrite E at 1; reflexivity|]. split; [exact A|]. split; [|intros _ x u H; injection H as <- <-; eauto]. intros x [|y u] H; [discriminate H|]. injection H as <- H. exact (B x u H).
Qed.
Lemma strip_bare s : bare s (strip_p s).
Proof.
  unfold strip_p. destruct (lstrip_split s) as (a & Ea & A & B). destruct (rstrip_split (lstrip_p s)) as (b & Eb & C & D & F). exists a, b. split; [now rewrite <- Eb|]. split.
  - intros c H. apply is_paren_true. rewrite (list_ascii_app a b) in H. apply in_app_or in H. destruct H; auto.
  - split; intros c u H; apply is_paren_false; [|exact (D c u H)]. destruct (lstrip_p s) as [|x y] eqn:L; [cbn in H; discriminate H|]. destruct (F ltac:(rewrite H; discriminate) x y eq_refl) as (v & V). rewrite H in V. injection V as -> _. exact (B x y eq_refl).
Qed.
Lemma load_ok l ps : load_props num cplx l = Ok ps -> load_says num cplx l ("load", ps).
Proof.
  intros E. unfold load_props in E. destruct (match ld_pls l with Some pls => mapM (pload_props num cplx) pls | None => Ok [] end) as [r|] eqn:Er; [|discriminate].
  cbn [bind] in E. injection E as <-.
  assert (Em : mapM (pload_props num cplx) (olist (ld_pls l)) = Ok r) by (destruct (ld_pls l); [exact Er|injection Er as <-; reflexivity]).
  assert (Z : forall k, (In k ["name"; "nominal_voltage"; "parent"]) -> vals (concat r) k = []).
  { intros k Hk. rewrite (vals_concat _ (fun _ => []) k _ _ Em); [apply flat_nil; auto|]. intros j y _ Ej.
    apply pload_inv in Ej. destruct Ej as [[-> _]|(ph & Ep & Ej)]; [reflexivity|].
    destruct Ej as [(z & a & b & _ & _ & _ & _ & ->)|(a & b & c & d & e & f & x' & y' & _ & _ & _ & _ & _ & _ & _ & _ & _ & ->)];
      cbn in Hk; repeat (destruct Hk as [<-|Hk]; [reflexivity|]); destruct Hk. }
  unfold load_says. rewrite !values_vals, !vals_app, !vals_oprop, !Z by (cbn; tauto). cbn [fst String.eqb Ascii.eqb Bool.eqb app]. split; [reflexivity|].
  split; [now rewrite ?app_nil_r|]. split; [now rewrite ?app_nil_r|]. split; [now rewrite ?app_nil_r|].
  intros ph. 
  assert (H0 : forall k, (forall c s, k = String c s -> In c ["c"; "p"; "i"; "b"]%char) -> k <> "parent" -> k <> "" ->
     vals (oprop (ld_name l) "name" nname ++ oprop (ld_volt l) "nominal_voltage" num ++ oprop (ld_conn l) "parent" nname ++ concat r) k = vals (concat r) k).
  { intros k Hk Np Ne. rewrite !vals_app, !vals_oprop.
    destruct (String.eqb "name" k) eqn:E1; [apply String.eqb_eq in E1; subst k; specialize (Hk _ _ eq_refl); cbn in Hk; repeat (destruct Hk as [Hk|Hk]; [discriminate Hk|]); destruct Hk|].
    destruct (String.eqb "nominal_voltage" k) eqn:E2; [apply String.eqb_eq in E2; subst k; specialize (Hk _ _ eq_refl); cbn in Hk; repeat (destruct Hk as [Hk|Hk]; [discriminate Hk|]); destruct Hk|].
    destruct (String.eqb "parent" k) eqn:E3; [apply String.eqb_eq in E3; congruence|]. reflexivity. }
  assert (H1 : forall k g, (forall c s, (k ++ ph)%string = String c s -> In c ["c"; "p"; "i"; "b"]%char) -> (k ++ ph)%string <> "parent" -> (k ++ ph)%string <> "" ->
     (forall j y, pload_props num cplx j = Ok y -> vals y (k ++ ph)%string = g j) ->
     values ("load", oprop (ld_name l) "name" nname ++ oprop (ld_volt l) "nominal_voltage" num ++ oprop (ld_conn l) "parent" nname ++ concat r) (k ++ ph)%string = flat_map g (olist (ld_pls l))).
  { intros k g A B C D. rewrite values_vals, H0 by assumption. apply (vals_concat _ g _ _ _ Em). intros x y _. apply D. }
  assert (Hc : forall (k : string) (c : ascii), In c ["c"; "p"; "i"; "b"]%char -> forall c' s', String c k = String c' s' -> In c' ["c"; "p"; "i"; "b"]%char) by (intros k c Hi c' s' E; injection E as <- <-; exact Hi).
  unfold powers, zips.
  split.
  - rewrite (H1 "constant_power_" (fun j => match pl_phase j, pl_zip j, pl_p j, pl_q j with
      | Some p, Some z, Some a, Some b => if (String.eqb p ph && negb (Z.eqb z 1))%bool then [strip_p (cplx a b)] else []
      | _, _, _, _ => [] end)); try (cbn; apply Hc; cbn; tauto); try discriminate; [|zip_case ph].
    clear. induction (olist (ld_pls l)) as [|j js IH]; [constructor|]. cbn [flat_map]. apply Forall2_app; [|exact IH].
    destruct (pl_phase j), (pl_zip j), (pl_p j), (pl_q j); try constructor. destruct (_ && _)%bool; constructor; [apply strip_bare|constructor].
  - repeat split; apply H1; try (cbn; apply Hc; cbn; tauto); try discriminate; zip_case ph.
Qed.

(** *** Transformers, regulators and lines *)
Definition conf_of (ns : onames) (name : option string) : list string := match name with Some _ => opt (oget ns name) (fun c => c) | None => [] end.
Lemma vals_conf ns name k : vals (conf_prop ns name) k = if String.eqb "configuration" k then conf_of ns name else [].
Proof. unfold conf_prop, conf_of. destruct name; [apply vals_oprop|]. now destruct (String.eqb "configuration" k). Qed.
Lemma keys_conf ns name : keys_ok (conf_prop ns name).
Proof. unfold conf_prop. destruct name; [apply keys_oprop; reflexivity|exact keys_nil]. Qed.
Lemma vals_phases ph k : vals (if String.eqb ph "" then [] else [("phases", ph)]) k = if String.eqb "phases" k then (if String.eqb ph "" then [] else [ph]) else [].
Proof. destruct (String.eqb ph ""); [now destruct (String.eqb "phases" k)|]. rewrite vals_cons. now destruct (String.eqb "phases" k). Qed.
Lemma keys_phases ph : keys_ok (if String.eqb ph "" then [] else [("phases", ph)]).
Proof. destruct (String.eqb ph ""); [exact keys_nil|]. apply keys_cons; [reflexivity|exact keys_nil]. Qed.

Lemma wd_phases_in wds p : In p (wd_phases wds) <-> In (Some p) (map pw_phase (pws wds)).
Proof.
  unfold wd_phases, pws. destruct wds as [l|]; [|split; intros []]. rewrite in_flat_map, in_map_iff. split.
  - intros (w & Hw & H). destruct (w_pws w) as [ps|] eqn:Ew; [|destruct H]. apply in_flat_map in H. destruct H as (j & Hj & H).
    destruct (pw_phase j) as [x|] eqn:Ej; [|destruct H]. destruct H as [<-|[]]. exists j. split; [exact Ej|]. apply in_flat_map. exists w. rewrite Ew. auto.
  - intros (j & Ej & H). apply in_flat_map in H. destruct H as (w & Hw & H). exists w. split; [exact Hw|]. destruct (w_pws w) as [ps|]; [|destruct H].
    apply in_flat_map. exists j. rewrite Ej. cbn. auto.
Qed.
Lemma node_sort_idem l : node_sort (node_sort l) = node_sort l.
Proof. apply node_sort_eq. apply Permutation_sym, node_sort_perm. Qed.

Lemma trafo_ok ns t : trafo_says t (trafo_b ns t) /\ values (trafo_b ns t) "configuration" = conf_of ns (t_name t).
Proof.
  unfold trafo_says, trafo_b. cbn [fst]. rewrite !values_vals. unfold trafo_props. cbv zeta. rewrite !vals_app, !vals_oprop, !vals_phases, !vals_conf.
  split; [|reflexivity].
  split; [reflexivity|]. split; [cbn -[String.concat]; now rewrite ?app_nil_r|]. split; [cbn -[String.concat]; now rewrite ?app_nil_r|]. split; [cbn -[String.concat]; now rewrite ?app_nil_r|].
  exists (node_sort (dedup (wd_phases (t_wds t)))). split; [|split; [apply node_sort_idem|split]].
  - apply (Permutation_NoDup (node_sort_perm _)), dedup_NoDup.
  - intros p. rewrite node_sort_In, dedup_In. apply wd_phases_in.
  - cbn -[String.concat]. now rewrite ?app_nil_r.
Qed.
Lemma trafo_keys ns t : keys_ok (trafo_props ns t).
Proof. unfold trafo_props. cbv zeta. repeat kapp. apply keys_app; [apply keys_phases|apply keys_conf]. Qed.
Lemma reg_ok ns r : reg_says r (reg_b ns r) /\ values (reg_b ns r) "configuration" = conf_of ns (r_name r).
Proof.
  unfold reg_says, reg_b. cbn [fst]. rewrite !values_vals. unfold reg_props. rewrite !vals_app, !vals_oprop, !vals_conf. cbn. rewrite ?app_nil_r. auto.
Qed.
Lemma reg_keys ns r : keys_ok (reg_props ns r).
Proof. unfold reg_props. repeat kapp. apply keys_conf. Qed.

Lemma line_head_class ns l : head_ok (fst (line_head num ns l)) (line_class l).
Proof.
  unfold line_head, line_class. destruct (oeqb (l_type l) (Some "underground")); [split; reflexivity|].
  destruct (l_fuse l) as [[]|]; cbn [is_true]; try (split; reflexivity); destruct (l_switch l) as [[]|]; split; reflexivity.
Qed.
Lemma line_head_props ns l : snd (line_head num ns l) = if smem (line_class l) ["underground_line"; "overhead_line"] then line_props num ns l else [].
Proof.
  unfold line_head, line_class. destruct (oeqb (l_type l) (Some "underground")); [reflexivity|].
  destruct (l_fuse l) as [[]|]; cbn [is_true]; try reflexivity; destruct (l_switch l) as [[]|]; reflexivity.
Qed.
Lemma line_keys ns l : keys_ok (snd (line_head num ns l)).
Proof. rewrite line_head_props. destruct (smem _ _); [|exact keys_nil]. unfold line_props. kapp. apply keys_conf. Qed.
Lemma dec_line ns l : decodes (line_rows num ns l) [line_b ns l].
Proof.
  unfold line_rows, line_b. pose proof (line_head_class ns l) as C. pose proof (line_keys ns l) as K. destruct (line_head num ns l) as [h ps]. cbn [fst snd] in *.
  apply dec_obj; [exact C|]. apply keys_app; [exact K|]. repeat kapp. apply keys_phases.
Qed.
Lemma line_ok ns l : line_says num l (line_b ns l) /\
  values (line_b ns l) "configuration" = if smem (line_class l) ["underground_line"; "overhead_line"] then conf_of ns (l_name l) else [].
Proof.
  unfold line_says, line_b. cbn [fst]. rewrite !values_vals, !vals_app, !vals_oprop, !vals_phases. rewrite !line_head_props.
  assert (V : forall k, vals (if smem (line_class l) ["underground_line"; "overhead_line"] then line_props num ns l else []) k =
     if smem (line_class l) ["underground_line"; "overhead_line"] then (if String.eqb "length" k then opt (l_length l) (fun q => num (feet q)) else []) ++ (if String.eqb "configuration" k then conf_of ns (l_name l) else []) else []).
  { intros k. destruct (smem (line_class l) _); [|reflexivity]. unfold line_props. now rewrite vals_app, vals_oprop, vals_conf. }
  rewrite !V.
  assert (W : forall w, match w with Some ws => phase_text wi_phase ws | None => "" end = String.concat "" (some (map wi_phase (olist w)))).
  { intros [ws|]; [apply phase_text_spec|reflexivity]. }
  rewrite !W. set (ph := String.concat _ _). cbn -[smem feet]. destruct (smem (line_class l) ["underground_line"; "overhead_line"]) eqn:E.
  - rewrite ?app_nil_r. split; [|reflexivity]. repeat (split; [reflexivity|]). reflexivity.
  - rewrite ?app_nil_r. split; [|reflexivity]. repeat (split; [reflexivity|]). split; [|reflexivity]. intros H. exfalso.
    destruct H as [H|[H|[]]]; rewrite <- H in E; discriminate E.
Qed.
End Blocks.
