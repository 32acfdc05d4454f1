(** Theorems about the storage units of the OpenDSS script (C86). *)
From Verif Require Import Base BaseFacts CsvModel DssNameModel DssCodeModel DssFileModel DssTextModel DssStoreModel DssNameSpec DssTextSpec DssFileSpec DssLoadSpec DssStoreSpec
  DssTextProofs DssLoadProofs DssStoreProofs DssFileProofs DssFileProps DssTextProps.
From Coq Require Import QArith Qabs Qreduction Qcanon Znumtheory Lia DecimalString Permutation.
From Coq Require DecimalNat DecimalZ.
Local Open Scope string_scope.
Local Open Scope nat_scope.
Local Open Scope list_scope.

(** *** A square root that is exact on squares *)
Definition root_q (x : Q) : Q := let q := Qred x in (Z.sqrt (Qnum q) # Z.to_pos (Z.sqrt (QDen q))).
Lemma root_exact : exact_root root_q.
Proof.
  intros x r R0 E.
  assert (L : (Qred r == r)%Q) by apply Qred_correct.
  destruct (Qred r) as [a b] eqn:Rr.
  assert (G : Z.gcd a (Zpos b) = 1%Z).
  { assert (Qred (Qred r) = Qred r) by (apply Qred_complete, Qred_correct). pose proof (Qred_identity2 (Qred r)) as I. rewrite Rr in *. apply I. exact H. }
  assert (A0 : (0 < a)%Z) by (rewrite <- L in R0; unfold Qlt in R0; cbn in R0; lia).
  assert (X : Qred x = (a * a # b * b)).
  { assert (H : (x == (a * a # b * b))%Q) by (rewrite <- E, <- L; reflexivity). rewrite (Qred_complete _ _ H). apply Qred_identity. cbn [Qnum Qden].
    rewrite Pos2Z.inj_mul. apply Zgcd_1_rel_prime. apply Zgcd_1_rel_prime in G. apply rel_prime_mult; apply rel_prime_sym, rel_prime_mult; apply rel_prime_sym; exact G. }
  unfold root_q. rewrite X. cbn [Qnum Qden]. rewrite Pos2Z.inj_mul, !Z.sqrt_square by lia. rewrite Pos2Z.id. exact L.
Qed.

(** *** C86: storage units *)
Theorem C86_storages : forall show num root parent ss,
  faithful show num -> exact_root root -> Forall (good_storage parent) ss ->
  exists ts els, mapM (storage_text show root parent) ss = Ok ts /\
    read_dss (String.concat "" ts) = Some els /\ Forall2 (storage_is num parent) ss els.
Proof.
  intros show num root parent ss FS RT H. induction H as [|l r G _ (ts & els & M & R & F)]; [exists [], []; repeat split; constructor|].
  destruct (store_reads show num FS root RT parent l G) as (t & e & T & I & Rd).
  exists (t :: ts), (e :: els). split; [cbn [mapM]; rewrite T, M; reflexivity|]. split; [|constructor; assumption].
  rewrite concat_texts in *. cbn [texts fold_right]. apply Rd. exact R.
Qed.
Print Assumptions C86_storages.

(** The storage units of each written file are those of its feeder. *)
Theorem C86_file : forall show num root parent sepf seps file order out (xs : list (storage * obj)),
  faithful show num -> exact_root root ->
  (forall s o, In (s, o) xs -> good_storage parent s /\ exists t, storage_text show root parent s = Ok t /\ o_txt o = Some t) ->
  (forall l, Permutation (order l) l) -> told_apart sepf seps file (map snd xs) -> plain_substations sepf seps (map snd xs) ->
  exists out', write_section sepf seps file order out (map snd xs) = Ok out' /\
    forall s f, used sepf seps (map snd xs) s f -> exists t hs els,
      dget (files out') (place sepf seps file s f) = Some t /\ residents sepf seps s f xs hs /\ read_dss t = Some els /\
      Forall2 (storage_is num parent) hs els.
Proof.
  intros show num root parent sepf seps file order out xs FS RT H OP TA PS.
  apply (file_reads (Forall2 (storage_is num parent)) sepf seps file order out xs); try assumption; [constructor|].
  intros l o I. destruct (H l o I) as (G & t' & T' & E). destruct (store_reads show num FS root RT parent l G) as (t & e & T & Is & Rd).
  exists t, [e]. rewrite T in T'. injection T' as <-. split; [exact E|]. split.
  - intros ->. specialize (Rd "" [] eq_refl). discriminate Rd.
  - split; [intros rest els R; exact (Rd rest els R)|]. intros hs els F. constructor; assumption.
Qed.
Print Assumptions C86_file.

(** *** Read back *)
Lemma count_read n : read_count (str_of n) = Some n.
Proof. unfold read_count, str_of. rewrite NilEmpty.usu. cbn [option_map]. now rewrite DecimalNat.Unsigned.of_to. Qed.
Lemma int_read z : read_int (show_int z) = Some z.
Proof. unfold read_int, show_int. rewrite NilEmpty.isi. cbn [option_map]. now rewrite DecimalZ.of_to. Qed.
Lemma gives_same num e k q : gives num e k q -> same q (num_prop num e k).
Proof.
  unfold num_prop. destruct q as [x|]; cbn [gives]; [|intros ->; exact I]. intros (y & V & E). unfold value in V.
  destruct (prop e k); [|discriminate V]. rewrite V. cbn [same]. symmetry. exact E.
Qed.
Lemma same_div1000 o p : same (match o with Some x => Some (x / 1000)%Q | None => None end) p -> same o (option_map (fun v => v * 1000)%Q p).
Proof. destruct o, p; cbn; try tauto. intros <-. field. Qed.
Lemma same_thousandth o p : same (match o with Some x => Some (x / 1000)%Q | None => None end) p -> thousandth o p.
Proof. destruct o, p; cbn; trivial. Qed.

(** What the reader makes of the written element: the voltage, the rated power, the state, the rates, the
    efficiencies, the impedance and the model are those of the storage unit; the energies and the reserve are a
    thousandth of what they were, the name begins with the class, and the power is in kW and divided equally over
    phases that are not named. *)
Theorem C86_read_back : forall num parent s e ps, storage_is num parent s e -> so_phases s = Some ps ->
  exists s', parse_storage num e = Ok s' /\ so_name s' = option_map (append "storage.") (so_name s) /\ same (so_kv s) (so_kv s') /\ same (so_rated s) (so_rated s') /\
    so_state s' = Some (match so_state s with Some x => x | None => "IDLING" end) /\
    same (so_dis s) (so_dis s') /\ same (so_cha s) (so_cha s') /\ same (so_effc s) (so_effc s') /\ same (so_effd s) (so_effd s') /\
    same (so_r s) (so_r s') /\ same (so_x s) (so_x s') /\ so_model s' = so_model s /\
    (exists v ps', so_kv s = Some v /\ so_phases s' = Some ps' /\ length ps' = (if Qle_bool 300 v then length ps else 1) /\
      forall p, In p ps' -> ps_phase p = None /\ (known ps_p s -> exists y, ps_p p = Some y /\ (y * inject_Z (Z.of_nat (length ps')) == power ps_p s / 1000)%Q)) /\
    thousandth (so_kwh s) (so_kwh s') /\ thousandth (so_stored s) (so_stored s') /\ thousandth (so_reserve s) (so_reserve s').
Proof.
  intros num parent s e ps SI P. destruct SI. rewrite P in si_phases. destruct si_phases as (v & n & V & Pn & Hn).
  unfold parse_storage. rewrite Pn. cbn [of_opt bind]. rewrite count_read. cbn [of_opt bind]. eexists. split; [reflexivity|].
  cbn [so_name so_kv so_phases so_rated so_state so_dis so_cha so_effc so_effd so_r so_x so_model so_kwh so_stored so_reserve].
  split; [now rewrite si_name|].
  split. { destruct si_kv as (w & W & G & _). unfold voltage_of in W. rewrite V in W. subst w. rewrite V. apply (same_div1000 (Some v)). apply gives_same. exact G. }
  split; [apply same_div1000, gives_same; exact si_rated|]. split; [exact si_state|].
  do 6 (split; [apply gives_same; assumption|]).
  split; [rewrite si_model; destruct (so_model s); [apply int_read | reflexivity]|].
  assert (Sh : forall m p, In p (repeat (mkPSt None (option_map (fun x => x / inject_Z (Z.of_nat m))%Q (num_prop num e "kw")) (option_map (fun x => x / inject_Z (Z.of_nat m))%Q (num_prop num e "kvar"))) m) ->
    ps_phase p = None /\ (known ps_p s -> exists y, ps_p p = Some y /\ (y * inject_Z (Z.of_nat m) == power ps_p s / 1000)%Q)).
  { intros m p I. assert (M : m <> 0) by (intros ->; destruct I). apply repeat_spec in I. subst p. split; [reflexivity|]. intros Kn. cbn [ps_p].
    assert (Ph : so_phases s <> None) by congruence. pose proof (gives_same _ _ _ _ (si_kw Ph Kn)) as Sm. destruct (num_prop num e "kw") as [x|]; [|destruct Sm]. eexists. split; [reflexivity|]. cbn [same] in Sm. rewrite Sm.
    field. intros X. unfold Qeq in X. cbn in X. lia. }
  split. { exists v. eexists. split; [exact V|]. split; [reflexivity|]. rewrite repeat_length. destruct Hn as [[L ->]|[L ->]].
    - destruct (Qle_bool 300 v) eqn:Q; [|split; [reflexivity|apply Sh]]. apply Qle_bool_iff in Q. exfalso. exact (Qlt_not_le _ _ L Q).
    - apply Qle_bool_iff in L. rewrite L. split; [reflexivity|apply Sh]. }
  split; [apply same_thousandth, gives_same; exact si_kwh|]. split; apply same_thousandth, gives_same; assumption.
Qed.
Print Assumptions C86_read_back.

(** Energies are kept in kWh but written as if they were kept in Wh: a thousandth of the capacity comes back. *)
Theorem C86_energy_refuted : forall num parent s e ps x, storage_is num parent s e -> so_phases s = Some ps -> so_kwh s = Some x -> ~ (x == 0)%Q ->
  exists s' y, parse_storage num e = Ok s' /\ so_kwh s' = Some y /\ (y * 1000 == x)%Q /\ ~ (y == x)%Q.
Proof.
  intros num parent s e ps x SI P K NZ. destruct (C86_read_back num parent s e ps SI P) as (s' & R & _ & _ & _ & _ & _ & _ & _ & _ & _ & _ & _ & _ & T & _).
  unfold thousandth in T. rewrite K in T. cbn [option_map same] in T. destruct (so_kwh s') as [y|] eqn:Y; [|destruct T]. exists s', y. split; [exact R|]. split; [exact Y|].
  assert (E : (y * 1000 == x)%Q) by (rewrite <- T; field). split; [exact E|]. intros Q. apply NZ. rewrite <- E in Q.
  assert (Z : (y * 999 == 0)%Q) by (setoid_replace (y * 999)%Q with (y * 1000 - y)%Q by ring; rewrite <- Q; ring).
  apply Qmult_integral in Z as [Z|Z]; [|discriminate Z]. rewrite <- E, Z. reflexivity.
Qed.
Print Assumptions C86_energy_refuted.

(** The name that comes back is not the one that was written. *)
Theorem C86_name_refuted : forall num parent s e ps, storage_is num parent s e -> so_phases s = Some ps -> exists s', parse_storage num e = Ok s' /\ so_name s' <> so_name s.
Proof.
  intros num parent s e ps SI P. destruct (C86_read_back num parent s e ps SI P) as (s' & R & N & _). exists s'. split; [exact R|]. rewrite N, (si_name _ _ _ _ SI). cbn [option_map].
  intros X. injection X as X. apply (f_equal String.length) in X. cbn in X. lia.
Qed.
Print Assumptions C86_name_refuted.

(** Powers are read in kW where they are kept in W: a thousandth of the power comes back, and none of its phases is named. *)
Theorem C86_power_refuted : forall num parent s e ps, storage_is num parent s e -> so_phases s = Some ps -> known ps_p s -> ~ (power ps_p s == 0)%Q ->
  exists s' ps', parse_storage num e = Ok s' /\ so_phases s' = Some ps' /\ (forall p, In p ps' -> ps_phase p = None) /\ (ps <> [] -> exists v, v = sum (given (map ps_p ps')) /\ (v * 1000 == power ps_p s)%Q /\ ~ (v == power ps_p s)%Q).
Proof.
  intros num parent s e ps SI P Kn NZ. destruct (C86_read_back num parent s e ps SI P) as (s' & R & _ & _ & _ & _ & _ & _ & _ & _ & _ & _ & _ & (v & ps' & V & P' & L & H) & _).
  exists s', ps'. split; [exact R|]. split; [exact P'|]. split; [intros p I; apply (H p I)|]. intros Ne. eexists. split; [reflexivity|].
  assert (Len : length ps' <> 0) by (rewrite L; destruct (Qle_bool 300 v); [destruct ps; [congruence|discriminate]|discriminate]).
  assert (S : forall l k, (forall p, In p l -> exists y, ps_p p = Some y /\ (y * inject_Z (Z.of_nat k) == power ps_p s / 1000)%Q) -> (sum (given (map ps_p l)) * inject_Z (Z.of_nat k) == inject_Z (Z.of_nat (length l)) * (power ps_p s / 1000))%Q).
  { clear. induction l as [|p l IH]; intros k Hl; [cbn; ring|]. destruct (Hl p (or_introl eq_refl)) as (y & Y & E). cbn [map given]. rewrite Y. cbn [given]. change (sum (y :: given (map ps_p l))) with (y + sum (given (map ps_p l)))%Q. rewrite Qmult_plus_distr_l, E, (IH k) by (intros q Q; apply Hl; now right).
    change (length (p :: l)) with (S (length l)). rewrite Nat2Z.inj_succ, <- Z.add_1_r, inject_Z_plus. change (inject_Z 1) with 1%Q. ring. }
  specialize (S ps' (length ps')). assert (E : (sum (given (map ps_p ps')) == power ps_p s / 1000)%Q).
  { assert (NZ' : ~ (inject_Z (Z.of_nat (length ps')) == 0)%Q) by (intros X; unfold Qeq in X; cbn in X; lia). apply (Qmult_inj_r _ _ _ NZ'). rewrite S; [ring|]. intros p I. apply (H p I), Kn. }
  rewrite E. split; [field|]. intros X. apply NZ. assert (Z : (power ps_p s * (999 # 1000) == 0)%Q) by (setoid_replace (power ps_p s * (999 # 1000))%Q with (power ps_p s - power ps_p s / 1000)%Q by field; rewrite X; ring).
  apply Qmult_integral in Z as [Z|Z]; [exact Z | discriminate Z].
Qed.
Print Assumptions C86_power_refuted.

(** The reserve is kept in percent, and a thousandth of it is written as a percentage. *)
Theorem C86_reserve_refuted : forall num parent s e x, storage_is num parent s e -> so_reserve s = Some x -> ~ (x == 0)%Q ->
  exists y, value num e "%reserve" = Some y /\ ~ (y == x)%Q.
Proof.
  intros num parent s e x SI K NZ. pose proof (si_reserve _ _ _ _ SI) as G. rewrite K in G. destruct G as (y & V & E). exists y. split; [exact V|].
  intros Q. apply NZ. rewrite E in Q. assert (Z : (x * (999 # 1000) == 0)%Q) by (setoid_replace (x * (999 # 1000))%Q with (x - x / 1000)%Q by field; rewrite Q; ring).
  apply Qmult_integral in Z as [Z|Z]; [exact Z | discriminate Z].
Qed.
Print Assumptions C86_reserve_refuted.

(** A storage unit without a voltage makes the section fail: the voltage of its bus is only looked up after its own was
    compared with 300. *)
Theorem C86_no_voltage_refuted : forall show root parent a s b ps, Forall (good_storage parent) a -> so_phases s = Some ps -> so_kv s = None ->
  mapM (storage_text show root parent) (a ++ s :: b) = Err EType.
Proof.
  intros show root parent a s b ps F P K. induction F as [|x r H _ IH]; cbn [app mapM].
  - unfold storage_text at 1, phases_text. rewrite P, K. reflexivity.
  - destruct H as ((n & N & T) & B & PV & (v & V) & Ph & St & PF). destruct (phases_nodes' x Ph) as [ns Fn].
    rewrite (store_row show root parent x n v ns N PV V PF Fn). cbn [bind]. rewrite IH. reflexivity.
Qed.
Print Assumptions C86_no_voltage_refuted.

(** A power factor of zero makes the section fail. *)
Theorem C86_zero_factor_refuted : forall show root parent a s b f x, Forall (good_storage parent) a ->
  so_kv s <> None -> so_active s = Some x -> so_pf s = Some f -> (f == 0)%Q ->
  mapM (storage_text show root parent) (a ++ s :: b) = Err EZeroDiv.
Proof.
  intros show root parent a s b f x F K A P Z. induction F as [|y r H _ IH]; cbn [app mapM].
  - unfold storage_text at 1. destruct (so_kv s) as [v|] eqn:V; [|contradiction K; reflexivity].
    assert (PT : exists t, phases_text show root s = Ok t) by (unfold phases_text; rewrite V; destruct (so_phases s); eexists; reflexivity).
    destruct PT as [t ->]. cbn [bind]. assert (KV : store_kv parent s = Ok (Some v)) by (unfold store_kv; rewrite V; destruct (so_bus s); reflexivity).
    rewrite KV. cbn [bind]. unfold kva_text. rewrite A, P. assert (Qeq_bool (Qabs f) 0 = true) as ->; [|reflexivity]. apply Qeq_bool_iff. rewrite Z. reflexivity.
  - destruct H as ((n & N & T) & B & PV & (v & V) & Ph & St & PF). destruct (phases_nodes' y Ph) as [ns Fn].
    rewrite (store_row show root parent y n v ns N PV V PF Fn). cbn [bind]. rewrite IH. reflexivity.
Qed.
Print Assumptions C86_zero_factor_refuted.

Definition ps3 : list phase_storage := [mkPSt (Some "A") (Some 1000%Q) (Some 1000%Q); mkPSt (Some "B") (Some 1000%Q) (Some 1000%Q); mkPSt (Some "C") (Some 1000%Q) (Some (2000)%Q)].
Definition battery : storage :=
  mkSto (Some "bat1") (Some "bus 7") (Some 4160%Q) (Some ps3) (Some 90000%Q) (Some (-9 # 10)%Q) (Some 80000%Q) (Some 400%Q) (Some 200%Q) (Some "CHARGING")
    (Some 20%Q) (Some 100%Q) (Some 80%Q) (Some 95%Q) (Some 96%Q) None (Some 50%Q) (Some 1%Z).
Definition house_battery : storage :=
  mkSto (Some "bat2") (Some "b-8") (Some 120%Q) (Some [mkPSt (Some "B") (Some 500%Q) None]) None None None None None None None None None None None None None None.
Definition no_parent : string -> option (option Q) := fun _ => None.
Example C86_hypotheses_met : Forall (good_storage no_parent) [battery; house_battery].
Proof.
  apply Forall_cons; [|apply Forall_cons; [|apply Forall_nil]].
  - split; [exists "bat1"; split; [reflexivity | split; [discriminate | reflexivity]]|]. split; [discriminate|]. split; [discriminate|].
    split; [exists (Some 4160%Q); reflexivity|]. split.
    + intros p I. cbn in I. destruct I as [<-|[<-|[<-|[]]]]; do 2 eexists; (split; [reflexivity | constructor]).
    + split; [intros x Q; injection Q as <-; split; [discriminate | reflexivity]|]. intros _ f Q. injection Q as <-. discriminate.
  - split; [exists "bat2"; split; [reflexivity | split; [discriminate | reflexivity]]|]. split; [discriminate|]. split; [discriminate|].
    split; [exists (Some 120%Q); reflexivity|]. split.
    + intros p I. cbn in I. destruct I as [<-|[]]. do 2 eexists; (split; [reflexivity | constructor]).
    + split; [discriminate | intros H; contradiction H; reflexivity].
Qed.
Example C86_text : mapM (storage_text show_q root_q no_parent) [battery; house_battery] = Ok [
  ("New Storage.bat1 phases=3 kW=3000/1000 pf=3000/5000 bus1=bus_7.1.2.3 kV=4160/1000 kVA=900000/9000 kWRated=80000/1000 kWhRated=400/1000 kWhStored=200/1000 State=CHARGING %reserve=20/1000 %Discharge=100/1 %Charge=80/1 %EffCharge=95/1 %EffDischarge=96/1 %X=50/1 model=1" ++ nl)%string;
  ("New Storage.bat2 phases=1 kW=500/1000 bus1=b_8.2 kV=120/1000 State=IDLING" ++ nl)%string].
Proof. vm_compute. reflexivity. Qed.

Definition text_of (r : res string) : string := match r with Ok t => t | Err _ => "" end.
Definition elt_of (o : option (list element)) : element := match o with Some [e] => e | _ => mkElement "" "" [] end.
Definition first_text : string := Eval vm_compute in text_of (storage_text show_q root_q no_parent battery).
Definition first_elt : element := Eval vm_compute in elt_of (read_dss first_text).
Definition read_battery : storage := Eval vm_compute in match parse_storage num_q first_elt with Ok s => s | Err _ => battery end.
Definition second_text : string := Eval vm_compute in text_of (storage_text show_q root_q no_parent read_battery).
Definition second_elt : element := Eval vm_compute in elt_of (read_dss second_text).
(** Written, read and written again, the nodes have become part of the name of the bus and the phases are not known. *)
Theorem C86_again_refuted : exists t e s' t' e', storage_text show_q root_q no_parent battery = Ok t /\ read_dss t = Some [e] /\
  option_map terminal (prop e "bus1") = Some ("bus_7", ["1"; "2"; "3"]) /\ parse_storage num_q e = Ok s' /\
  storage_text show_q root_q no_parent s' = Ok t' /\ read_dss t' = Some [e'] /\
  option_map terminal (prop e' "bus1") = Some ("bus_7_1_2_3", ["None"; "None"; "None"]).
Proof. exists first_text, first_elt, read_battery, second_text, second_elt. repeat split; vm_compute; reflexivity. Qed.
Print Assumptions C86_again_refuted.
