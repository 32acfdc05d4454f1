(** Proofs about the configurations of the GridLAB-D writer. *)
From Verif Require Import Base BaseFacts NetworkModel GlmWriteModel GlmWriteSpec GlmWriteProofs.
From Coq Require Import QArith Lia Permutation DecimalString DecimalNat.
Local Open Scope string_scope.
Local Open Scope nat_scope.
Local Open Scope list_scope.

(** ** Equality of configurations *)
Lemma gval_refl a : gval_eqb a a = true.
Proof. destruct a; cbn; [apply String.eqb_refl|apply Qeq_bool_iff; reflexivity|]. apply andb_true_intro. split; apply Qeq_bool_iff; reflexivity. Qed.
Lemma gval_sym a b : gval_eqb a b = true -> gval_eqb b a = true.
Proof.
  destruct a, b; cbn; try discriminate; intros H.
  - apply String.eqb_eq in H. subst. apply String.eqb_refl.
  - apply Qeq_bool_iff in H. apply Qeq_bool_iff. now symmetry.
  - apply andb_true_iff in H. destruct H as [H1 H2]. apply Qeq_bool_iff in H1, H2. apply andb_true_intro. split; apply Qeq_bool_iff; now symmetry.
Qed.
Lemma gval_trans a b c : gval_eqb a b = true -> gval_eqb b c = true -> gval_eqb a c = true.
Proof.
  destruct a, b; cbn; try discriminate; destruct c; cbn; try discriminate; intros H1 H2.
  - apply String.eqb_eq in H1. subst. exact H2.
  - apply Qeq_bool_iff in H1, H2. apply Qeq_bool_iff. now rewrite H1.
  - apply andb_true_iff in H1, H2. destruct H1 as [A1 A2], H2 as [B1 B2]. apply Qeq_bool_iff in A1, A2, B1, B2. apply andb_true_intro. split; apply Qeq_bool_iff; [now rewrite A1|now rewrite A2].
Qed.
Lemma pair_iff a b : pair_eqb a b = true <-> fst a = fst b /\ gval_eqb (snd a) (snd b) = true.
Proof. unfold pair_eqb. rewrite andb_true_iff, String.eqb_eq. reflexivity. Qed.
Lemma same_iff a b : same_set a b = true <-> (forall x, In x a -> exists y, In y b /\ fst x = fst y /\ gval_eqb (snd x) (snd y) = true) /\
  (forall x, In x b -> exists y, In y a /\ fst x = fst y /\ gval_eqb (snd x) (snd y) = true).
Proof.
  unfold same_set. rewrite andb_true_iff, !forallb_forall. split.
  - intros [H1 H2]. split; intros x Hx.
    + apply H1 in Hx. apply existsb_exists in Hx. destruct Hx as (y & Hy & E). apply pair_iff in E. eauto.
    + apply H2 in Hx. apply existsb_exists in Hx. destruct Hx as (y & Hy & E). apply pair_iff in E. eauto.
  - intros [H1 H2]. split; intros x Hx.
    + destruct (H1 x Hx) as (y & Hy & E). apply existsb_exists. exists y. split; [exact Hy|]. now apply pair_iff.
    + destruct (H2 x Hx) as (y & Hy & E). apply existsb_exists. exists y. split; [exact Hy|]. now apply pair_iff.
Qed.
Lemma same_refl a : same_set a a = true.
Proof. apply same_iff. split; intros x Hx; exists x; auto using gval_refl. Qed.
Lemma same_sym a b : same_set a b = true -> same_set b a = true.
Proof. intros H. unfold same_set in *. now rewrite andb_comm. Qed.
Lemma same_trans a b c : same_set a b = true -> same_set b c = true -> same_set a c = true.
Proof.
  rewrite !same_iff. intros [A1 A2] [B1 B2]. split; intros x Hx.
  - destruct (A1 x Hx) as (y & Hy & E & G). destruct (B1 y Hy) as (z & Hz & E' & G'). exists z. split; [exact Hz|]. split; [congruence|]. eauto using gval_trans.
  - destruct (B2 x Hx) as (y & Hy & E & G). destruct (A2 y Hy) as (z & Hz & E' & G'). exists z. split; [exact Hz|]. split; [congruence|]. eauto using gval_trans.
Qed.
Lemma same_cong a b c : same_set a b = true -> same_set a c = same_set b c.
Proof.
  intros H. destruct (same_set b c) eqn:E; [eauto using same_trans|]. destruct (same_set a c) eqn:E'; [|reflexivity].
  rewrite <- E. symmetry. eauto using same_trans, same_sym.
Qed.

(** Configurations with the same properties *)
Definition uniq {A} (d : dict A) : Prop := NoDup (map fst d).
Lemma dget_in {A} (d : dict A) k v : uniq d -> In (k, v) d <-> dget d k = Some v.
Proof.
  unfold uniq. induction d as [|[k' v'] d IH]; cbn; intros N; [split; [intros []|discriminate]|]. inversion N as [|x l Hx Hl]; subst.
  destruct (String.eqb k' k) eqn:E.
  - apply String.eqb_eq in E. subst k'. split.
    + intros [H|H]; [now injection H as <-|]. exfalso. apply Hx. apply (in_map fst) in H. exact H.
    + intros H. injection H as <-. now left.
  - rewrite <- IH by exact Hl. split; [intros [H|H]; [injection H as -> _; now rewrite String.eqb_refl in E|exact H]|now right].
Qed.
Lemma same_get a b k : uniq a -> uniq b -> same_set a b = true ->
  match dget a k, dget b k with Some x, Some y => gval_eqb x y = true | None, None => True | _, _ => False end.
Proof.
  intros Na Nb H. apply same_iff in H. destruct H as [H1 H2]. destruct (dget a k) as [x|] eqn:Ea.
  - apply (dget_in a k x Na) in Ea. destruct (H1 _ Ea) as ([k' y] & Hy & E & G). cbn in E, G. subst k'. apply (dget_in b k y Nb) in Hy. now rewrite Hy.
  - destruct (dget b k) as [y|] eqn:Eb; [|exact I]. apply (dget_in b k y Nb) in Eb. destruct (H2 _ Eb) as ([k' x] & Hx & E & G). cbn in E. subst k'.
    apply (dget_in a k x Na) in Hx. congruence.
Qed.
Lemma get_same a b : uniq a -> uniq b -> (forall k, match dget a k, dget b k with Some x, Some y => gval_eqb x y = true | None, None => True | _, _ => False end) -> same_set a b = true.
Proof.
  intros Na Nb H. apply same_iff. split; intros [k x] Hx.
  - apply (dget_in a k x Na) in Hx. specialize (H k). rewrite Hx in H. destruct (dget b k) as [y|] eqn:E; [|destruct H]. exists (k, y). split; [now apply dget_in|]. auto.
  - apply (dget_in b k x Nb) in Hx. specialize (H k). rewrite Hx in H. destruct (dget a k) as [y|] eqn:E; [|destruct H]. exists (k, y). split; [now apply dget_in|].
    split; [reflexivity|]. now apply gval_sym.
Qed.

(** ** Tables *)
Section Tables.
Context {A : Type}.
Implicit Types c : list (dict gval * A).
Lemma cfind_in c d x : cfind c d = Some x -> exists d', In (d', x) c /\ same_set d' d = true.
Proof.
  induction c as [|[d' y] c IH]; cbn; [discriminate|]. destruct (same_set d' d) eqn:E; [intros H; injection H as <-; eauto|].
  intros H. destruct (IH H) as (d'' & Hi & Hs). eauto.
Qed.
Lemma cfind_none c d : cfind c d = None <-> forall d' x, In (d', x) c -> same_set d' d = false.
Proof.
  induction c as [|[d' y] c IH]; cbn; [split; [intros _ d' x []|reflexivity]|]. destruct (same_set d' d) eqn:E.
  - split; [discriminate|]. intros H. specialize (H d' y (or_introl eq_refl)). congruence.
  - rewrite IH. split; [intros H d'' x [Hi|Hi]; [injection Hi as <- <-; exact E|eauto]|intros H d'' x Hi; apply (H d'' x); now right].
Qed.
Lemma cfind_cong c d d' : same_set d d' = true -> cfind c d = cfind c d'.
Proof.
  intros H. induction c as [|[e y] c IH]; cbn; [reflexivity|]. rewrite IH.
  assert (same_set e d = same_set e d') as ->; [|reflexivity].
  destruct (same_set e d') eqn:E; [eauto using same_trans, same_sym|]. destruct (same_set e d) eqn:E'; [|reflexivity]. rewrite <- E. symmetry. eauto using same_trans.
Qed.
Lemma cfind_app c c' d : cfind (c ++ c') d = match cfind c d with Some x => Some x | None => cfind c' d end.
Proof. induction c as [|[e y] c IH]; cbn; [reflexivity|]. destruct (same_set e d); [reflexivity|exact IH]. Qed.
Lemma cput_new c d x : cfind c d = None -> cput c d x = c ++ [(d, x)].
Proof. induction c as [|[e y] c IH]; cbn; [reflexivity|]. destruct (same_set e d); [discriminate|]. intros H. now rewrite IH. Qed.
Lemma cfind_cput c d x d' : cfind (cput c d x) d' = if same_set d d' then Some x else cfind c d'.
Proof.
  induction c as [|[e y] c IH]; cbn; [now destruct (same_set d d')|]. destruct (same_set e d) eqn:E; cbn.
  - rewrite (same_cong e d d' E). now destruct (same_set d d').
  - rewrite IH. destruct (same_set e d') eqn:E'; [|reflexivity]. destruct (same_set d d') eqn:E2; [|reflexivity].
    exfalso. assert (same_set e d = true) by eauto using same_trans, same_sym. congruence.
Qed.
End Tables.

Lemma oeqb_eq a b : oeqb a b = true <-> a = b.
Proof. destruct a, b; cbn; try (split; [discriminate|congruence]); [rewrite String.eqb_eq; split; congruence|tauto]. Qed.
Lemma oget_oput l k x k' : oget (oput l k x) k' = if oeqb k k' then Some x else oget l k'.
Proof.
  induction l as [|[e y] l IH]; cbn; [now destruct (oeqb k k')|]. destruct (oeqb e k) eqn:E; cbn.
  - apply oeqb_eq in E. subst e. now destruct (oeqb k k').
  - rewrite IH. destruct (oeqb e k') eqn:E'; [|reflexivity]. destruct (oeqb k k') eqn:E2; [|reflexivity]. apply oeqb_eq in E', E2. subst. exfalso. destruct k'; cbn in E; [now rewrite String.eqb_refl in E|discriminate].
Qed.

(** ** Numbers of configurations *)
Lemma nat_str_inj a b : nat_str a = nat_str b -> a = b.
Proof.
  unfold nat_str. intros H. apply (f_equal NilEmpty.uint_of_string) in H. rewrite !NilEmpty.usu in H. injection H as H.
  apply (f_equal Nat.of_uint) in H. now rewrite !Unsigned.of_to in H.
Qed.
Lemma prefix_inj p a b : (p ++ a)%string = (p ++ b)%string -> a = b.
Proof. induction p as [|c p IH]; cbn; [trivial|]. intros H. injection H as H. auto. Qed.
Definition number (prefix : string) (i : nat) : string := (prefix ++ nat_str i)%string.
Lemma number_inj p a b : number p a = number p b -> a = b.
Proof. intros H. apply nat_str_inj. exact (prefix_inj _ _ _ H). Qed.
Lemma numbers_nodup p l : NoDup l -> NoDup (map (number p) l).
Proof. intros H. apply FinFun.Injective_map_NoDup; [intros a b; apply number_inj|exact H]. Qed.

(** ** A table of configurations of one write *)
Definition lastd (ds : list (option string * dict gval)) (n : option string) : option (dict gval) :=
  fold_left (fun acc nd => if oeqb (fst nd) n then Some (snd nd) else acc) ds None.

Section Conf.
Variable num : Q -> string.
Variable cplx : Q -> Q -> string.
Variable cls prefix : string.
Definition conf_rows (dc : dict gval * string) : list string := obj_rows ("object " ++ cls ++ " {")%string (shown num cplx (dset (fst dc) "name" (VS (snd dc)))).
Definition confs (ds : list (option string * dict gval)) (st : cstate) : cstate := fold_left (fun st nd => configure num cplx cls prefix st (fst nd) (snd nd)) ds st.

Lemma foldM_confs {X} (sel : gobj -> option X) (dic : X -> res (dict gval)) (name : X -> option string) step :
  (forall st o, step st o = match sel o with Some x => do d <- dic x; Ok (configure num cplx cls prefix st (name x) d) | None => Ok st end) ->
  forall ms st st', foldM step ms st = Ok st' ->
  exists ds, Forall2 (fun x nd => fst nd = name x /\ dic x = Ok (snd nd)) (flat_map (fun o => match sel o with Some x => [x] | None => [] end) ms) ds /\ st' = confs ds st.
Proof.
  intros S. induction ms as [|o ms IH]; intros st st' E; cbn in E; [injection E as <-; exists []; split; [constructor|reflexivity]|].
  rewrite S in E. cbn [flat_map]. destruct (sel o) as [x|]; [|exact (IH _ _ E)].
  destruct (dic x) as [d|] eqn:Ed; [|discriminate]. cbn [bind] in E. destruct (IH _ _ E) as (ds & F & ->). exists ((name x, d) :: ds). split; [|reflexivity].
  cbn [app]. constructor; [auto|exact F].
Qed.

Lemma confs_spec ds : forall cs0 ns0, exists new,
  confs ds (cs0, ns0, 1, []) = (cs0 ++ new, snd (fst (fst (confs ds (cs0, ns0, 1, [])))), S (length new), flat_map conf_rows new) /\
  map snd new = map (number prefix) (seq 1 (length new)) /\
  (forall d c, In (d, c) new -> In d (map snd ds) /\ cfind cs0 d = None /\ cfind (cs0 ++ new) d = Some c) /\
  (forall n d, In (n, d) ds -> cfind (cs0 ++ new) d <> None) /\
  (forall n, oget (snd (fst (fst (confs ds (cs0, ns0, 1, []))))) n = match lastd ds n with Some d => cfind (cs0 ++ new) d | None => oget ns0 n end).
Proof.
  intros cs0 ns0. induction ds as [|[n d] ds IH] using rev_ind.
  - exists []. cbn. rewrite app_nil_r. repeat split; try (intros; contradiction).
  - destruct IH as (new & E & N & D & F & O). unfold confs in *. rewrite fold_left_app. cbn [fold_left fst snd].
    set (st := fold_left _ ds _) in *. set (ns := snd (fst (fst st))) in *. clearbody ns. clearbody st. subst st. unfold configure.
    unfold lastd. destruct (cfind (cs0 ++ new) d) as [c|] eqn:Ec.
    + exists new. cbn [fst snd]. split; [reflexivity|]. split; [exact N|]. split; [|split].
      * intros d' c' H. destruct (D d' c' H) as (D1 & D2 & D3). rewrite map_app, in_app_iff. auto.
      * intros n' d' H. apply in_app_or in H. destruct H as [H|[H|[]]]; [exact (F _ _ H)|]. injection H as <- <-. congruence.
      * intros n'. rewrite oget_oput, fold_left_app. cbn [fold_left fst snd]. destruct (oeqb n n'); [now rewrite Ec|]. apply O.
    + exists (new ++ [(d, (prefix ++ nat_str (S (length new)))%string)]). cbn [fst snd]. rewrite (cput_new _ _ _ Ec), app_length, Nat.add_1_r, flat_map_app, app_assoc.
      cbn [flat_map]. rewrite app_nil_r. split; [reflexivity|]. split; [|split; [|split]].
      * rewrite seq_S, !map_app, N. cbn. reflexivity.
      * intros d' c' H. rewrite map_app, in_app_iff. apply in_app_or in H. destruct H as [H|[H|[]]].
        -- destruct (D d' c' H) as (D1 & D2 & D3). split; [auto|]. split; [exact D2|]. rewrite cfind_app, D3. reflexivity.
        -- injection H as <- <-. split; [right; cbn; auto|]. split.
           ++ rewrite cfind_app in Ec. destruct (cfind cs0 d); [discriminate|reflexivity].
           ++ rewrite cfind_app, Ec. cbn. now rewrite same_refl.
      * intros n' d' H. rewrite cfind_app. apply in_app_or in H. destruct H as [H|[H|[]]].
        -- specialize (F _ _ H). destruct (cfind (cs0 ++ new) d'); [discriminate|congruence].
        -- injection H as <- <-. rewrite Ec. cbn. rewrite same_refl. discriminate.
      * intros n'. rewrite oget_oput, fold_left_app. cbn [fold_left fst snd]. destruct (oeqb n n').
        -- rewrite cfind_app, Ec. cbn. now rewrite same_refl.
        -- rewrite O. unfold lastd. destruct (fold_left _ ds None) as [d'|] eqn:El; [|reflexivity].
           assert (exists m, In (m, d') ds) as (m & Hm).
           { clear -El. revert El.
             assert (G : forall l acc, fold_left (fun acc nd => if oeqb (fst nd) n' then Some (snd nd) else acc) l acc = Some d' -> acc = Some d' \/ exists m, In (m, d') l).
             { induction l as [|[m e] l IH]; intros acc H; cbn in H; [now left|]. destruct (IH _ H) as [H'|(m' & H')]; [|right; exists m'; now right].
               destruct (oeqb m n'); [|now left]. injection H' as ->. right. exists m. now left. }
             intros El. destruct (G _ _ El) as [H|H]; [discriminate|exact H]. }
           rewrite (cfind_app (cs0 ++ new)). specialize (F _ _ Hm). destruct (cfind (cs0 ++ new) d'); [reflexivity|congruence].
Qed.

Lemma lastd_in ds n d : NoDup (map fst ds) -> In (n, d) ds -> lastd ds n = Some d.
Proof.
  unfold lastd. assert (G : forall (l : list (option string * dict gval)) acc, NoDup (map fst l) -> fold_left (fun acc nd => if oeqb (fst nd) n then Some (snd nd) else acc) l acc =
    match find (fun nd => oeqb (fst nd) n) l with Some nd => Some (snd nd) | None => acc end).
  { induction l as [|[m e] l IH]; intros acc N; cbn; [reflexivity|]. inversion N as [|x y Hx Hy]; subst. rewrite IH by exact Hy.
    destruct (oeqb m n) eqn:E; [|reflexivity]. apply oeqb_eq in E. subst m. destruct (find _ l) as [[m e']|] eqn:Ef; [|reflexivity]. exfalso.
    apply find_some in Ef. destruct Ef as [Hi Eq]. cbn in Eq. apply oeqb_eq in Eq. subst m. apply Hx. apply (in_map fst) in Hi. exact Hi. }
  intros N H. rewrite G by exact N. destruct (find _ ds) as [[m e]|] eqn:Ef.
  - apply find_some in Ef. destruct Ef as [Hi Eq]. cbn in Eq. apply oeqb_eq in Eq. subst m. cbn. f_equal.
    clear G. induction ds as [|[m e'] ds IH]; [destruct H|]. inversion N as [|x y Hx Hy]; subst. destruct H as [H|H], Hi as [Hi|Hi].
    + congruence.
    + injection H as -> ->. exfalso. apply Hx. apply (in_map fst) in Hi. exact Hi.
    + injection Hi as -> ->. exfalso. apply Hx. apply (in_map fst) in H. exact H.
    + auto.
  - exfalso. apply (find_none _ _ Ef) in H. cbn in H. assert (oeqb n n = true) by now apply oeqb_eq. congruence.
Qed.
Lemma lastd_none ds n : ~ In n (map fst ds) -> lastd ds n = None.
Proof.
  unfold lastd. assert (G : forall (l : list (option string * dict gval)) acc, ~ In n (map fst l) -> fold_left (fun acc nd => if oeqb (fst nd) n then Some (snd nd) else acc) l acc = acc).
  { induction l as [|[m e] l IH]; intros acc N; cbn; [reflexivity|]. cbn in N. rewrite IH by tauto. destruct (oeqb m n) eqn:E; [apply oeqb_eq in E; tauto|reflexivity]. }
  apply G.
Qed.

(** *** The blocks *)
Definition conf_b (dc : dict gval * string) : block := (cls, shown num cplx (dset (fst dc) "name" (VS (snd dc)))).
Lemma shown_fst d : map fst (shown num cplx d) = map fst d.
Proof. unfold shown. rewrite map_map. apply map_ext. reflexivity. Qed.
Lemma dget_none {A} (d : dict A) k : dget d k = None <-> ~ In k (map fst d).
Proof.
  induction d as [|[k' v] d IH]; cbn; [tauto|]. destruct (String.eqb k' k) eqn:E; [apply String.eqb_eq in E; split; [discriminate|tauto]|].
  rewrite IH. apply String.eqb_neq in E. tauto.
Qed.
Lemma dset_new {A} (d : dict A) k v : ~ In k (map fst d) -> dset d k v = d ++ [(k, v)].
Proof. induction d as [|[k' x] d IH]; cbn; intros H; [reflexivity|]. destruct (String.eqb k' k) eqn:E; [apply String.eqb_eq in E; tauto|]. rewrite IH by tauto. reflexivity. Qed.
Lemma vals_shown d k : uniq d -> vals (shown num cplx d) k = match dget d k with Some v => [show num cplx v] | None => [] end.
Proof.
  unfold uniq. induction d as [|[k' v] d IH]; intros N; [reflexivity|]. inversion N as [|x l Hx Hl]; subst. cbn [shown map fst snd dget].
  rewrite vals_cons. fold (shown num cplx d). rewrite IH by exact Hl. destruct (String.eqb k' k) eqn:E; [|reflexivity]. apply String.eqb_eq in E. subst k'.
  assert (dget d k = None) as -> by (apply dget_none; exact Hx). reflexivity.
Qed.
Lemma conf_b_name d c : uniq d -> dget d "name" = None -> values (conf_b (d, c)) "name" = [c].
Proof.
  intros U N. apply dget_none in N. unfold conf_b. cbn [fst snd]. rewrite values_vals, dset_new by exact N. unfold shown. rewrite map_app, vals_app. cbn [map fst snd].
  fold (shown num cplx d). rewrite vals_shown by exact U. apply dget_none in N. rewrite N. reflexivity.
Qed.
Lemma conf_b_val d c k : uniq d -> dget d "name" = None -> k <> "name" -> values (conf_b (d, c)) k = match dget d k with Some v => [show num cplx v] | None => [] end.
Proof.
  intros U N K. apply dget_none in N. unfold conf_b. cbn [fst snd]. rewrite values_vals, dset_new by exact N. unfold shown. rewrite map_app, vals_app. cbn [map fst snd].
  fold (shown num cplx d). rewrite vals_shown, vals_cons by exact U. destruct (String.eqb "name" k) eqn:E; [apply String.eqb_eq in E; congruence|]. now rewrite !app_nil_r.
Qed.
Lemma dec_conf dc : head_ok ("object " ++ cls ++ " {") cls -> (forall k, In k (map fst (fst dc)) -> okb k = true) -> decodes (conf_rows dc) [conf_b dc].
Proof.
  intros O K. apply dec_obj; [exact O|]. intros p Hp. apply (in_map fst) in Hp. rewrite shown_fst in Hp. destruct dc as [d c]. cbn [fst snd] in *.
  destruct (in_dec string_dec "name" (map fst d)) as [I|I].
  - apply K. clear -Hp I. induction d as [|[k' x] d IH]; [destruct I|]. cbn in *. destruct (String.eqb k' "name") eqn:E; [exact Hp|]. cbn in Hp. destruct Hp as [Hp|Hp]; [now left|].
    right. apply IH; [exact Hp|]. destruct I as [I|I]; [subst k'; discriminate E|exact I].
  - rewrite dset_new, map_app in Hp by exact I. apply in_app_or in Hp. destruct Hp as [Hp|[<-|[]]]; [apply K; exact Hp|reflexivity].
Qed.
(** the blocks with a name *)
Lemma named_confs new c d : (forall d c, In (d, c) new -> uniq d /\ dget d "name" = None) -> NoDup (map snd new) -> In (d, c) new ->
  named (map conf_b new) cls c = [conf_b (d, c)].
Proof.
  intros G. induction new as [|[e x] new IH]; intros N H; [destruct H|]. inversion N as [|y l Hy Hl]; subst. cbn [map named filter].
  destruct (G e x (or_introl eq_refl)) as [Ge Ne]. rewrite (conf_b_name e x Ge Ne). cbn [fst conf_b]. rewrite String.eqb_refl. cbn [andb smem existsb].
  assert (Z : forall y, ~ In y (map snd new) -> filter (fun b => (String.eqb (fst b) cls && smem y (values b "name"))%bool) (map conf_b new) = []).
  { intros y Hn. clear -G Hn. induction new as [|[e' x'] new IH]; [reflexivity|]. cbn [map filter]. destruct (G e' x') as [Ge Ne]; [cbn; auto|].
    rewrite (conf_b_name e' x' Ge Ne). cbn [fst conf_b]. rewrite String.eqb_refl. cbn [andb smem existsb]. cbn in Hn. rewrite orb_false_r.
    destruct (String.eqb y x') eqn:E; [apply String.eqb_eq in E; subst; tauto|]. apply IH; [|tauto]. intros d c [H|H]; apply (G d c); cbn; auto. }
  rewrite orb_false_r. destruct H as [H|H].
  - injection H as -> ->. rewrite String.eqb_refl. f_equal. apply Z. exact Hy.
  - destruct (String.eqb c x) eqn:E; [apply String.eqb_eq in E; subst c; exfalso; apply Hy; apply (in_map snd) in H; exact H|].
    apply IH; [|exact Hl|exact H]. intros d' c' H'. apply (G d' c'). now right.
Qed.
End Conf.

(** ** The properties of a configuration *)
Lemma dget_dset {A} (d : dict A) k v k' : dget (dset d k v) k' = if String.eqb k k' then Some v else dget d k'.
Proof.
  induction d as [|[x y] d IH]; cbn; [reflexivity|]. destruct (String.eqb x k) eqn:E; cbn.
  - apply String.eqb_eq in E. subst x. now destruct (String.eqb k k').
  - rewrite IH. destruct (String.eqb x k') eqn:E'; [|reflexivity]. destruct (String.eqb k k') eqn:E2; [|reflexivity]. apply String.eqb_eq in E', E2. subst. now rewrite String.eqb_refl in E.
Qed.
Lemma dset_fst {A} (d : dict A) k v : forall x, In x (map fst (dset d k v)) <-> x = k \/ In x (map fst d).
Proof.
  intros x. induction d as [|[a b] d IH]; cbn; [firstorder congruence|]. destruct (String.eqb a k) eqn:E; cbn.
  - apply String.eqb_eq in E. subst a. firstorder congruence.
  - rewrite IH. firstorder congruence.
Qed.
Lemma dset_uniq {A} (d : dict A) k v : uniq d -> uniq (dset d k v).
Proof.
  unfold uniq. induction d as [|[a b] d IH]; cbn; intros N; [constructor; [intros []|constructor]|]. inversion N as [|y l Hy Hl]; subst. destruct (String.eqb a k) eqn:E; cbn; [exact N|].
  constructor; [|auto]. rewrite dset_fst. apply String.eqb_neq in E. intros [H|H]; [congruence|contradiction].
Qed.
Lemma oset_uniq {A} (d : dict gval) k (o : option A) f : uniq d -> uniq (oset d k o f).
Proof. destruct o; [apply dset_uniq|trivial]. Qed.
Lemma dget_oset {A} (d : dict gval) k (o : option A) f k' : dget (oset d k o f) k' = if String.eqb k k' then match o with Some x => Some (f x) | None => dget d k' end else dget d k'.
Proof. destruct o; cbn [oset]; [apply dget_dset|]. now destruct (String.eqb k k'). Qed.
Lemma oset_fst {A} (d : dict gval) k (o : option A) f x : In x (map fst (oset d k o f)) -> x = k \/ In x (map fst d).
Proof. destruct o; cbn [oset]; [apply dset_fst|auto]. Qed.

Definition good_dic (d : dict gval) : Prop := uniq d /\ dget d "name" = None /\ forall k, In k (map fst d) -> okb k = true.
Definition fits (num : Q -> string) (v : option gval) (vs : list string) : Prop :=
  match v with Some (VS s) => vs = [s] | Some (VN q) => exists q', (q' == q)%Q /\ vs = [num q'] | Some (VC _ _) => True | None => vs = [] end.
Lemma same_fits num cplx d' d k : uniq d' -> uniq d -> same_set d' d = true -> fits num (dget d k) (match dget d' k with Some v => [show num cplx v] | None => [] end).
Proof.
  intros U' U S. pose proof (same_get d' d k U' U S) as H. destruct (dget d' k) as [v'|], (dget d k) as [v|]; try contradiction; [|reflexivity].
  destruct v', v; cbn in H |- *; try discriminate.
  - apply String.eqb_eq in H. now subst.
  - exists q. split; [now apply Qeq_bool_iff|reflexivity].
  - exact I.
Qed.
Lemma conf_fits num cplx cls d' c d k : good_dic d' -> good_dic d -> same_set d' d = true -> k <> "name" -> fits num (dget d k) (values (conf_b num cplx cls (d', c)) k).
Proof. intros (U' & N' & _) (U & N & _) S K. rewrite conf_b_val by assumption. now apply same_fits. Qed.

(** *** Transformers *)
Lemma winding_uniq d w : uniq d -> uniq (winding_dic d w).
Proof.
  intros U. unfold winding_dic. destruct w as [|w1 [|w2 ws]]; try exact U. repeat apply oset_uniq.
  destruct (Nat.eqb _ 3); [now apply dset_uniq|]. destruct (w_conn w1) as [a|], (w_conn w2) as [b|]; try exact U. destruct (conn1 a), (conn2 b a); try exact U. now apply dset_uniq.
Qed.
Definition trafo_keys_list : list string := ["install_type"; "no_load_loss"; "connect_type"; "primary_voltage"; "secondary_voltage"; "power_rating"; "reactance"; "resistance"].
Lemma winding_fst d w x : In x (map fst (winding_dic d w)) -> In x trafo_keys_list \/ In x (map fst d).
Proof.
  unfold winding_dic. destruct w as [|w1 [|w2 ws]]; auto. intros H. apply oset_fst in H. destruct H as [->|H]; [left; cbn; tauto|].
  apply oset_fst in H. destruct H as [->|H]; [left; destruct (zeqb (w_type w2) 0); cbn; tauto|]. apply oset_fst in H. destruct H as [->|H]; [left; destruct (zeqb (w_type w1) 2); cbn; tauto|].
  destruct (Nat.eqb _ 3); [apply dset_fst in H; destruct H as [->|H]; [left; cbn; tauto|auto]|].
  destruct (w_conn w1) as [a|], (w_conn w2) as [b|]; auto. destruct (conn1 a), (conn2 b a); auto. apply dset_fst in H. destruct H as [->|H]; [left; cbn; tauto|auto].
Qed.
Lemma react_inv d w rs d' : react_dic d w rs = Ok d' ->
  d' = d /\ ~ (exists w1 w2 x, w = [w1; w2] /\ rs = [x]) \/
  exists w1 w2 x a b, w = [w1; w2] /\ rs = [x] /\ w_res w1 = Some a /\ w_res w2 = Some b /\ d' = dset (dset d "reactance" (VN x)) "resistance" (VN (a + b)%Q).
Proof.
  unfold react_dic. destruct w as [|w1 [|w2 [|w3 [|w4 w]]]]; try (intros E; injection E as <-; left; split; [reflexivity|]; intros (a & b & c & E & _); discriminate E).
  - destruct rs as [|x [|y rs]]; try (intros E; injection E as <-; left; split; [reflexivity|]; intros (a & b & c & _ & E); discriminate E).
    destruct (w_res w1) as [a|] eqn:E1; [|discriminate]. destruct (w_res w2) as [b|] eqn:E2; [|discriminate]. cbn [of_opt bind]. intros E. injection E as <-. right. exists w1, w2, x, a, b. auto.
  - intros E. left. assert (d' = d).
    { destruct rs as [|x [|y [|z [|u rs]]]]; try (injection E as <-; reflexivity). destruct (w_res w1); discriminate E. }
    split; [exact H|]. intros (a & b & c & F & _). discriminate F.
Qed.
Lemma trafo_dic_cases t d : trafo_dic t = Ok d ->
  let d0 := winding_dic (oset (oset [] "install_type" (t_install t) VS) "no_load_loss" (t_noload t) VN) (olist (t_wds t)) in
  d = d0 /\ ~ (exists w1 w2 x, olist (t_wds t) = [w1; w2] /\ t_react t = Some [x]) \/
  exists w1 w2 x a b, olist (t_wds t) = [w1; w2] /\ t_react t = Some [x] /\ w_res w1 = Some a /\ w_res w2 = Some b /\ d = dset (dset d0 "reactance" (VN x)) "resistance" (VN (a + b)%Q).
Proof.
  intros E. cbv zeta. unfold trafo_dic in E.
  assert (W : match t_wds t with Some l => l | None => [] end = olist (t_wds t)) by now destruct (t_wds t). rewrite W in E. destruct (t_react t) as [rs|].
  - destruct (react_inv _ _ _ _ E) as [[-> H]|(w1 & w2 & x & a & b & H1 & -> & H2 & H3 & ->)].
    + left. split; [reflexivity|]. intros (w1 & w2 & x & H1 & H2). injection H2 as ->. apply H. eauto.
    + right. exists w1, w2, x, a, b. auto.
  - injection E as <-. left. split; [reflexivity|]. intros (w1 & w2 & x & _ & H). discriminate H.
Qed.
Lemma trafo_base_good t : let d0 := winding_dic (oset (oset [] "install_type" (t_install t) VS) "no_load_loss" (t_noload t) VN) (olist (t_wds t)) in
  uniq d0 /\ forall k, In k (map fst d0) -> In k trafo_keys_list.
Proof.
  split.
  - apply winding_uniq, oset_uniq, oset_uniq. constructor.
  - intros k H. apply winding_fst in H. destruct H as [H|H]; [exact H|]. apply oset_fst in H. destruct H as [->|H]; [cbn; tauto|]. apply oset_fst in H. destruct H as [->|[]]. cbn. tauto.
Qed.
Lemma trafo_keys_ok k : In k trafo_keys_list -> okb k = true /\ k <> "name".
Proof. cbn. intros H. repeat (destruct H as [<-|H]; [split; [reflexivity|discriminate]|]). destruct H. Qed.
Lemma keys_good d l : uniq d -> (forall k, In k (map fst d) -> In k l) -> (forall k, In k l -> okb k = true /\ k <> "name") -> good_dic d.
Proof.
  intros U K O. split; [exact U|]. split; [|intros k H; now apply O, K]. apply dget_none. intros H. apply K in H. apply O in H. now destruct H.
Qed.
Lemma trafo_good t d : trafo_dic t = Ok d -> good_dic d.
Proof.
  intros E. destruct (trafo_base_good t) as [U K]. apply (keys_good d trafo_keys_list); [| |exact trafo_keys_ok];
    destruct (trafo_dic_cases t d E) as [[-> _]|(w1 & w2 & x & a & b & _ & _ & _ & _ & ->)]; auto.
  - now repeat apply dset_uniq.
  - intros k H. apply dset_fst in H. destruct H as [->|H]; [cbn; tauto|]. apply dset_fst in H. destruct H as [->|H]; [cbn; tauto|]. auto.
Qed.
Lemma winding_get d w k : dget (winding_dic d w) k = match w with
  | w1 :: w2 :: ws =>
    let d1 := if Nat.eqb (length (w1 :: w2 :: ws)) 3 then dset d "connect_type" (VS "SINGLE_PHASE_CENTER_TAPPED")
             else match w_conn w1, w_conn w2 with
                  | Some a, Some b => match conn1 a, conn2 b a with Some x, Some y => dset d "connect_type" (VS (x ++ y)) | _, _ => d end
                  | _, _ => d
                  end in
    if String.eqb "power_rating" k then match w_power w1 with Some p => Some (VN (p / 1000)%Q) | None => dget d1 k end
    else if String.eqb (if zeqb (w_type w2) 0 then "primary_voltage" else "secondary_voltage") k then match w_volt w2 with Some v => Some (VN v) | None => dget (oset d1 (if zeqb (w_type w1) 2 then "secondary_voltage" else "primary_voltage") (w_volt w1) VN) k end
    else if String.eqb (if zeqb (w_type w1) 2 then "secondary_voltage" else "primary_voltage") k then match w_volt w1 with Some v => Some (VN v) | None => dget d1 k end
    else dget d1 k
  | _ => dget d k end.
Proof.
  destruct w as [|w1 [|w2 ws]]; try reflexivity. unfold winding_dic. cbv zeta. rewrite dget_oset. destruct (String.eqb "power_rating" k) eqn:E.
  - apply String.eqb_eq in E. subst k. destruct (w_power w1); [reflexivity|]. rewrite !dget_oset. destruct (zeqb (w_type w1) 2), (zeqb (w_type w2) 0); reflexivity.
  - rewrite dget_oset. destruct (String.eqb (if zeqb (w_type w2) 0 then _ else _) k); [reflexivity|]. now rewrite dget_oset.
Qed.
Lemma connect_get d w : dget d "connect_type" = None -> dget (winding_dic d w) "connect_type" =
  match w with
  | [_; _; _] => Some (VS "SINGLE_PHASE_CENTER_TAPPED")
  | w1 :: w2 :: _ => match w_conn w1, w_conn w2 with Some a, Some b => match conn1 a, conn2 b a with Some x, Some y => Some (VS (x ++ y)) | _, _ => None end | _, _ => None end
  | _ => None
  end.
Proof.
  intros N. rewrite winding_get. destruct w as [|w1 [|w2 ws]]; try exact N. cbv zeta. cbn [String.eqb Ascii.eqb Bool.eqb].
  assert (forall b : bool, String.eqb (if b then "primary_voltage" else "secondary_voltage") "connect_type" = false) as -> by (intros []; reflexivity).
  assert (forall b : bool, String.eqb (if b then "secondary_voltage" else "primary_voltage") "connect_type" = false) as -> by (intros []; reflexivity).
  destruct ws as [|w3 [|w4 ws]]; cbn [length Nat.eqb].
  - destruct (w_conn w1) as [a|], (w_conn w2) as [b|]; try exact N. destruct (conn1 a), (conn2 b a); try exact N. now rewrite dget_dset.
  - now rewrite dget_dset.
  - destruct (w_conn w1) as [a|], (w_conn w2) as [b|]; try exact N. destruct (conn1 a), (conn2 b a); try exact N. now rewrite dget_dset.
Qed.
Lemma connection_text t : fits (fun _ => "") (match olist (t_wds t) with
  | [_; _; _] => Some (VS "SINGLE_PHASE_CENTER_TAPPED")
  | w1 :: w2 :: _ => match w_conn w1, w_conn w2 with Some a, Some b => match conn1 a, conn2 b a with Some x, Some y => Some (VS (x ++ y)) | _, _ => None end | _, _ => None end
  | _ => None
  end) (connection t).
Proof.
  unfold connection. assert (C : forall w1 w2, fits (fun _ => "") (match w_conn w1, w_conn w2 with Some a, Some b => match conn1 a, conn2 b a with Some x, Some y => Some (VS (x ++ y)) | _, _ => None end | _, _ => None end)
    (let is w c := oeqb (w_conn w) (Some c) in
    if (is w1 "Y" && is w2 "Y")%bool then ["WYE_WYE"] else if (is w1 "Y" && is w2 "D")%bool then ["WYE_DELTA"]
    else if (is w1 "D" && is w2 "Y")%bool then ["DELTA_GWYE"] else if (is w1 "D" && is w2 "D")%bool then ["DELTA_DELTA"] else [])).
  { intros w1 w2. cbv beta zeta. destruct (w_conn w1) as [a|]; [|reflexivity]. cbn [oeqb]. destruct (w_conn w2) as [b|]; [|cbn [oeqb]; rewrite !andb_false_r; reflexivity].
    cbn [oeqb]. unfold conn1, conn2. destruct (String.eqb a "Y") eqn:A1.
    - apply String.eqb_eq in A1. subst a. cbn. destruct (String.eqb b "Y") eqn:B1; [reflexivity|]. destruct (String.eqb b "D"); reflexivity.
    - cbn [andb]. destruct (String.eqb a "D") eqn:A2; [|reflexivity]. apply String.eqb_eq in A2. subst a. destruct (String.eqb b "Y") eqn:B1; [reflexivity|]. destruct (String.eqb b "D"); reflexivity. }
  destruct (olist (t_wds t)) as [|w1 [|w2 [|w3 [|w4 ws]]]]; try reflexivity; apply C.
Qed.
Lemma trafo_conf_ok num cplx cls t d d' c : trafo_dic t = Ok d -> good_dic d' -> same_set d' d = true -> trafo_conf_says num t (conf_b num cplx cls (d', c)).
Proof.
  intros E G' S. pose proof (trafo_good t d E) as G. pose proof (fun k => conf_fits num cplx cls d' c d k G' G S) as F.
  set (b0 := oset (oset [] "install_type" (t_install t) VS) "no_load_loss" (t_noload t) VN).
  assert (B : forall k, k <> "reactance" -> k <> "resistance" -> dget d k = dget (winding_dic b0 (olist (t_wds t))) k).
  { intros k N1 N2. destruct (trafo_dic_cases t d E) as [[-> _]|(w1 & w2 & x & a & b & _ & _ & _ & _ & ->)]; [reflexivity|]. rewrite !dget_dset.
    destruct (String.eqb "resistance" k) eqn:E1; [apply String.eqb_eq in E1; congruence|]. destruct (String.eqb "reactance" k) eqn:E2; [apply String.eqb_eq in E2; congruence|reflexivity]. }
  assert (B0 : forall k, dget b0 k = if String.eqb "no_load_loss" k then option_map VN (t_noload t) else if String.eqb "install_type" k then option_map VS (t_install t) else None).
  { intros k. unfold b0. rewrite !dget_oset. cbn [dget]. destruct (String.eqb "no_load_loss" k) eqn:E1.
    - apply String.eqb_eq in E1. subst k. cbn. now destruct (t_noload t).
    - destruct (String.eqb "install_type" k); [|reflexivity]. now destruct (t_install t). }
  assert (W : forall k, In k ["no_load_loss"; "install_type"] -> dget (winding_dic b0 (olist (t_wds t))) k = dget b0 k).
  { intros k Hk. rewrite winding_get. destruct (olist (t_wds t)) as [|w1 [|w2 ws]]; try reflexivity. cbv zeta. 
    assert (Z : forall v, dget (dset b0 "connect_type" v) k = dget b0 k) by (intros v; rewrite dget_dset; destruct Hk as [<-|[<-|[]]]; reflexivity).
    assert (D : forall b : bool, String.eqb (if b then "primary_voltage" else "secondary_voltage") k = false) by (intros []; destruct Hk as [<-|[<-|[]]]; reflexivity).
    assert (D' : forall b : bool, String.eqb (if b then "secondary_voltage" else "primary_voltage") k = false) by (intros []; destruct Hk as [<-|[<-|[]]]; reflexivity).
    assert (P : String.eqb "power_rating" k = false) by (destruct Hk as [<-|[<-|[]]]; reflexivity). rewrite P, D, D'.
    destruct (Nat.eqb _ 3); [apply Z|]. destruct (w_conn w1) as [x|], (w_conn w2) as [y|]; try reflexivity. destruct (conn1 x), (conn2 y x); try reflexivity. apply Z. }
  split; [|split; [|split; [|split]]].
  - specialize (F "install_type" ltac:(discriminate)). rewrite B, W, B0 in F by (try discriminate; cbn; tauto). cbn in F. destruct (t_install t); exact F.
  - specialize (F "connect_type" ltac:(discriminate)). rewrite B, connect_get in F by (try discriminate; rewrite B0; reflexivity). pose proof (connection_text t) as C.
    destruct (match olist (t_wds t) with [] => _ | _ => _ end) as [[s|q|q r]|] eqn:X in F, C; cbn [fits] in F, C.
    + congruence.
    + exfalso. destruct (olist (t_wds t)) as [|w1 [|w2 [|w3 [|w4 ws]]]]; try discriminate X; destruct (w_conn w1) as [x|], (w_conn w2) as [y|]; try discriminate X; destruct (conn1 x), (conn2 y x); discriminate X.
    + exfalso. destruct (olist (t_wds t)) as [|w1 [|w2 [|w3 [|w4 ws]]]]; try discriminate X; destruct (w_conn w1) as [x|], (w_conn w2) as [y|]; try discriminate X; destruct (conn1 x), (conn2 y x); discriminate X.
    + congruence.
  - intros q Hq. specialize (F "no_load_loss" ltac:(discriminate)). rewrite B, W, B0 in F by (try discriminate; cbn; tauto). cbn in F. rewrite Hq in F. exact F.
  - intros w1 w2 ws v Hw T1 T2. pose proof (fun k N1 N2 => eq_trans (B k N1 N2) (winding_get b0 _ k)) as R. rewrite Hw in R. cbv zeta in R. rewrite T1, T2 in R. repeat split; intros Hv.
    + specialize (F "primary_voltage" ltac:(discriminate)). rewrite R in F by discriminate. cbn in F. rewrite Hv in F. exact F.
    + specialize (F "secondary_voltage" ltac:(discriminate)). rewrite R in F by discriminate. cbn in F. rewrite Hv in F. exact F.
    + specialize (F "power_rating" ltac:(discriminate)). rewrite R in F by discriminate. cbn -[Qdiv] in F. rewrite Hv in F. exact F.
  - intros w1 w2 x r1 r2 Hw Hr H1 H2. destruct (trafo_dic_cases t d E) as [[_ N]|(v1 & v2 & y & a & b & Hw' & Hr' & H1' & H2' & Ed)]; [exfalso; apply N; eauto|].
    rewrite Hw in Hw'. injection Hw' as <- <-. rewrite Hr in Hr'. injection Hr' as <-. rewrite H1 in H1'. injection H1' as <-. rewrite H2 in H2'. injection H2' as <-. split.
    + specialize (F "reactance" ltac:(discriminate)). rewrite Ed, !dget_dset in F. exact F.
    + specialize (F "resistance" ltac:(discriminate)). rewrite Ed, !dget_dset in F. exact F.
Qed.
