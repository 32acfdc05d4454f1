(** Proofs about the JSON round trip. *)
From Coq Require Import Permutation.
From Verif Require Import Base BaseFacts NetworkModel JsonModel JsonSpec.
Local Open Scope string_scope.
Local Open Scope list_scope.

(** ** The file *)

Lemma insert_key_perm p l : Permutation (insert_key p l) (p :: l).
Proof.
  induction l as [|q l IH]; cbn [insert_key]; [reflexivity|]. destruct (str_leb _ _); [reflexivity|].
  rewrite IH. apply perm_swap.
Qed.
Lemma sort_keys_perm l : Permutation (sort_keys l) l.
Proof. induction l as [|p l IH]; [constructor|]. cbn [sort_keys fold_right]. fold (sort_keys l). rewrite insert_key_perm, IH. reflexivity. Qed.

Lemma dget_perm {V} (l l' : list (string * V)) k : Permutation l l' -> NoDup (map fst l) -> dget l k = dget l' k.
Proof.
  intros P N. assert (N' : NoDup (map fst l')) by (eapply Permutation_NoDup; [apply Permutation_map; exact P|exact N]).
  destruct (dget l k) as [v|] eqn:E.
  - symmetry. apply dget_NoDup; [exact N'|]. eapply Permutation_in; [exact P|]. apply dget_In. exact E.
  - destruct (dget l' k) as [v|] eqn:E'; [|reflexivity]. exfalso. apply dget_In in E'.
    apply Permutation_in with (l' := l) in E'; [|symmetry; exact P]. rewrite (dget_NoDup _ _ _ N E') in E. discriminate.
Qed.
Lemma dget_map {V W} (f : V -> W) (l : list (string * V)) k :
  dget (map (fun p => (fst p, f (snd p))) l) k = option_map f (dget l k).
Proof. induction l as [|[a v] l IH]; cbn; [reflexivity|]. destruct (String.eqb a k); [reflexivity|exact IH]. Qed.

Lemma reload_dict d : NoDup (map fst d) -> exists items, reload (JDict d) = JDict items /\ NoDup (map fst items) /\
  forall k, dget items k = option_map reload (dget d k).
Proof.
  intros N. exists (sort_keys (map (fun p : string * json => (fst p, reload (snd p))) d)). split; [reflexivity|].
  assert (N' : NoDup (map fst (map (fun p : string * json => (fst p, reload (snd p))) d)))
    by (rewrite map_map; cbn [fst]; exact N).
  assert (P := sort_keys_perm (map (fun p : string * json => (fst p, reload (snd p))) d)). split.
  - eapply Permutation_NoDup; [apply Permutation_map, Permutation_sym; exact P|exact N'].
  - intros k. rewrite (dget_perm _ _ k P). + apply dget_map. + eapply Permutation_NoDup; [apply Permutation_map, Permutation_sym; exact P|exact N'].
Qed.

Lemma reload_entry c j : reload (entry c j) = entry c (reload j).
Proof. reflexivity. Qed.
Lemma class_entry c j : jclass (entry c j) = Ok c.
Proof. reflexivity. Qed.
Lemma value_entry c j : jget (entry c j) "value" = Ok j.
Proof. reflexivity. Qed.

Section Read.
Variable dflt : string -> list (string * pv).

(** ** Reading the properties of an object *)

Lemma read_props_spec f c items : NoDup (map fst items) ->
  (forall k j, dget items k = Some j -> k <> "class" -> exists x, f j = Ok x) ->
  exists l', read_props dflt f c (JDict items) = Ok l' /\
    forall k, k <> "class" ->
      dget l' k = match dget items k with
                  | Some j => match f j with Ok (Some v) => Some v | _ => dget (dflt c) k end
                  | None => dget (dflt c) k
                  end.
Proof.
  intros N H. unfold read_props. cbn [jitems bind]. generalize (dflt c). intros d0. revert d0.
  induction items as [|[a j] t IH]; intros d0; cbn [foldM].
  - exists d0. split; [reflexivity|]. intros k _. reflexivity.
  - cbn [map fst] in N. inversion N as [|? ? N1 N2]; subst.
    assert (Ht : forall k j', dget t k = Some j' -> k <> "class" -> exists x, f j' = Ok x).
    { intros k j' E Hk. apply (H k); [|exact Hk]. cbn [dget]. destruct (String.eqb a k) eqn:Q; [|exact E].
      apply String.eqb_eq in Q. subst. exfalso. apply N1. exact (dget_Some_key _ _ _ E). }
    cbn [fst snd]. destruct (String.eqb a "class") eqn:Ea.
    + destruct (IH N2 Ht d0) as (l' & El & Hl). exists l'. split; [exact El|]. intros k Hk. rewrite (Hl k Hk). cbn [dget].
      apply String.eqb_eq in Ea. subst a. destruct (String.eqb "class" k) eqn:Q; [apply String.eqb_eq in Q; congruence|reflexivity].
    + destruct (H a j) as [x Ex]; [cbn [dget]; rewrite String.eqb_refl; reflexivity|apply String.eqb_neq; exact Ea|].
      rewrite Ex. cbn [bind].
      destruct (IH N2 Ht (match x with Some v => dset d0 a v | None => d0 end)) as (l' & El & Hl). exists l'. split; [exact El|].
      intros k Hk. rewrite (Hl k Hk). cbn [dget]. destruct (String.eqb a k) eqn:Q.
      * apply String.eqb_eq in Q. subst k. destruct (dget t a) as [j'|] eqn:Et; [exfalso; apply N1; exact (dget_Some_key _ _ _ Et)|].
        rewrite Ex. destruct x as [v|]; [apply dget_dset_same|reflexivity].
      * assert (Z : dget (match x with Some v => dset d0 a v | None => d0 end) k = dget d0 k).
        { destruct x as [v|]; [|reflexivity]. apply dget_dset_other. apply String.eqb_neq. exact Q. }
        destruct (dget t k) as [j'|]; [|exact Z]. destruct (f j') as [[v'|]|]; try reflexivity; exact Z.
Qed.

(** [f] reads back [v] from [j]; None may be left out where it is the default. *)
Definition returns (f : json -> res (option pv)) (j : json) (v : pv) (d : option pv) : Prop :=
  (exists v', f (reload j) = Ok (Some v') /\ faithful v v') \/ (f (reload j) = Ok None /\ d = Some v /\ faithful v v).

(** An object whose dictionary holds readable entries for its attributes. *)
Lemma read_back f c l d : NoDup (map fst d) ->
  (forall a v, dget l a = Some v -> a <> "class" -> exists j, dget d a = Some j /\ returns f j v (dget (dflt c) a)) ->
  (forall a j, dget d a = Some j -> a <> "class" -> dget l a = None -> exists x, f (reload j) = Ok x) ->
  ~ In "class" (map fst l) ->
  exists l', read_props dflt f c (reload (JDict d)) = Ok l' /\ faithful (PObj c l) (PObj c l') /\
    (forall a, a <> "class" -> dget d a = None -> dget l' a = dget (dflt c) a) /\
    (forall a j x, a <> "class" -> dget d a = Some j -> f (reload j) = Ok (Some x) -> dget l' a = Some x).
Proof.
  intros N H1 H2 Nc. destruct (reload_dict d N) as (items & -> & Ni & Hi).
  destruct (read_props_spec f c items Ni) as (l' & El & Hl).
  { intros k j' E Hk. rewrite Hi in E. destruct (dget d k) as [j|] eqn:Ed; [|discriminate]. injection E as <-.
    destruct (dget l k) as [v|] eqn:Ek; [|eapply H2; eauto]. destruct (H1 k v Ek Hk) as (j0 & Ej & R).
    rewrite Ed in Ej. injection Ej as <-. destruct R as [(v' & R & _)|(R & _)]; eauto. }
  exists l'. split; [exact El|]. split; [|split].
  - constructor. intros a v Ea. assert (Ha : a <> "class") by (intros ->; apply Nc; exact (dget_Some_key _ _ _ Ea)).
    destruct (H1 a v Ea Ha) as (j & Ej & R). rewrite (Hl a Ha), Hi, Ej. cbn [option_map].
    destruct R as [(v' & R & F)|(R & D & F)]; rewrite R; eauto.
  - intros a Ha Ed. rewrite (Hl a Ha), Hi, Ed. reflexivity.
  - intros a j x Ha Ed Ex. rewrite (Hl a Ha), Hi, Ed. cbn [option_map]. rewrite Ex. reflexivity.
Qed.

(** ** Scalars *)

Lemma standard_back s : standard s -> read_scalar (reload (typed (PVal s))) = Ok (Some (PVal s)).
Proof. destruct s; intros []; reflexivity. Qed.
Lemma standard_type s : standard s -> scal_type s <> "list" /\ scal_type s <> "complex" /\ smem (scal_type s) ditto_classes = false /\ substr_in "ditto." (scal_type s) = false.
Proof. destruct s; intros []; repeat split; try discriminate; reflexivity. Qed.
Lemma complex_back a b : read_scalar (reload (complex_entry a b)) = Ok (Some (PVal (SCplx a b))).
Proof. reflexivity. Qed.

Lemma simple_returns f c a v : (forall j s, s = "NoneType" \/ (exists x, standard x /\ scal_type x = s) -> jclass j = Ok s -> f j = read_scalar j) ->
  simple dflt c a v -> returns f (typed v) v (dget (dflt c) a).
Proof.
  intros Hf [(s & -> & Hs)|[-> Hd]].
  - left. exists (PVal s). split; [|constructor]. rewrite (Hf _ (scal_type s)); [apply standard_back; exact Hs|eauto|reflexivity].
  - right. rewrite (Hf _ "NoneType"); [|auto|reflexivity]. split; [reflexivity|]. split; [exact Hd|constructor].
Qed.
Lemma read_scalar_is j s : s = "NoneType" \/ (exists x, standard x /\ scal_type x = s) -> jclass j = Ok s -> read_scalar j = read_scalar j.
Proof. reflexivity. Qed.
Lemma nested_is j s : s = "NoneType" \/ (exists x, standard x /\ scal_type x = s) -> jclass j = Ok s -> read_nested_prop dflt j = read_scalar j.
Proof.
  intros H E. unfold read_nested_prop. rewrite E. cbn [bind]. replace (String.eqb s "list") with false; [reflexivity|].
  symmetry. apply String.eqb_neq. destruct H as [->|(x & Hx & <-)]; [discriminate|]. apply (standard_type x Hx).
Qed.
Lemma attr_is j s : s = "NoneType" \/ (exists x, standard x /\ scal_type x = s) -> jclass j = Ok s -> read_attr dflt j = read_scalar j.
Proof.
  intros H E. unfold read_attr. rewrite E. cbn [bind]. replace (String.eqb s "list") with false; [reflexivity|].
  symmetry. apply String.eqb_neq. destruct H as [->|(x & Hx & <-)]; [discriminate|]. apply (standard_type x Hx).
Qed.

(** ** Parts *)

Lemma fold_typed l d : NoDup (map fst l) ->
  forall k, dget (fold_left (fun d (p : string * pv) => dset d (fst p) (typed (snd p))) l d) k =
    match dget l k with Some v => Some (typed v) | None => dget d k end.
Proof.
  revert d. induction l as [|[a v] l IH]; intros d N k; cbn [fold_left dget]; [reflexivity|].
  cbn [map fst] in N. inversion N as [|? ? N1 N2]; subst. rewrite (IH _ N2). cbn [fst snd]. destruct (String.eqb a k) eqn:Q.
  - apply String.eqb_eq in Q. subst. destruct (dget l k) as [v'|] eqn:E; [exfalso; apply N1; exact (dget_Some_key _ _ _ E)|]. apply dget_dset_same.
  - destruct (dget l k); [reflexivity|]. apply dget_dset_other. apply String.eqb_neq. exact Q.
Qed.
Lemma fold_dset_NoDup {A} (key : A -> string) (g : A -> json) l d : NoDup (map fst d) ->
  NoDup (map fst (fold_left (fun d p => dset d (key p) (g p)) l d)).
Proof. revert d. induction l as [|a l IH]; intros d N; cbn [fold_left]; [exact N|]. apply IH. apply dset_NoDup. exact N. Qed.

Lemma part_dict c l : part dflt c l -> exists d, write_part c l = JDict d /\ NoDup (map fst d) /\
  dget d "class" = Some (JLeaf (SText c)) /\ forall k, k <> "class" -> dget d k = option_map typed (dget l k).
Proof.
  intros [[N Nc] _]. eexists. split; [reflexivity|]. split; [|split].
  - apply fold_dset_NoDup. repeat constructor. intros [].
  - rewrite fold_typed by exact N. destruct (dget l "class") as [v|] eqn:E; [exfalso; apply Nc; exact (dget_Some_key _ _ _ E)|reflexivity].
  - intros k Hk. rewrite fold_typed by exact N. destruct (dget l k); [reflexivity|]. cbn [dget option_map].
    destruct (String.eqb "class" k) eqn:Q; [apply String.eqb_eq in Q; congruence|reflexivity].
Qed.

Lemma class_of_dict d c : NoDup (map fst d) -> dget d "class" = Some (JLeaf (SText c)) -> jclass (reload (JDict d)) = Ok c.
Proof.
  intros N E. destruct (reload_dict d N) as (items & -> & _ & Hi). unfold jclass, jget. rewrite Hi, E. reflexivity.
Qed.

Lemma part_back f c l :
  (forall j s, s = "NoneType" \/ (exists x, standard x /\ scal_type x = s) -> jclass j = Ok s -> f j = read_scalar j) ->
  part dflt c l -> jclass (reload (write_part c l)) = Ok c /\
  exists l', read_props dflt f c (reload (write_part c l)) = Ok l' /\ faithful (PObj c l) (PObj c l').
Proof.
  intros Hf Hp. destruct (part_dict c l Hp) as (d & -> & N & Ec & Hd). split; [apply class_of_dict; assumption|].
  destruct Hp as [[Nl Nc] Hp].
  destruct (read_back f c l d N) as (l' & E & F & _).
  - intros a v Ea Ha. exists (typed v). split; [rewrite Hd by exact Ha; rewrite Ea; reflexivity|].
    apply simple_returns; [exact Hf|]. apply Hp. apply dget_In. exact Ea.
  - intros a j Ea Ha En. rewrite Hd in Ea by exact Ha. rewrite En in Ea. discriminate.
  - exact Nc.
  - exists l'. auto.
Qed.

Lemma read_seq_all {A} (f : json -> res (option pv)) (g : A -> json) (val : A -> pv) l :
  (forall x, In x l -> exists v', f (reload (g x)) = Ok (Some v') /\ faithful (val x) v') ->
  exists r, read_seq f (map reload (map g l)) = Ok r /\ Forall2 faithful (map val l) r.
Proof.
  induction l as [|x l IH]; intros H; cbn [map read_seq]; [exists []; split; [reflexivity|constructor]|].
  destruct (H x (or_introl eq_refl)) as (v' & E & F). destruct (IH (fun y Hy => H y (or_intror Hy))) as (r & Er & Fr).
  rewrite E. cbn [bind]. rewrite Er. cbn [bind]. exists (v' :: r). split; [reflexivity|]. constructor; assumption.
Qed.

(** ** Windings *)

Definition wfold (l : list (string * pv)) (d : list (string * json)) :=
  fold_left (fun d (p : string * pv) => if String.eqb (fst p) "phase_windings" then d else dset d (fst p) (typed (snd p))) l d.
Lemma wfold_dget l d : NoDup (map fst l) -> forall k, k <> "phase_windings" ->
  dget (wfold l d) k = match dget l k with Some v => Some (typed v) | None => dget d k end.
Proof.
  unfold wfold. revert d. induction l as [|[a v] l IH]; intros d N k Hk; cbn [fold_left dget]; [reflexivity|].
  cbn [map fst] in N. inversion N as [|? ? N1 N2]; subst. rewrite (IH _ N2 k Hk). cbn [fst snd]. destruct (String.eqb a k) eqn:Q.
  - apply String.eqb_eq in Q. subst. destruct (dget l k) as [v'|] eqn:E; [exfalso; apply N1; exact (dget_Some_key _ _ _ E)|].
    apply String.eqb_neq in Hk. rewrite Hk. apply dget_dset_same.
  - destruct (dget l k); [reflexivity|]. destruct (String.eqb a "phase_windings"); [reflexivity|]. apply dget_dset_other. apply String.eqb_neq. exact Q.
Qed.
Lemma wfold_NoDup l d : NoDup (map fst d) -> NoDup (map fst (wfold l d)).
Proof.
  unfold wfold. revert d. induction l as [|a l IH]; intros d N; cbn [fold_left]; [exact N|]. apply IH.
  destruct (String.eqb _ _); [exact N|apply dset_NoDup; exact N].
Qed.

Lemma winding_written l : winding_ok dflt l -> exists d ps,
  write_winding l = Ok (JDict (dset (wfold l [("class", JLeaf (SText "Winding"))]) "phase_windings" (entry "list" (JList (map
    (fun p => match p with PObj _ a => write_part "PhaseWinding" a | _ => JLeaf SNone end) ps))))) /\
  d = dset (wfold l [("class", JLeaf (SText "Winding"))]) "phase_windings" (entry "list" (JList (map
    (fun p => match p with PObj _ a => write_part "PhaseWinding" a | _ => JLeaf SNone end) ps))) /\
  match dget l "phase_windings" with Some v => v = PList ps | None => ps = [] end /\
  forall p, In p ps -> exists pl, p = PObj "PhaseWinding" pl /\ part dflt "PhaseWinding" pl.
Proof.
  intros [[N Nc] H]. unfold write_winding. fold (wfold l [("class", JLeaf (SText "Winding"))]).
  destruct (dget l "phase_windings") as [v|] eqn:E.
  - destruct (H _ _ (dget_In _ _ _ E)) as [[Q _]|(_ & ps & -> & Hp)]; [congruence|]. eexists. exists ps.
    assert (M : mapM (fun p => match p with PObj _ a => Ok (write_part "PhaseWinding" a) | _ => Err EAttr end) ps =
                Ok (map (fun p => match p with PObj _ a => write_part "PhaseWinding" a | _ => JLeaf SNone end) ps)).
    { clear E. induction ps as [|p ps IH]; cbn [mapM map]; [reflexivity|].
      destruct (Hp p (or_introl eq_refl)) as (pl & -> & _). rewrite IH by (intros q Hq; apply Hp; right; exact Hq). reflexivity. }
    rewrite M. cbn [bind]. split; [reflexivity|]. split; [reflexivity|]. split; [reflexivity|exact Hp].
  - eexists. exists []. split; [reflexivity|]. split; [reflexivity|]. split; [reflexivity|]. intros p [].
Qed.

Lemma winding_back l : winding_ok dflt l -> exists j, write_winding l = Ok j /\ jclass (reload j) = Ok "Winding" /\
  exists l', read_props dflt (read_nested_prop dflt) "Winding" (reload j) = Ok l' /\ faithful (PObj "Winding" l) (PObj "Winding" l').
Proof.
  intros Hw. destruct (winding_written l Hw) as (d & ps & Ew & Ed & Ep & Hps). rewrite <- Ed in Ew. exists (JDict d). split; [exact Ew|].
  destruct Hw as [[N Nc] H].
  assert (Nd : NoDup (map fst d)) by (rewrite Ed; apply dset_NoDup, wfold_NoDup; repeat constructor; intros []).
  assert (Dg : forall k, k <> "phase_windings" -> dget d k = match dget l k with Some v => Some (typed v) | None => dget [("class", JLeaf (SText "Winding"))] k end).
  { intros k Hk. rewrite Ed, dget_dset_other by congruence. apply wfold_dget; assumption. }
  split.
  - apply class_of_dict; [exact Nd|]. rewrite Dg by discriminate.
    destruct (dget l "class") as [v|] eqn:E; [exfalso; apply Nc; exact (dget_Some_key _ _ _ E)|reflexivity].
  - assert (R : exists r, read_nested_prop dflt (reload (entry "list" (JList (map (fun p => match p with PObj _ a => write_part "PhaseWinding" a | _ => JLeaf SNone end) ps))))
        = Ok (Some (PList r)) /\ Forall2 faithful ps r).
    { destruct (read_seq_all (read_deep dflt) (fun p => match p with PObj _ a => write_part "PhaseWinding" a | _ => JLeaf SNone end) (fun p => p) ps) as (r & Er & Fr).
      - intros p Hp. destruct (Hps p Hp) as (pl & -> & Hpl). destruct (part_back read_scalar "PhaseWinding" pl read_scalar_is Hpl) as (Ec & l' & El & Fl).
        exists (PObj "PhaseWinding" l'). split; [|exact Fl]. unfold read_deep. rewrite Ec. cbn [bind].
        change (smem "PhaseWinding" ditto_classes) with true. rewrite El. reflexivity.
      - exists r. rewrite map_id in Fr. split; [|exact Fr]. rewrite reload_entry. unfold read_nested_prop. rewrite class_entry. cbn [bind].
        change (String.eqb "list" "list") with true. cbn [reload]. rewrite value_entry. cbn [bind jlist]. rewrite Er. reflexivity. }
    destruct R as (r & Er & Fr).
    destruct (read_back (read_nested_prop dflt) "Winding" l d Nd) as (l' & E & F & _).
    + intros a v Ea Ha. destruct (H a v (dget_In _ _ _ Ea)) as [[Hn Hs]|(-> & ps' & -> & _)].
      * exists (typed v). split; [rewrite Dg by exact Hn; rewrite Ea; reflexivity|]. apply simple_returns; [exact nested_is|exact Hs].
      * rewrite Ea in Ep. injection Ep as <-. eexists. split; [rewrite Ed; apply dget_dset_same|]. left. exists (PList r).
        split; [exact Er|]. constructor. exact Fr.
    + intros a j Ea Ha En. destruct (String.eqb a "phase_windings") eqn:Q.
      * apply String.eqb_eq in Q. subst a. rewrite Ed, dget_dset_same in Ea. injection Ea as <-. eauto.
      * apply String.eqb_neq in Q. rewrite Dg, En in Ea by exact Q. cbn [dget] in Ea.
        destruct (String.eqb "class" a) eqn:Q2; [apply String.eqb_eq in Q2; congruence|discriminate].
    + exact Nc.
    + exists l'. auto.
Qed.

(** ** List elements and attributes *)

Lemma item_back v : item_ok dflt v -> exists j, write_item v = Ok [j] /\
  exists v', read_item dflt (reload j) = Ok (Some v') /\ faithful v v'.
Proof.
  intros [(a & b & ->)|[(s & ->)|[(c & l & -> & Hc & Hp)|(l & -> & Hw)]]].
  - eexists. split; [reflexivity|]. exists (PVal (SCplx a b)). split; [reflexivity|constructor].
  - eexists. split; [reflexivity|]. exists (PUni (SText s)). split; [reflexivity|constructor].
  - assert (Sm : smem c ["Position"; "Wire"; "PhaseCapacitor"; "PhaseLoad"] = true) by (apply smem_In; exact Hc).
    exists (write_part c l). split; [unfold write_item; rewrite Sm; reflexivity|].
    destruct (part_back (read_nested_prop dflt) c l nested_is Hp) as (Ec & l' & El & Fl). exists (PObj c l'). split; [|exact Fl].
    unfold read_item. rewrite Ec. cbn [bind]. assert (Sd : smem c ditto_classes = true) by (destruct Hc as [<-|[<-|[<-|[<-|[]]]]]; reflexivity).
    rewrite Sd, El. reflexivity.
  - destruct (winding_back l Hw) as (j & Ej & Ec & l' & El & Fl). exists j. split; [unfold write_item; cbn [smem existsb]; rewrite Ej; reflexivity|].
    exists (PObj "Winding" l'). split; [|exact Fl]. unfold read_item. rewrite Ec. cbn [bind]. change (smem "Winding" ditto_classes) with true. rewrite El. reflexivity.
Qed.

Lemma cell_back f x : (forall j s, s = "complex" \/ (exists x, standard x /\ scal_type x = s) -> jclass j = Ok s -> f j = read_scalar j) ->
  cell_ok x -> exists v', f (reload (match x with PVal (SCplx a b) => complex_entry a b | _ => typed x end)) = Ok (Some v') /\ faithful x v'.
Proof.
  intros Hf (s & -> & [Hs|(a & b & ->)]).
  - exists (PVal s). split; [|constructor]. assert (E : match PVal s with PVal (SCplx a b) => complex_entry a b | _ => typed (PVal s) end = typed (PVal s)).
    { destruct s; try reflexivity. destruct Hs. }
    rewrite E. rewrite (Hf _ (scal_type s)); [apply standard_back; exact Hs|eauto|reflexivity].
  - exists (PVal (SCplx a b)). split; [|constructor]. rewrite (Hf _ "complex"); [reflexivity|auto|reflexivity].
Qed.
Lemma item_is j s : s = "complex" \/ (exists x, standard x /\ scal_type x = s) -> jclass j = Ok s -> read_item dflt j = read_scalar j.
Proof.
  intros H E. unfold read_item. rewrite E. cbn [bind]. destruct H as [->|(x & Hx & <-)]; [reflexivity|].
  destruct (standard_type x Hx) as (A & B & C & D). rewrite C, D. apply String.eqb_neq in A, B. rewrite A, B. reflexivity.
Qed.

Lemma matrix_item_back x : cell_ok x \/ (exists r, x = PList r /\ forall y, In y r -> cell_ok y) ->
  exists v', read_item dflt (reload (write_matrix_item x)) = Ok (Some v') /\ faithful x v'.
Proof.
  intros [H|(r & -> & H)].
  - destruct (cell_back (read_item dflt) x item_is H) as (v' & E & F). exists v'. split; [|exact F].
    rewrite <- E. destruct H as (s & -> & _). reflexivity.
  - destruct (read_seq_all read_scalar (fun vv => match vv with PVal (SCplx a b) => complex_entry a b | _ => typed vv end) (fun y => y) r) as (r' & Er & Fr).
    + intros y Hy. apply cell_back; [reflexivity|]. apply H. exact Hy.
    + exists (PList r'). split; [|constructor; rewrite map_id in Fr; exact Fr]. cbn [write_matrix_item]. rewrite reload_entry.
      unfold read_item. rewrite class_entry. cbn [bind]. change (smem "list" ditto_classes) with false. change (String.eqb "list" "list") with true.
      cbn [reload]. rewrite value_entry. cbn [bind jlist]. rewrite Er. reflexivity.
Qed.

Lemma read_list_attr js r : read_seq (read_item dflt) (map reload js) = Ok r -> read_attr dflt (reload (entry "list" (JList js))) = Ok (Some (PList r)).
Proof.
  intros E. rewrite reload_entry. unfold read_attr. rewrite class_entry. cbn [bind]. change (String.eqb "list" "list") with true.
  cbn [reload]. rewrite value_entry. cbn [bind jlist]. rewrite E. reflexivity.
Qed.

Lemma items_back l : (forall x, In x l -> item_ok dflt x) -> exists js, mapM write_item l = Ok js /\
  exists r, read_seq (read_item dflt) (map reload (concat js)) = Ok r /\ Forall2 faithful l r.
Proof.
  induction l as [|x l IH]; intros H; cbn [mapM].
  - exists []. split; [reflexivity|]. exists []. split; [reflexivity|constructor].
  - destruct (item_back x (H x (or_introl eq_refl))) as (j & Ej & v' & Ev & Fv).
    destruct (IH (fun y Hy => H y (or_intror Hy))) as (js & Ejs & r & Er & Fr). rewrite Ej, Ejs. exists ([j] :: js). split; [reflexivity|].
    cbn [concat app map read_seq]. rewrite Ev. cbn [bind]. rewrite Er. cbn [bind]. exists (v' :: r). split; [reflexivity|constructor; assumption].
Qed.

Lemma matrix_attr_In a : matrix_attr a = true <-> In a ["capacitance_matrix"; "impedance_matrix"; "reactances"].
Proof. apply smem_In. Qed.

Lemma attr_back c a v : attr_ok dflt c a v -> exists j, write_trait a v = Ok j /\ returns (read_attr dflt) j v (dget (dflt c) a).
Proof.
  unfold write_trait. intros [(Ha & l & -> & Hl)|(Ha & Hv)].
  - apply matrix_attr_In in Ha. rewrite Ha. eexists. split; [reflexivity|]. left.
    destruct (read_seq_all (read_item dflt) write_matrix_item (fun x => x) l) as (r & Er & Fr).
    + intros x Hx. apply matrix_item_back. apply Hl. exact Hx.
    + exists (PList r). split; [apply read_list_attr; exact Er|]. constructor. rewrite map_id in Fr. exact Fr.
  - assert (Hm : matrix_attr a = false) by (destruct (matrix_attr a) eqn:E; [apply matrix_attr_In in E; contradiction|reflexivity]). rewrite Hm.
    destruct Hv as [Hs|[(x & y & ->)|(l & -> & Hl)]].
    + exists (typed v). split; [destruct Hs as [(s & -> & Hs)|[-> _]]; [destruct s; try reflexivity; destruct Hs|reflexivity]|].
      apply simple_returns; [exact attr_is|exact Hs].
    + eexists. split; [reflexivity|]. left. exists (PVal (SCplx x y)). split; [reflexivity|constructor].
    + destruct (items_back l Hl) as (js & -> & r & Er & Fr). cbn [bind]. eexists. split; [reflexivity|]. left. exists (PList r).
      split; [apply read_list_attr; exact Er|constructor; exact Fr].
Qed.

(** ** Objects *)

Definition wstep (d : list (string * json)) (p : string * pv) : res (list (string * json)) :=
  do j <- write_trait (fst p) (snd p); Ok (dset d (fst p) j).
Lemma wstep_all l d : NoDup (map fst l) -> NoDup (map fst d) ->
  (forall a v, In (a, v) l -> exists j, write_trait a v = Ok j) ->
  exists d', foldM wstep l d = Ok d' /\ NoDup (map fst d') /\
    forall k, dget d' k = match dget l k with
                          | Some v => match write_trait k v with Ok j => Some j | Err _ => None end
                          | None => dget d k
                          end.
Proof.
  revert d. induction l as [|[a v] l IH]; intros d N Nd H; cbn [foldM].
  - exists d. auto.
  - cbn [map fst] in N. inversion N as [|? ? N1 N2]; subst. destruct (H a v (or_introl eq_refl)) as [j Ej]. unfold wstep at 1. cbn [fst snd]. rewrite Ej. cbn [bind].
    destruct (IH (dset d a j) N2 (dset_NoDup _ _ _ Nd) (fun b w Hb => H b w (or_intror Hb))) as (d' & Ed & Nd' & Hd). exists d'.
    split; [exact Ed|]. split; [exact Nd'|]. intros k. rewrite Hd. cbn [dget]. destruct (String.eqb a k) eqn:Q.
    + apply String.eqb_eq in Q. subst k. destruct (dget l a) as [v'|] eqn:E; [exfalso; apply N1; exact (dget_Some_key _ _ _ E)|].
      rewrite Ej. apply dget_dset_same.
    + destruct (dget l k); [reflexivity|]. apply dget_dset_other. apply String.eqb_neq. exact Q.
Qed.

Lemma object_written c l : attributes l -> (forall a v, In (a, v) l -> exists j, write_trait a v = Ok j) ->
  exists d, write_object (c, l) = Ok (JDict d) /\ NoDup (map fst d) /\ dget d "class" = Some (JLeaf (SText c)) /\
    (forall a v, dget l a = Some v -> exists j, dget d a = Some j /\ write_trait a v = Ok j) /\
    (forall a, dget l a = None -> a <> "class" -> dget d a = if String.eqb "name" a then Some (entry "str" (JLeaf SNone)) else None).
Proof.
  intros [N Nc] H.
  destruct (wstep_all l [("class", JLeaf (SText c)); ("name", entry "str" (match dget l "name" with Some v => raw v | None => JLeaf SNone end))] N) as (d & Ed & Nd & Hd).
  { repeat constructor; cbn; intuition discriminate. }
  { exact H. }
  match type of Ed with ?L = _ => change (exists d0, (do d <- L; Ok (JDict d)) = Ok (JDict d0) /\ NoDup (map fst d0) /\ dget d0 "class" = Some (JLeaf (SText c)) /\
    (forall a v, dget l a = Some v -> exists j, dget d0 a = Some j /\ write_trait a v = Ok j) /\
    (forall a, dget l a = None -> a <> "class" -> dget d0 a = if String.eqb "name" a then Some (entry "str" (JLeaf SNone)) else None)) end.
  rewrite Ed. cbn [bind]. exists d. split; [reflexivity|]. split; [exact Nd|].
  split; [|split].
  - rewrite Hd. destruct (dget l "class") as [v|] eqn:E; [exfalso; apply Nc; exact (dget_Some_key _ _ _ E)|reflexivity].
  - intros a v Ea. destruct (H a v (dget_In _ _ _ Ea)) as [j Ej]. exists j. split; [rewrite Hd, Ea, Ej; reflexivity|exact Ej].
  - intros a Ea Ha. rewrite Hd, Ea. cbn [dget]. destruct (String.eqb "class" a) eqn:Q; [apply String.eqb_eq in Q; congruence|].
    destruct (String.eqb "name" a) eqn:Q2; [apply String.eqb_eq in Q2; subst a; rewrite Ea; reflexivity|reflexivity].
Qed.

Lemma write_simple c a v : matrix_attr a = false -> simple dflt c a v -> exists j, write_trait a v = Ok j.
Proof.
  intros M H. unfold write_trait. rewrite M. destruct H as [(s & -> & Hs)|[-> _]]; [|eauto]. destruct s; try (eexists; reflexivity).
Qed.

Lemma part_object o : is_part (fst o) -> (part dflt (fst o) (snd o) \/ fst o = "Winding" /\ winding_ok dflt (snd o)) ->
  (forall a, In a ["capacitance_matrix"; "impedance_matrix"; "reactances"] -> ~ In a (map fst (snd o))) ->
  exists j, write_object o = Ok j /\ read_object dflt (reload j) = Ok None.
Proof.
  intros P H M. destruct o as [c l]. cbn [fst snd] in *.
  assert (Hm : forall a v, In (a, v) l -> matrix_attr a = false).
  { intros a v Ha. destruct (matrix_attr a) eqn:E; [|reflexivity]. exfalso. apply matrix_attr_In in E. apply (M a E).
    change a with (fst (a, v)). apply in_map. exact Ha. }
  destruct (object_written c l) as (d & Ed & Nd & Ec & _).
  - destruct H as [H|[_ H]]; apply H.
  - intros a v Ha. destruct H as [[_ H]|[-> [_ H]]].
    + eapply write_simple; [eapply Hm; eauto|]. apply H. exact Ha.
    + destruct (H a v Ha) as [[_ Hs]|(-> & ps & -> & Hps)].
      * eapply write_simple; [eapply Hm; eauto|exact Hs].
      * unfold write_trait. cbn [matrix_attr smem existsb].
        change (matrix_attr "phase_windings") with false.
        assert (X : exists js, mapM write_item ps = Ok js).
        { clear Ha. induction ps as [|p ps IH]; cbn [mapM]; [eauto|]. destruct (Hps p (or_introl eq_refl)) as (pl & -> & _).
          destruct IH as [js Ejs]; [intros q Hq; apply Hps; right; exact Hq|]. cbn [write_item]. exists ([] :: js). change (smem "PhaseWinding" ["Position"; "Wire"; "PhaseCapacitor"; "PhaseLoad"]) with false. change (String.eqb "PhaseWinding" "Winding") with false. rewrite Ejs. reflexivity. }
        destruct X as [js X]. rewrite X. eexists. reflexivity.
  - exists (JDict d). split; [exact Ed|]. unfold read_object. rewrite (class_of_dict d c Nd Ec). cbn [bind].
    assert (S : smem c second_level = true) by (apply smem_In; exact P). rewrite S. reflexivity.
Qed.

Definition first_classes : list string :=
  ["PowerSource"; "Photovoltaic"; "Node"; "Line"; "PowerTransformer"; "Regulator"; "Load"; "Capacitor"; "Feeder_metadata"; "Storage"; "PhaseStorage"].

Lemma whole_object c l : In c first_classes -> attributes l -> (forall a v, In (a, v) l -> attr_ok dflt c a v) ->
  exists j l', write_object (c, l) = Ok j /\ read_object dflt (reload j) = Ok (Some (c, l')) /\ faithful (PObj c l) (PObj c l') /\
    (forall a, a <> "class" -> a <> "name" -> dget l a = None -> dget l' a = dget (dflt c) a) /\
    (dget l "name" = None -> dget l' "name" = Some (PVal (SText "None"))).
Proof.
  intros Hc Ha Hl. destruct (object_written c l Ha) as (d & Ed & Nd & Ec & Hd & Hn).
  { intros a v Hv. destruct (attr_back c a v (Hl a v Hv)) as (j & Ej & _). eauto. }
  destruct (read_back (read_attr dflt) c l d Nd) as (l' & E & F & D1 & D2).
  - intros a v Ea _. destruct (Hd a v Ea) as (j & Ej & Ew). exists j. split; [exact Ej|].
    destruct (attr_back c a v (Hl a v (dget_In _ _ _ Ea))) as (j' & Ej' & R). assert (j' = j) by congruence. subst. exact R.
  - intros a j Ea Hac En. rewrite (Hn a En Hac) in Ea. destruct (String.eqb "name" a); [|discriminate]. injection Ea as <-. eexists. reflexivity.
  - apply Ha.
  - exists (JDict d), l'. split; [exact Ed|]. split; [|split; [exact F|split]].
    + unfold read_object. rewrite (class_of_dict d c Nd Ec). cbn [bind].
      assert (S : smem c second_level = false /\ smem c object_classes = true).
      { clear - Hc. repeat (destruct Hc as [<-|Hc]; [split; reflexivity|]). destruct Hc. }
      destruct S as [-> ->]. rewrite E. reflexivity.
    + intros a H1 H2 H3. apply D1; [exact H1|]. rewrite (Hn a H3 H1). destruct (String.eqb "name" a) eqn:Q; [apply String.eqb_eq in Q; congruence|reflexivity].
    + intros En. apply (D2 "name" (entry "str" (JLeaf SNone))); [discriminate| |reflexivity]. rewrite (Hn "name" En) by discriminate. reflexivity.
Qed.

(** ** Models *)

Lemma objects_back m : (forall o, In o m -> object_ok dflt o) -> forall k, whole m k ->
  exists js, mapM write_object m = Ok js /\ forall acc, exists m',
    foldM (fun acc o => do x <- read_object dflt o; Ok (match x with Some y => acc ++ [y] | None => acc end)) (map reload js) acc = Ok (acc ++ m') /\
    Forall2 (kept dflt) k m'.
Proof.
  induction m as [|o m IH]; intros H k W; cbn [mapM].
  - inversion W; subst. exists []. split; [reflexivity|]. intros acc. exists []. rewrite app_nil_r. split; [reflexivity|constructor].
  - assert (Hm : forall x, In x m -> object_ok dflt x) by (intros x Hx; apply H; right; exact Hx).
    destruct (H o (or_introl eq_refl)) as [(P & P2 & P3)|(P & P2 & P3)].
    + inversion W as [|? ? ? Q W'|? ? ? Q W']; subst; [|contradiction]. destruct (IH Hm k W') as (js & Ejs & R).
      destruct (part_object o P P2 P3) as (j & Ej & Er). rewrite Ej, Ejs. exists (j :: js). split; [reflexivity|].
      intros acc. destruct (R acc) as (m' & Em & Fm). exists m'. cbn [map foldM]. rewrite Er. cbn [bind]. auto.
    + inversion W as [|? ? ? Q W'|? ? k' Q W']; subst.
      { exfalso. clear - P Q. unfold is_part in Q. cbn [In] in P, Q. intuition congruence. }
      destruct (IH Hm k' W') as (js & Ejs & R). destruct o as [c l]. cbn [fst snd] in *.
      destruct (whole_object c l P P2 P3) as (j & l' & Ej & Er & Fk & D1 & D2). rewrite Ej, Ejs. exists (j :: js). split; [reflexivity|].
      intros acc. destruct (R (acc ++ [(c, l')])) as (m' & Em & Fm). exists ((c, l') :: m'). cbn [map foldM]. rewrite Er. cbn [bind].
      rewrite Em, <- app_assoc. split; [reflexivity|]. constructor; [|exact Fm]. unfold kept. cbn [fst snd]. auto.
Qed.

Theorem round_trip m k : (forall o, In o m -> object_ok dflt o) -> whole m k ->
  exists j m', write_model m = Ok j /\ read_model dflt (reload j) = Ok m' /\ Forall2 (kept dflt) k m'.
Proof.
  intros H W. destruct (objects_back m H k W) as (js & Ejs & R). destruct (R []) as (m' & Em & F). unfold write_model. rewrite Ejs. cbn [bind].
  eexists. exists m'. split; [reflexivity|]. split; [|exact F]. exact Em.
Qed.
End Read.
