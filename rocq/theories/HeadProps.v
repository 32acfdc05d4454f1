(** C109: the head nodes of the feeders.  C110: the positions of the loads. *)
From Coq Require Import List String Ascii Bool Arith QArith Lia.
From Verif Require Import Base BaseFacts CsvModel CsvSpec CsvProofs CymeParseProofs HeadModel HeadSpec HeadProofs.
Import ListNotations.
Local Open Scope string_scope.
Local Open Scope nat_scope.
Local Open Scope list_scope.

(** Every feeder gets the first successor of its substation that has its name: as it is, without the letters x around it, or turned round. *)
Theorem C109_headnodes : forall successors voltage_of l, Forall (ready successors voltage_of) l ->
  exists l', set_feeder_headnodes successors voltage_of l = Ok l' /\ Forall2 (headed successors voltage_of) l l'.
Proof.
  intros successors voltage_of l F. induction F as [|f l R F (l' & E & IH)]; [exists []; now split|].
  destruct (head_ok successors voltage_of f R) as (f' & E' & H). exists (f' :: l'). unfold set_feeder_headnodes in *. cbn [mapM]. rewrite E', E. split; [reflexivity|now constructor].
Qed.
Print Assumptions C109_headnodes.

Lemma slen a b : String.length (a ++ b) = String.length a + String.length b.
Proof. induction a; cbn; [reflexivity|now f_equal]. Qed.
(** The feeder "a->b" does not find its head node "b->a". *)
Theorem C109_arrow_refuted : forall successors voltage_of f a b sub h, f_name f = Some (a ++ "->" ++ b)%string -> plain_name (a ++ "->" ++ b) (a ++ "->" ++ b) -> free ">" a -> free ">" b -> a <> b ->
  f_sub f = Some sub -> successors sub = Some [h] -> trimmed h (b ++ "->" ++ a) -> h <> (a ++ "->" ++ b)%string -> (exists v, voltage_of h = Ok v) ->
  set_feeder_headnodes successors voltage_of [f] = Ok [f].
Proof.
  intros successors voltage_of f a b sub h EN PN FA FB NAB ES EH TR NH EV.
  assert (SP : forall a b, (a ++ "->" ++ b = (a ++ "-") ++ ">" ++ b)%string) by (intros; now rewrite sassoc).
  assert (FD : forall a, free ">" a -> free ">" (a ++ "-")%string) by (intros; apply free_app; [assumption|cbn; intuition discriminate]).
  assert (INJ : forall a b c e, free ">" a -> free ">" c -> free ">" b -> free ">" e -> (a ++ ">" ++ b = c ++ ">" ++ e)%string -> a = c /\ b = e).
  { intros x y z u F1 F2 F3 F4 E. assert (X : split_on ">" (x ++ String ">" y)%string = split_on ">" (z ++ String ">" u)%string) by (f_equal; exact E). rewrite !split_snoc, !split_free in X by assumption. cbn in X. injection X as -> ->. now split. }
  assert (TN : turned (b ++ "->" ++ a) (a ++ "->" ++ (b ++ "-"))) by (right; exists (b ++ "-")%string, a; repeat split; auto).
  assert (R : ready successors voltage_of f). { exists (a ++ "->" ++ b)%string, sub, [h]. do 3 (split; [assumption|]). split; [|intros x [<-|[]]; exact EV]. intros x t [<-|[]] T. assert (t = (b ++ "->" ++ a)%string) as -> by (eapply trimmed_fun; eassumption). eauto. }
  destruct (head_ok successors voltage_of f R) as (f' & E & n & c & sub' & heads & EN' & PN' & ES' & EH' & _ & _ & H). unfold set_feeder_headnodes. cbn [mapM]. rewrite E. cbn [bind].
  assert (n = (a ++ "->" ++ b)%string) as -> by congruence. assert (c = (a ++ "->" ++ b)%string) as -> by (eapply plain_fun; eassumption). assert (sub' = sub) as -> by congruence. assert (heads = [h]) as -> by congruence.
  assert (NT : ~ trimmed h (a ++ "->" ++ b)).
  { intros T. assert (X : (b ++ "->" ++ a)%string = (a ++ "->" ++ b)%string) by (eapply trimmed_fun; eassumption). rewrite !SP in X. apply INJ in X; auto. destruct X as [_ X]. congruence. }
  assert (NU : ~ exists t, trimmed h t /\ turned t (a ++ "->" ++ b)).
  { intros (t & T & U). assert (t = (b ++ "->" ++ a)%string) as -> by (eapply trimmed_fun; eassumption). apply turned_iff in U. apply turned_iff in TN. rewrite U in TN. assert (X : (a ++ "->" ++ b)%string = (a ++ "->" ++ (b ++ "-"))%string) by congruence. rewrite !SP in X. apply INJ in X; auto. destruct X as [_ X].
    apply (f_equal String.length) in X. rewrite slen in X. cbn in X. lia. }
  destruct H as [([H|[]] & _)|(_ & [(x & (p & q & EP & T & _) & _)|(_ & [(x & v & (p & q & EP & T & _) & _)|(_ & ->)])])]; try congruence; try reflexivity; exfalso.
  - destruct p as [|? p]; [injection EP as <- <-; now apply NT|destruct p; discriminate].
  - destruct p as [|? p]; [injection EP as <- <-; now apply NU|destruct p; discriminate].
Qed.
Print Assumptions C109_arrow_refuted.

Lemma mapM_stuck {A B} (f : A -> res B) l x : In x l -> (exists e, f x = Err e) -> exists e, mapM f l = Err e.
Proof.
  intros I [e E]. induction l as [|y l IH]; [destruct I|]. cbn. destruct I as [->|I]; [rewrite E; cbn; now exists e|]. destruct (f y); cbn; [|eauto]. destruct (IH I) as [e' ->]. cbn. eauto.
Qed.
(** One feeder whose substation is not in the network stops the function for all. *)
Theorem C109_substation_refuted : forall successors voltage_of l f sub, In f l -> f_sub f = Some sub -> successors sub = None -> exists e, set_feeder_headnodes successors voltage_of l = Err e.
Proof.
  intros successors voltage_of l f sub I ES N. apply (mapM_stuck _ l f I). unfold set_head. destruct (f_name f); cbn [of_opt bind]; [|eauto]. rewrite ES. cbn [of_opt bind]. rewrite N. cbn. eauto.
Qed.
Print Assumptions C109_substation_refuted.
(** So does a successor with two signs ">", unless the feeder is found before names are turned round. *)
Theorem C109_signs_refuted : forall successors voltage_of l f n c sub heads h t, In f l -> f_name f = Some n -> plain_name n c -> f_sub f = Some sub -> successors sub = Some heads ->
  ~ In c heads -> Forall (fun x => ~ trimmed x c) heads -> In h heads -> trimmed h t -> (forall r, ~ turned t r) -> exists e, set_feeder_headnodes successors voltage_of l = Err e.
Proof.
  intros successors voltage_of l f n c sub heads h t I EN PN ES EH NI NT IH TR NU. apply (mapM_stuck _ l f I). unfold set_head. rewrite EN, ES. cbn [of_opt bind]. rewrite EH. cbn [of_opt bind]. cbv zeta.
  assert (clean_name n = c) as -> by (eapply plain_fun; [apply clean_spec|exact PN]). assert (smem c heads = false) as -> by (now apply smem_not_In).
  pose proof (index_spec (map strip_x heads) c) as X. destruct (index_of (map strip_x heads) c) as [i|].
  - exfalso. destruct X as [X _]. rewrite nth_error_map in X. destruct (nth_error heads i) as [y|] eqn:NY; [|discriminate]. cbn in X. injection X as X. apply strip_iff in X. rewrite Forall_forall in NT. apply (NT y); [eapply nth_error_In; exact NY|exact X].
  - destruct (mapM_stuck reverse_name (map strip_x heads) t) as [e ->]; [apply in_map_iff; exists h; split; [now apply strip_iff|exact IH]| |cbn; eauto].
    destruct (reverse_name t) as [r|e] eqn:R; [exfalso; apply turned_iff in R; exact (NU r R)|eauto].
Qed.
Print Assumptions C109_signs_refuted.

(** Three feeders: found without the letters x, found turned round, not found. *)
Definition succ0 (s : string) : option (list string) := if String.eqb s "st" then Some ["xf1xx"; "b>a"; "c->d"] else None.
Definition volt0 (s : string) : res (option Q) := Ok (Some 7200%Q).
Example C109_hypotheses_met :
  Forall (ready succ0 volt0) [mkMeta (Some "F1.") (Some "st") None None None; mkMeta (Some "a->b_src") (Some "st") None None None; mkMeta (Some "d->c") (Some "st") None None None] /\
  set_feeder_headnodes succ0 volt0 [mkMeta (Some "F1.") (Some "st") None None None; mkMeta (Some "a->b_src") (Some "st") None None None; mkMeta (Some "d->c") (Some "st") None None None]
  = Ok [mkMeta (Some "F1.") (Some "st") (Some "xf1xx") None None; mkMeta (Some "a->b_src") (Some "st") (Some "b>a") (Some 7200%Q) (Some 7200%Q); mkMeta (Some "d->c") (Some "st") None None None] /\
  plain_name "d->c" "d->c" /\ trimmed "c->d" "c->d".
Proof.
  split; [|split; [vm_compute; reflexivity|split; [apply clean_spec|apply strip_trimmed]]].
  assert (R : forall h t, In h ["xf1xx"; "b>a"; "c->d"] -> trimmed h t -> exists r, turned t r).
  { intros h t [<-|[<-|[<-|[]]]] T; apply strip_iff in T; subst t; eexists; apply turned_iff; vm_compute; reflexivity. }
  repeat constructor; eexists _, _, _; (repeat split; [exact R|intros h _; now exists (Some 7200%Q)]).
Qed.

(** ** Positions of the loads *)
Section C110.
Variable has_position : string -> bool.
Variables dx dy dz : Q.
Lemma place_nothing ps made : place dx dy dz ps made = made.
Proof. destruct ps as [|[[lo la] el] r]; reflexivity. Qed.
Lemma set_one_spec all o : set_one has_position dx dy dz all o = o \/ (c_load o = true /\ c_positions o = None /\ set_one has_position dx dy dz all o = mkCobj (c_load o) (c_name o) (c_conn o) (c_class o) (Some [])).
Proof.
  unfold set_one. destruct (c_load o); [|now left]. destruct (c_positions o); [now left|]. destruct (c_conn o) as [[c|]|]; try now left. destruct (object_named all c) as [x|]; [|now left]. destruct (has_position (c_class x)); [|now left].
  right. repeat split. destruct (c_positions x); [now rewrite place_nothing|reflexivity].
Qed.
Lemma set_from_spec todo : forall done, exists l, set_from has_position dx dy dz done todo = done ++ l /\
  Forall2 (fun o o' => o' = o \/ (c_load o = true /\ c_positions o = None /\ o' = mkCobj (c_load o) (c_name o) (c_conn o) (c_class o) (Some []))) todo l.
Proof.
  induction todo as [|o r IH]; intros done; cbn [set_from]; [exists []; split; [now rewrite app_nil_r|constructor]|].
  destruct (IH (done ++ [set_one has_position dx dy dz (done ++ o :: r) o])) as (l & E & F). exists (set_one has_position dx dy dz (done ++ o :: r) o :: l). split; [rewrite E, <- app_assoc; reflexivity|]. constructor; [apply set_one_spec|exact F].
Qed.
End C110.
(** Only loads without positions are touched. *)
Theorem C110_only_loads : forall has_position dx dy dz l i o, nth_error l i = Some o -> c_load o = false \/ c_positions o <> None -> nth_error (set_load_coordinates has_position dx dy dz l) i = Some o.
Proof.
  intros hp dx dy dz l i o E N. unfold set_load_coordinates. destruct (set_from_spec hp dx dy dz l []) as (l' & -> & F). cbn [app]. revert i E. induction F as [|x y l l' H F IH]; intros [|i] E; try discriminate; cbn in *; [|now apply IH].
  injection E as ->. destruct H as [->|(A & B & _)]; [reflexivity|]. destruct N; congruence.
Qed.
Print Assumptions C110_only_loads.
(** No load ever gets a position, whatever the deltas are and whatever attributes the classes have. *)
Theorem C110_positions_refuted : forall has_position dx dy dz l i o o' p ps, nth_error l i = Some o -> c_positions o = None -> nth_error (set_load_coordinates has_position dx dy dz l) i = Some o' -> c_positions o' <> Some (p :: ps).
Proof.
  intros hp dx dy dz l i o o' p ps E N E' C. unfold set_load_coordinates in E'. destruct (set_from_spec hp dx dy dz l []) as (l' & EL & F). rewrite EL in E'. cbn [app] in E'. clear EL. revert i E E'. induction F as [|x y l0 l1 H F IH]; intros [|i] E E'; try discriminate; cbn in *; [|eapply IH; eassumption].
  injection E as ->. injection E' as ->. destruct H as [->|(_ & _ & ->)]; [congruence|discriminate C].
Qed.
Print Assumptions C110_positions_refuted.
(** With the classes of the package, which have no attribute "position", nothing changes at all. *)
Theorem C110_nothing_refuted : forall dx dy dz l, set_load_coordinates (fun _ => false) dx dy dz l = l.
Proof.
  intros dx dy dz l. unfold set_load_coordinates. assert (G : forall todo done, set_from (fun _ => false) dx dy dz done todo = done ++ todo); [|apply (G l [])].
  induction todo as [|o r IH]; intros done; cbn [set_from]; [now rewrite app_nil_r|].
  assert (X : set_one (fun _ => false) dx dy dz (done ++ o :: r) o = o). { unfold set_one. destruct (c_load o); [|reflexivity]. destruct (c_positions o); [reflexivity|]. destruct (c_conn o) as [[c|]|]; try reflexivity. destruct (object_named (done ++ o :: r) c); reflexivity. }
  rewrite X, IH, <- app_assoc. reflexivity.
Qed.
Print Assumptions C110_nothing_refuted.
Example C110_hypotheses_met : let load := mkCobj true (Some "ld") (Some (Some "n")) "Load" None in let node := mkCobj false (Some "n") None "Node" (Some [(Some 1%Q, Some 2%Q, Some 0%Q)]) in
  nth_error [load; node] 0 = Some load /\ c_positions load = None /\ object_named [load; node] "n" = Some node /\ set_load_coordinates (fun _ => true) 1%Q 1%Q 0%Q [load; node] = [mkCobj true (Some "ld") (Some (Some "n")) "Load" (Some []); node].
Proof. repeat split. Qed.
