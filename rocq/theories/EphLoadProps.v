(** C141: the rows of the loads in the table of the ePhasor writer. *)
From Coq Require Import Lia.
From Verif Require Import Base BaseFacts EphLoadModel.
Local Open Scope string_scope.
Local Open Scope list_scope.

(** ** Specification *)

(** A load by itself, or the loads of the phases of one load. *)
Inductive group := Single (name : string) | Phases (stem : string) (letters : list string).
Definition key (g : group) : string := match g with Single n => n | Phases s _ => s end.
Definition members (g : group) : list string := match g with Single n => [n] | Phases s ls => map (fun l => s ++ l)%string ls end.
Definition phase_letters := ["a"; "b"; "c"; "A"; "B"; "C"].
Definition good (g : group) : Prop :=
  match g with
  | Single n => exists s c, n = (s ++ String c "")%string /\ ~ In (String c "") phase_letters
  | Phases _ ls => ls <> [] /\ forall l, In l ls -> In l phase_letters
  end.
Definition stems (gs : list group) : list string := flat_map (fun g => match g with Single _ => [] | Phases s _ => [s] end) gs.
(** The text in the table: without "load_" in front. *)
Definition is_id (n : string) (i : option string) : Prop :=
  exists t, i = Some t /\ (n = ("load_" ++ t)%string \/ ((forall r, n <> ("load_" ++ r)%string) /\ t = n)).
(** Each member of the k-th group is in row k. *)
Fixpoint rows_from (k : nat) (gs : list group) : list nat :=
  match gs with [] => [] | g :: gs => map (fun _ => k) (members g) ++ rows_from (S k) gs end.

(** ** Proofs *)

Lemma split_last_app s c : split_last (s ++ String c "") = Some (s, c).
Proof. induction s as [|d s IH]; [reflexivity|]. cbn [append split_last]. now rewrite IH. Qed.

Lemma id_ok n : is_id n (Some (id_text n)).
Proof.
  exists (id_text n). split; [reflexivity|]. unfold id_text. destruct (String.eqb_spec (substring 0 5 n) "load_") as [E|E].
  - left. do 5 (destruct n as [|? n]; [discriminate E|]). cbn in E. injection E as -> -> -> -> -> _. reflexivity.
  - right. split; [|reflexivity]. intros r ->. apply E. cbn. destruct r; reflexivity.
Qed.

Lemma letter_mem l : In l phase_letters -> exists c, l = String c "" /\ smem (lower l) ["a"; "b"; "c"] = true.
Proof. intros H. cbn in H. repeat (destruct H as [<-|H]; [eexists; split; reflexivity|]). destruct H. Qed.

Lemma other_mem c : ~ In (String c "") phase_letters -> smem (lower (String c "")) ["a"; "b"; "c"] = false.
Proof.
  intros N. destruct (smem _ _) eqn:E; [|reflexivity]. exfalso. apply N. clear N. revert E.
  destruct c as [[] [] [] [] [] [] [] []]; vm_compute; intros E; try discriminate E; tauto.
Qed.

Lemma set_end {A} (l : list A) x y : set_nth (length l) x (l ++ [y]) = Ok (l ++ [x]).
Proof. induction l as [|z l IH]; [reflexivity|]. cbn [length set_nth app]. rewrite IH. reflexivity. Qed.

Lemma new_row_end ids d rows k d' : new_row (mkAlloc ids (length ids) d rows) k d' = Ok (mkAlloc (ids ++ [Some (id_text k)]) (S (length ids)) d' (rows ++ [length ids])).
Proof. unfold new_row. cbn [a_ids a_next a_rows]. rewrite set_end. reflexivity. Qed.

Lemma foldM_app {A B} (f : A -> B -> res A) l1 l2 : forall s s1, foldM f l1 s = Ok s1 -> foldM f (l1 ++ l2) s = foldM f l2 s1.
Proof.
  induction l1 as [|x l1 IH]; intros s s1 H; [cbn in H; injection H as ->; reflexivity|]. cbn [foldM app] in *.
  destruct (f s x); cbn [bind] in *; [now apply IH | discriminate].
Qed.

Lemma group_placed g ids d rows : good g -> (forall s ls, g = Phases s ls -> dget d s = None) ->
  exists d', foldM place_load (members g) (mkAlloc ids (length ids) d rows) =
    Ok (mkAlloc (ids ++ [Some (id_text (key g))]) (S (length ids)) d' (rows ++ map (fun _ => length ids) (members g))) /\
  (forall t, dget d' t <> None -> dget d t <> None \/ In t (stems [g])).
Proof.
  intros G F. destruct g as [n|s ls]; cbn [good members key stems flat_map app] in *.
  - destruct G as (s & c & -> & N). exists d. split; [|auto]. cbn [foldM map]. unfold place_load. rewrite split_last_app, (other_mem c N).
    cbn [a_dict]. rewrite new_row_end. reflexivity.
  - destruct G as [NE HL]. specialize (F s ls eq_refl). exists (dset d s (length ids)). split.
    + destruct ls as [|l ls]; [congruence|]. destruct (letter_mem l (HL l (or_introl eq_refl))) as (c & -> & M). cbn [map foldM]. unfold place_load at 1.
      rewrite split_last_app, M. cbn [a_dict a_next]. rewrite F, new_row_end. cbn [bind].
      change (rows ++ length ids :: map (fun _ : string => length ids) (map (fun l => (s ++ l)%string) ls))
        with (rows ++ [length ids] ++ map (fun _ : string => length ids) (map (fun l => (s ++ l)%string) ls)). rewrite app_assoc.
      assert (HL' : forall l, In l ls -> In l phase_letters) by (intros l Hl; apply HL; now right). clear HL NE M c.
      generalize (rows ++ [length ids]). induction ls as [|l ls IH]; intros rs; [cbn; now rewrite app_nil_r|].
      destruct (letter_mem l (HL' l (or_introl eq_refl))) as (c & -> & M). cbn [map foldM]. unfold place_load at 1. rewrite split_last_app, M.
      cbn [a_dict a_ids a_rows]. rewrite dget_dset_same. cbn [bind]. rewrite IH by (intros x Hx; apply HL'; now right). rewrite <- app_assoc. reflexivity.
    + intros t H. destruct (String.eqb_spec s t) as [->|N]; [right; now left|]. rewrite dget_dset_other in H by exact N. now left.
Qed.

(** C141: if the loads of the phases of one load follow each other, each load has a row of its own, in order, with its name,
    and all its phases are in that row. *)
Theorem C141_rows : forall gs, Forall good gs -> NoDup (stems gs) ->
  exists ids, place_loads (flat_map members gs) = Ok (ids, rows_from 0 gs) /\ Forall2 is_id (map key gs) ids.
Proof.
  intros gs HG ND. unfold place_loads.
  assert (X : forall gs ids d rows, Forall good gs -> NoDup (stems gs) -> (forall t, In t (stems gs) -> dget d t = None) ->
    exists d', foldM place_load (flat_map members gs) (mkAlloc ids (length ids) d rows) =
      Ok (mkAlloc (ids ++ map (fun g => Some (id_text (key g))) gs) (length ids + length gs) d' (rows ++ rows_from (length ids) gs))).
  { clear. induction gs as [|g gs IH]; intros ids d rows HG ND FR.
    - exists d. cbn. rewrite !app_nil_r, Nat.add_0_r. reflexivity.
    - apply Forall_cons_iff in HG. destruct HG as [G HG]. destruct (group_placed g ids d rows G) as (d1 & E & D).
      { intros s ls ->. apply FR. now left. }
      cbn [flat_map]. rewrite (foldM_app _ _ _ _ _ E).
      assert (LE : length (ids ++ [Some (id_text (key g))]) = S (length ids)) by (rewrite app_length; cbn; lia).
      assert (ST : stems (g :: gs) = stems [g] ++ stems gs) by (unfold stems; cbn [flat_map]; now rewrite app_nil_r).
      rewrite ST in ND, FR.
      destruct (IH (ids ++ [Some (id_text (key g))]) d1 (rows ++ map (fun _ => length ids) (members g)) HG) as (d2 & E2).
      { clear - ND. induction (stems [g]) as [|x l IHl]; [exact ND|]. inversion ND. auto. }
      { intros t I. destruct (dget d1 t) eqn:Q; [|reflexivity]. exfalso. destruct (D t) as [Z|Z]; [congruence| |].
        - apply Z. apply FR. apply in_app_iff. now right.
        - clear - ND I Z. induction (stems [g]) as [|x l IHl]; [destruct Z|]. cbn in ND. inversion ND; subst. destruct Z as [->|Z]; [apply H1, in_app_iff; now right | auto]. }
      rewrite LE in E2. exists d2. rewrite E2. cbn [map rows_from length]. rewrite <- !app_assoc. cbn [app]. rewrite Nat.add_succ_r. reflexivity. }
  destruct (X gs [] [] [] HG ND (fun _ _ => eq_refl)) as (d' & E). cbn [length] in E. rewrite E. cbn [bind a_ids a_rows app].
  eexists. split; [reflexivity|]. clear. induction gs; cbn [map]; constructor; [apply id_ok | assumption].
Qed.
Print Assumptions C141_rows.

(** Refutation of "every load is in the table": when another load stands between two phases of a load, the load after them
    is written over it, its name is lost and a row stays empty. *)
Theorem C141_overwritten_refuted : forall s y z,
  good (Single y) -> good (Single z) -> exists i j,
  place_loads [(s ++ "a")%string; y; (s ++ "b")%string; z] = Ok ([i; j; None], [0; 1; 0; 1]%nat) /\ is_id s i /\ is_id z j.
Proof.
  intros s y z (y' & c & -> & NY) (z' & d & -> & NZ). exists (Some (id_text s)), (Some (id_text (z' ++ String d ""))).
  split; [|split; apply id_ok]. unfold place_loads. cbn [foldM]. unfold place_load. rewrite !split_last_app.
  rewrite (other_mem c NY), (other_mem d NZ).
  change (smem (lower "a") ["a"; "b"; "c"]) with true. change (smem (lower "b") ["a"; "b"; "c"]) with true.
  cbn [a_dict dget new_row a_next a_ids a_rows set_nth bind app dset]. rewrite String.eqb_refl. reflexivity.
Qed.
Print Assumptions C141_overwritten_refuted.

(** The hypotheses are met. *)
Example C141_hypotheses_met :
  Forall good [Phases "load_1" ["a"; "C"]; Single "x2"; Phases "l" ["b"]] /\ NoDup (stems [Phases "load_1" ["a"; "C"]; Single "x2"; Phases "l" ["b"]]) /\
  place_loads ["load_1a"; "load_1C"; "x2"; "lb"] = Ok ([Some "1"; Some "x2"; Some "l"], [0; 0; 1; 2]%nat) /\ good (Single "y1").
Proof.
  assert (G : forall c s, c = "1"%char \/ c = "2"%char -> good (Single (s ++ String c ""))).
  { intros c s H. exists s, c. split; [reflexivity|]. destruct H as [-> | ->]; cbn; intuition discriminate. }
  split; [|split; [|split]].
  - constructor; [cbn; split; [discriminate|]; intros l [<-|[<-|[]]]; tauto|]. constructor; [apply (G "2"%char "x"); auto|].
    constructor; [cbn; split; [discriminate|]; intros l [<-|[]]; tauto | constructor].
  - repeat constructor; cbn; intuition discriminate.
  - reflexivity.
  - apply (G "1"%char "y"). auto.
Qed.
