From Coq Require Import List String Ascii Bool Arith Lia ZArith QArith.
From Verif Require Import Base BaseFacts TextModel CsvModel CsvSpec GlmSpec CymeMapModel CymeParseModel CymeParseSpec CymeParseProofs CymeSecModel CymeSecSpec CymeSecProofs CymeNodeModel CymeNodeSpec CymeNodeProofs.
Import ListNotations.
Local Open Scope string_scope.
Local Open Scope nat_scope.
Local Open Scope list_scope.

(** ** C105, files without format lines: the columns are those of the CYME manual *)

(** The file has one part with this header, without a format line: rows without "=", and a short line after them. *)
Definition has_bare_part (h : string) (body : list string) (content : list string) : Prop :=
  exists pre header b post, content = pre ++ header :: body ++ b :: post /\ outside h pre /\ outside h post /\
    substr_in h header = true /\ Forall (fun l => 2 < String.length l /\ substr_in "=" l = false) body /\ String.length b <= 2 /\
    (forall l r, body = l :: r -> substr_in "format" (lower l) = false) /\ substr_in "format" (lower b) = false.

(** Where the attributes are without a format. *)
Definition usual_node : columns := [("nodeid", 0); ("coordx", 2); ("coordy", 3); ("ratedvoltage", 48)].
Definition usual_head : columns := [("nodeid", 0); ("networkid", 1)].

Lemma bare_read obj h attrs add mapping usual body content : dget cyme_headers obj = Some [HStr h] ->
  (forall k, In k attrs -> dget mapping k = dget usual k) -> has_bare_part h body content ->
  exists recs, read_object obj attrs mapping add content = Ok recs /\ records_of [] (map (pair (Default attrs usual)) (filter is_row body)) recs.
Proof.
  intros E AG (pre & header & b & post & -> & OP & OQ & H & FB & LB & FF & FS). unfold read_object.
  destruct (body_until [] (NoDup_nil _) body (Default attrs usual) attrs mapping add [] [] (b :: post)) as (recs & A & B).
  { exact FB. }
  { split; [reflexivity|]. intros k j I. cbn [column]. now rewrite (AG k I). }
  { apply records_nil. }
  exists recs. split; [|exact B].
  assert (HH : parser_helper cyme_headers [obj] attrs mapping [] add header (body ++ b :: post) = Ok (recs, post)).
  { assert (ST : exists l r, body ++ b :: post = l :: r /\ substr_in "format" (lower l) = false).
    { destruct body as [|l r]; [exists b, post; auto|]. exists l, (r ++ b :: post). split; [reflexivity|]. now apply (FF l r). }
    destruct ST as (l & r & EB & NF). rewrite EB in *.
    rewrite helper_head; [|now apply (plain_one obj h)|now apply (heads_one obj h)]. rewrite NF. rewrite A. cbn [body_loop].
    destruct (Nat.ltb_spec 2 (String.length b)); [lia|reflexivity]. }
  apply (read_all_more cyme_headers [obj] attrs mapping [] add (length pre + (1 + (length post + 1)))).
  { rewrite app_length. cbn [length]. rewrite app_length. cbn [length]. lia. }
  rewrite read_all_skip; [|now apply (plain_one obj h)|now apply (outside_heads obj h)]. cbn [Nat.add read_all]. rewrite HH. cbn [bind].
  rewrite update_fresh by (cbn; exact (records_keys _ _ _ B)). cbn [app].
  rewrite <- (app_nil_r post) at 2. rewrite read_all_skip; [reflexivity|now apply (plain_one obj h)|now apply (outside_heads obj h)].
Qed.

(** Every row of a node part without a format is one node, in order: its name is the first cell, its position the third
    and fourth, its voltage the forty-ninth. *)
Theorem C105_nodes_without_format : forall V (num : string -> option V) content body,
  has_bare_part "[NODE]" body content -> outside "[NODE CONNECTOR]" content ->
  exists recs nodes, parse_nodes V num content = Ok nodes /\
    records_of [] (map (pair (Default ["nodeid"; "coordx"; "coordy"; "ratedvoltage"] usual_node)) (filter is_row body)) recs /\
    Forall2 (node_of num []) recs nodes.
Proof.
  intros V num content body HP OC.
  destruct (bare_read "node" "[NODE]" ["nodeid"; "coordx"; "coordy"; "ratedvoltage"] ["nodeid"; "coordx1"; "coordy1"; "coordx2"; "coordy2"; "ratedvoltage"]
              node_columns usual_node body content eq_refl) as (recs & E & R); [|exact HP|].
  { intros k [<-|[<-|[<-|[<-|[]]]]]; reflexivity. }
  exists recs, (map (make_node V num []) recs). unfold parse_nodes. rewrite E. cbn [bind].
  rewrite (outside_read "node_connector" "[NODE CONNECTOR]" ["nodeid"; "coordx"; "coordy"] node_columns [] content eq_refl OC). cbn [bind].
  split; [reflexivity|]. split; [exact R|]. clear. induction recs; cbn [map]; constructor; [apply make_node_of; constructor|exact IHrecs].
Qed.
Print Assumptions C105_nodes_without_format.

(** Every row of a head node part without a format is a feeder: the head node first, then the name of the feeder. *)
Theorem C105_head_nodes_without_format : forall content body rows,
  has_bare_part "[HEADNODES]" body content ->
  Forall2 (fun l r => exists ch cn cs, cells l (ch :: cn :: cs) /\ padded cn (fst r) /\ padded ch (snd r)) (filter is_row body) rows ->
  parse_head_nodes content = Ok (map (fun r => (lower (fst r), lower (snd r))) rows).
Proof.
  intros content body rows HP F.
  destruct (bare_read "headnodes" "[HEADNODES]" ["nodeid"; "networkid"] [] [("nodeid", 0); ("networkid", 1)] usual_head body content eq_refl) as (recs & E & L & R); [|exact HP|].
  { intros k [<-|[<-|[]]]; reflexivity. }
  unfold parse_head_nodes. rewrite E. cbn [bind]. clear E HP.
  assert (Q : forall i l r x, nth_error (filter is_row body) i = Some l -> nth_error rows i = Some r -> nth_error recs i = Some x ->
    (exists ch cn cs, cells l (ch :: cn :: cs) /\ padded cn (fst r) /\ padded ch (snd r)) ->
    (do n <- of_opt EKey (dget (snd x) "networkid"); do h <- of_opt EKey (dget (snd x) "nodeid"); Ok (lower (strip n), lower (strip h))) = Ok (lower (fst r), lower (snd r))).
  { intros i l r x El Er Ex (ch & cn & cs & C & PN & PH).
    destruct (R i (Default ["nodeid"; "networkid"] usual_head, l) x) as (cs' & C' & _ & D); [now rewrite nth_error_map, El|exact Ex|].
    cbn [snd] in C'. apply cells_split in C, C'. subst cs'. rewrite <- C in D.
    assert (DN : dget (snd x) "networkid" = Some cn) by (apply D; right; split; [reflexivity|]; split; [cbn; auto|]; exists 1; now split).
    assert (DH : dget (snd x) "nodeid" = Some ch) by (apply D; right; split; [reflexivity|]; split; [cbn; auto|]; exists 0; now split).
    rewrite DN, DH. cbn [of_opt bind]. now rewrite (strip_padded _ _ PN), (strip_padded _ _ PH). }
  rewrite map_length in L. clear R. revert recs L Q. induction F as [|l r ls rs P F IH]; intros [|x recs] L Q; try discriminate; [reflexivity|].
  cbn [mapM map]. match goal with |- match ?a with _ => _ end = _ => replace a with (Ok (lower (fst r), lower (snd r))) by (symmetry; exact (Q 0 l r x eq_refl eq_refl eq_refl P)) end. rewrite IH; [reflexivity|now injection L|].
  intros i l' r' x' A B C. apply (Q (S i) l' r' x' A B C).
Qed.
Print Assumptions C105_head_nodes_without_format.

(** Without a format the connections of a substation are in the second column. *)
Theorem C105_connections_without_format : forall names content body cells_,
  has_bare_part "[SUBNETWORK CONNECTIONS]" body content ->
  Forall2 (fun l c => exists c0 cs, cells l (c0 :: c :: cs)) (filter is_row body) cells_ ->
  (Forall (fun c => In c names) cells_ <-> parse_subnetwork_connections names content = Ok cells_).
Proof.
  intros names content body cells_ HP F.
  destruct (bare_read "subnetwork_connections" "[SUBNETWORK CONNECTIONS]" ["nodeid"] [] [("nodeid", 1)] [("nodeid", 1)] body content eq_refl) as (recs & E & L & R); [reflexivity|exact HP|].
  unfold parse_subnetwork_connections. rewrite E. cbn [bind]. clear E HP.
  assert (Q : forall i l c x, nth_error (filter is_row body) i = Some l -> nth_error recs i = Some x ->
    (exists c0 cs, cells l (c0 :: c :: cs)) -> dget (snd x) "nodeid" = Some c).
  { intros i l c x El Ex (c0 & cs & C).
    destruct (R i (Default ["nodeid"] [("nodeid", 1)], l) x) as (cs' & C' & _ & D); [now rewrite nth_error_map, El|exact Ex|].
    cbn [snd] in C'. apply cells_split in C, C'. subst cs'. rewrite <- C in D.
    apply D; right; split; [reflexivity|]; split; [cbn; auto|]; exists 1; now split. }
  rewrite map_length in L. clear R. revert recs L Q. induction F as [|l c ls cs P F IH]; intros [|x recs] L Q; try discriminate; [split; [reflexivity|constructor]|].
  assert (IH' := IH recs ltac:(now injection L) (fun i l' c' x' A B => Q (S i) l' c' x' A B)). clear IH.
  assert (HX : (do n <- of_opt EKey (dget (snd x) "nodeid"); if smem n names then Ok n else Err EKey) = if smem c names then Ok c else Err EKey).
  { rewrite (Q 0 l c x eq_refl eq_refl P). reflexivity. }
  cbn [mapM]. match goal with |- context [match ?a with Ok _ => _ | Err e => Err e end] => replace a with (if smem c names then Ok c else Err EKey) by (symmetry; exact HX) end.
  destruct (smem c names) eqn:M.
  - apply smem_In in M. match goal with |- context [mapM ?f recs] => destruct (mapM f recs) as [v|] eqn:EM end.
    + split.
      * intros H. apply Forall_cons_iff in H. destruct H as [_ H]. apply IH' in H. injection H as ->. reflexivity.
      * intros H. injection H as ->. constructor; [exact M|]. now apply IH'.
    + split; [|discriminate]. intros H. apply Forall_cons_iff in H. destruct H as [_ H]. apply IH' in H. discriminate.
  - split; [|discriminate]. intros H. apply Forall_cons_iff in H. destruct H as [H _]. apply smem_In in H. congruence.
Qed.
Print Assumptions C105_connections_without_format.

(** The hypotheses are met by a small file. *)
Example C105_without_format_met :
  has_bare_part "[HEADNODES]" ["N1,FEEDER1,0"] ["[GENERAL]"; "[HEADNODES]"; "N1,FEEDER1,0"; ""; "x"] /\
  parse_head_nodes ["[GENERAL]"; "[HEADNODES]"; "N1,FEEDER1,0"; ""; "x"] = Ok [("feeder1", "n1")] /\
  has_bare_part "[NODE]" ["n1,x,3,4"] ["[NODE]"; "n1,x,3,4"; ""] /\
  parse_nodes string Some ["[NODE]"; "n1,x,3,4"; ""] = Ok [mkNode "n1" [("3", "4")] None].
Proof.
  split; [|split; [vm_compute; reflexivity|split; [|vm_compute; reflexivity]]].
  - exists ["[GENERAL]"], "[HEADNODES]", "", ["x"]. split; [reflexivity|]. split; [repeat constructor|]. split; [repeat constructor|].
    split; [reflexivity|]. split; [constructor; [cbn; split; [lia|reflexivity]|constructor]|]. split; [cbn; lia|]. split; [|reflexivity].
    intros l r E. injection E as <- <-. reflexivity.
  - exists [], "[NODE]", "", []. split; [reflexivity|]. split; [constructor|]. split; [constructor|].
    split; [reflexivity|]. split; [constructor; [cbn; split; [lia|reflexivity]|constructor]|]. split; [cbn; lia|]. split; [|reflexivity].
    intros l r E. injection E as <- <-. reflexivity.
Qed.
