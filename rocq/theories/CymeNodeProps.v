From Coq Require Import List String Ascii Bool Arith Lia ZArith QArith.
From Verif Require Import Base BaseFacts TextModel CsvModel CsvSpec GlmSpec CymeMapModel CymeParseModel CymeParseSpec CymeParseProofs CymeSecModel CymeSecSpec CymeSecProofs CymeNodeModel CymeNodeSpec CymeNodeProofs.
Import ListNotations.
Local Open Scope string_scope.
Local Open Scope nat_scope.
Local Open Scope list_scope.

(** ** C105: the nodes and head nodes of a CYME network file *)

Definition node_attrs := ["nodeid"; "coordx"; "coordy"; "ratedvoltage"].
Definition bus_attrs := ["nodeid"; "coordx1"; "coordy1"; "coordx2"; "coordy2"; "ratedvoltage"].
Definition connector_attrs := ["nodeid"; "coordx"; "coordy"].
Lemma nodup_attrs : NoDup node_attrs /\ NoDup bus_attrs /\ NoDup connector_attrs /\ NoDup ["nodeid"; "networkid"].
Proof. repeat split; repeat constructor; cbn; intuition congruence. Qed.

(** Every row of the node part is one node, in order: its name, its voltage and its position are those of the row. *)
Theorem C105_nodes : forall V (num : string -> option V) content names body,
  has_part "[NODE]" names body content -> Forall (fun l => substr_in "=" l = false) body -> outside "[NODE CONNECTOR]" content ->
  exists recs nodes, parse_nodes V num content = Ok nodes /\
    records_of [] (map (pair (Announced node_attrs names)) (filter is_row body)) recs /\ Forall2 (node_of num []) recs nodes.
Proof.
  intros V num content names body HP NE OC.
  destruct (part_read_add "node" "[NODE]" node_attrs bus_attrs node_columns names body content eq_refl (proj1 nodup_attrs) HP NE) as (recs & E & R).
  pose proof (outside_read "node_connector" "[NODE CONNECTOR]" connector_attrs node_columns [] content eq_refl OC) as C.
  exists recs, (map (make_node V num []) recs). unfold parse_nodes. change (read_object "node" _ _ _ content) with (read_object "node" node_attrs node_columns bus_attrs content).
  rewrite E. cbn [bind]. change (read_object "node_connector" _ _ _ content) with (read_object "node_connector" connector_attrs node_columns [] content).
  rewrite C. cbn [bind]. split; [reflexivity|]. split; [exact R|]. clear. induction recs; cbn [map]; constructor; [apply make_node_of; constructor|exact IHrecs].
Qed.
Print Assumptions C105_nodes.

(** With a second format the rows after it are buses: they reach from their first position over their connectors to
    their second one. *)
Theorem C105_buses : forall V (num : string -> option V) content names b1 f2 names2 b2 cnames cbody,
  has_part "[NODE]" names (b1 ++ f2 :: b2) content -> Forall (fun l => substr_in "=" l = false) b1 -> format_line f2 names2 ->
  has_part "[NODE CONNECTOR]" cnames cbody content ->
  exists recs conns nodes, parse_nodes V num content = Ok nodes /\
    records_of [] (map (pair (Announced node_attrs names)) (filter is_row b1) ++ map (pair (Announced bus_attrs names2)) (filter is_row b2)) recs /\
    records_of [] (map (pair (Announced connector_attrs cnames)) (filter is_row cbody)) conns /\ Forall2 (node_of num conns) recs nodes.
Proof.
  intros V num content names b1 f2 names2 b2 cnames cbody HP NE F2 HC. destruct nodup_attrs as (N1 & N2 & N3 & _).
  destruct (part_read_second "node" "[NODE]" node_attrs bus_attrs node_columns names b1 f2 names2 b2 content eq_refl N1 N2) as (recs & E & R); try assumption; [discriminate|].
  destruct (part_read "node_connector" "[NODE CONNECTOR]" connector_attrs node_columns cnames cbody content eq_refl N3 HC) as (conns & C & RC).
  exists recs, conns, (map (make_node V num conns) recs). unfold parse_nodes. change (read_object "node" _ _ _ content) with (read_object "node" node_attrs node_columns bus_attrs content).
  rewrite E. cbn [bind]. change (read_object "node_connector" _ _ _ content) with (read_object "node_connector" connector_attrs node_columns [] content).
  rewrite C. cbn [bind]. split; [reflexivity|]. split; [exact R|]. split; [exact RC|].
  pose proof (records_keys _ _ _ RC) as ND. clear -ND. induction recs; cbn [map]; constructor; [now apply make_node_of|exact IHrecs].
Qed.
Print Assumptions C105_buses.

(** Every row of the head node part with both cells is a feeder with its head node, both trimmed and in lower case. *)
Theorem C105_head_nodes : forall content names body jn jh rows,
  has_part "[HEADNODES]" names body content -> announced names "networkid" jn -> announced names "nodeid" jh ->
  Forall2 (fun l r => exists cs cn ch, cells l cs /\ nth_error cs jn = Some cn /\ nth_error cs jh = Some ch /\ padded cn (fst r) /\ padded ch (snd r))
    (filter is_row body) rows ->
  parse_head_nodes content = Ok (map (fun r => (lower (fst r), lower (snd r))) rows).
Proof.
  intros content names body jn jh rows HP AN AH F. destruct nodup_attrs as (_ & _ & _ & ND).
  destruct (part_read "headnodes" "[HEADNODES]" ["nodeid"; "networkid"] [("nodeid", 0); ("networkid", 1)] names body content eq_refl ND HP) as (recs & E & L & R).
  unfold parse_head_nodes. rewrite E. cbn [bind]. clear E HP.
  assert (Q : forall i l r x, nth_error (filter is_row body) i = Some l -> nth_error rows i = Some r -> nth_error recs i = Some x ->
    (exists cs cn ch, cells l cs /\ nth_error cs jn = Some cn /\ nth_error cs jh = Some ch /\ padded cn (fst r) /\ padded ch (snd r)) ->
    (do n <- of_opt EKey (dget (snd x) "networkid"); do h <- of_opt EKey (dget (snd x) "nodeid"); Ok (lower (strip n), lower (strip h))) = Ok (lower (fst r), lower (snd r))).
  { intros i l r x El Er Ex (cs & cn & ch & C & N & H & PN & PH).
    destruct (R i (Announced ["nodeid"; "networkid"] names, l) x) as (cs' & C' & _ & D); [now rewrite nth_error_map, El|exact Ex|].
    cbn [snd] in C'. apply cells_split in C, C'. subst cs'. rewrite <- C in D.
    assert (DN : dget (snd x) "networkid" = Some cn) by (apply D; right; split; [reflexivity|]; split; [cbn; auto|]; exists jn; now split).
    assert (DH : dget (snd x) "nodeid" = Some ch) by (apply D; right; split; [reflexivity|]; split; [cbn; auto|]; exists jh; now split).
    rewrite DN, DH. cbn [of_opt bind]. now rewrite (strip_padded _ _ PN), (strip_padded _ _ PH). }
  rewrite map_length in L. clear R AN AH ND. revert recs L Q. induction F as [|l r ls rs P F IH]; intros [|x recs] L Q; try discriminate; [reflexivity|].
  cbn [mapM map]. match goal with |- match ?a with _ => _ end = _ => replace a with (Ok (lower (fst r), lower (snd r))) by (symmetry; exact (Q 0 l r x eq_refl eq_refl eq_refl P)) end. rewrite IH; [reflexivity|now injection L|].
  intros i l' r' x' A B C. apply (Q (S i) l' r' x' A B C).
Qed.
Print Assumptions C105_head_nodes.

(** The connections of a substation are marked when the model knows the names in the cells as they are; a name that it
    does not know ends the reading. *)
Theorem C105_connections : forall names content cols body j cells_,
  has_part "[SUBNETWORK CONNECTIONS]" cols body content -> announced cols "nodeid" j ->
  Forall2 (fun l c => exists cs, cells l cs /\ nth_error cs j = Some c) (filter is_row body) cells_ ->
  (Forall (fun c => In c names) cells_ -> parse_subnetwork_connections names content = Ok cells_) /\
  (~ Forall (fun c => In c names) cells_ -> parse_subnetwork_connections names content = Err EKey).
Proof.
  intros names content cols body j cells_ HP AN F.
  destruct (part_read "subnetwork_connections" "[SUBNETWORK CONNECTIONS]" ["nodeid"] [("nodeid", 1)] cols body content eq_refl) as (recs & E & L & R); [repeat constructor; cbn; tauto|exact HP|].
  unfold parse_subnetwork_connections. rewrite E. cbn [bind]. clear E HP.
  assert (Q : forall i l c x, nth_error (filter is_row body) i = Some l -> nth_error cells_ i = Some c -> nth_error recs i = Some x ->
    (exists cs, cells l cs /\ nth_error cs j = Some c) -> dget (snd x) "nodeid" = Some c).
  { intros i l c x El Er Ex (cs & C & N).
    destruct (R i (Announced ["nodeid"] cols, l) x) as (cs' & C' & _ & D); [now rewrite nth_error_map, El|exact Ex|].
    cbn [snd] in C'. apply cells_split in C, C'. subst cs'. rewrite <- C in D.
    apply D; right; split; [reflexivity|]; split; [cbn; auto|]; exists j; now split. }
  rewrite map_length in L. clear R AN.
  assert (M : mapM (fun x => do n <- of_opt EKey (dget (snd x) "nodeid"); if smem n names then Ok n else Err EKey) recs =
              mapM (fun n => if smem n names then Ok n else Err EKey) cells_).
  { revert recs L Q. induction F as [|l r ls rs P F IH]; intros [|x recs] L Q; try discriminate; [reflexivity|].
    cbn [mapM]. match goal with |- context [of_opt EKey ?a] => replace a with (Some r) by (symmetry; exact (Q 0 l r x eq_refl eq_refl eq_refl P)) end. cbn [of_opt bind]. destruct (smem r names); [|reflexivity].
    rewrite IH; [reflexivity|now injection L|]. intros i l' r' x' A B C. apply (Q (S i) l' r' x' A B C). }
  rewrite M. clear. induction cells_ as [|c l [IH1 IH2]]; [split; [reflexivity|intros N; now destruct N]|]. cbn [mapM]. split.
  - intros A. inversion A as [|? ? H1 H2]; subst. apply smem_In in H1. rewrite H1, (IH1 H2). reflexivity.
  - intros N. destruct (smem c names) eqn:S; [|reflexivity]. rewrite IH2; [reflexivity|]. intros A. apply N. constructor; [now apply smem_In|exact A].
Qed.
Print Assumptions C105_connections.

(** ** Examples *)
Definition nl (s : string) : string := (s ++ newline)%string.
(** A stand-in for [float]: decimal digits. *)
Definition digits (s : string) : option nat :=
  let s := strip s in
  if String.eqb s "" then None else
  fold_left (fun acc c => match acc with Some n => if (48 <=? nat_of_ascii c) && (nat_of_ascii c <=? 57) then Some (10 * n + (nat_of_ascii c - 48)) else None | None => None end)
    (list_ascii_of_string s) (Some 0).
Definition nodes_body := map nl ["N1,10,20,12"; "N2,30,x,12"; "N1,11,21,12"].
Definition nodes_file := map nl ["[SI]"; ""] ++ (nl "[NODE]" :: nl "FORMAT_NODE=NodeID,CoordX,CoordY,RatedVoltage" :: nodes_body ++ [nl ""]) ++
  (nl "[HEADNODES]" :: nl "FORMAT_HEADNODES=NodeID,NetworkID" :: map nl ["N1,Feeder1"] ++ [nl ""]).
Ltac outs := unfold outside; cbn [map app]; repeat (apply Forall_cons; [reflexivity|]); apply Forall_nil.
Ltac fmt k := exists k, newline; repeat split; cbn; try discriminate; auto; repeat constructor; cbn; repeat split; discriminate.
Lemma nodes_part : has_part "[NODE]" ["NodeID"; "CoordX"; "CoordY"; "RatedVoltage"] nodes_body nodes_file.
Proof.
  exists (map nl ["[SI]"; ""]), (nl "[NODE]" :: nl "FORMAT_NODE=NodeID,CoordX,CoordY,RatedVoltage" :: nodes_body ++ [nl ""]).
  eexists. split; [reflexivity|]. split; [outs|]. split; [|outs].
  exists (nl "[NODE]"), (nl "FORMAT_NODE=NodeID,CoordX,CoordY,RatedVoltage"), (nl ""). split; [reflexivity|]. split; [reflexivity|]. split; [reflexivity|].
  split; [fmt "FORMAT_NODE"|]. split; [repeat constructor; cbn; lia|cbn; lia].
Qed.
Lemma heads_part : has_part "[HEADNODES]" ["NodeID"; "NetworkID"] (map nl ["N1,Feeder1"]) nodes_file.
Proof.
  exists (map nl ["[SI]"; ""] ++ (nl "[NODE]" :: nl "FORMAT_NODE=NodeID,CoordX,CoordY,RatedVoltage" :: nodes_body ++ [nl ""])).
  exists (nl "[HEADNODES]" :: nl "FORMAT_HEADNODES=NodeID,NetworkID" :: map nl ["N1,Feeder1"] ++ [nl ""]), [].
  split; [reflexivity|]. split; [outs|]. split; [|outs].
  exists (nl "[HEADNODES]"), (nl "FORMAT_HEADNODES=NodeID,NetworkID"), (nl ""). split; [reflexivity|]. split; [reflexivity|]. split; [reflexivity|].
  split; [fmt "FORMAT_HEADNODES"|]. split; [repeat constructor; cbn; lia|cbn; lia].
Qed.
Definition buses_file := map nl ["[NODE]"; "FORMAT_NODE=NodeID,CoordX,CoordY"; "N1,1,2"; "FORMAT_NODE=NodeID,CoordX1,CoordY1,CoordX2,CoordY2"; "B1,1,1,9,9"; "";
   "[NODE CONNECTOR]"; "FORMAT_NODECONNECTOR=NodeID,CoordX,CoordY"; "B1,3,3"; "B1,5,5"; ""].
Example C105_hypotheses_met :
  has_part "[NODE]" ["NodeID"; "CoordX"; "CoordY"; "RatedVoltage"] nodes_body nodes_file /\ outside "[NODE CONNECTOR]" nodes_file /\
  Forall (fun l => substr_in "=" l = false) nodes_body /\
  parse_nodes nat digits nodes_file = Ok [mkNode "N1" [(10, 20)] (Some 12); mkNode "N2" [] (Some 12); mkNode "N1*" [(11, 21)] (Some 12)] /\
  has_part "[HEADNODES]" ["NodeID"; "NetworkID"] (map nl ["N1,Feeder1"]) nodes_file /\ parse_head_nodes nodes_file = Ok [("feeder1", "n1")] /\
  parse_nodes nat digits buses_file = Ok [mkNode "N1" [(1, 2)] None; mkNode "B1" [(1, 1); (3, 3); (5, 5); (9, 9)] None].
Proof.
  split; [exact nodes_part|]. split; [outs|]. split; [outs|]. split; [vm_compute; reflexivity|]. split; [exact heads_part|]. split; vm_compute; reflexivity.
Qed.
Definition connections_file := map nl ["[SUBNETWORK CONNECTIONS]"; "FORMAT_SUBNETWORKCONNECTIONS=SubNetID,NodeID,ConnectorCoordX"; "S1,N1,3"; ""].
Example C105_more_met :
  has_part "[NODE]" ["NodeID"; "CoordX"; "CoordY"] (map nl ["N1,1,2"] ++ nl "FORMAT_NODE=NodeID,CoordX1,CoordY1,CoordX2,CoordY2" :: map nl ["B1,1,1,9,9"]) buses_file /\
  format_line (nl "FORMAT_NODE=NodeID,CoordX1,CoordY1,CoordX2,CoordY2") ["NodeID"; "CoordX1"; "CoordY1"; "CoordX2"; "CoordY2"] /\
  has_part "[NODE CONNECTOR]" ["NodeID"; "CoordX"; "CoordY"] (map nl ["B1,3,3"; "B1,5,5"]) buses_file /\
  has_part "[SUBNETWORK CONNECTIONS]" ["SubNetID"; "NodeID"; "ConnectorCoordX"] (map nl ["S1,N1,3"]) connections_file.
Proof.
  split; [|split; [fmt "FORMAT_NODE"|split]].
  - exists [], (firstn 6 buses_file), (skipn 6 buses_file). split; [reflexivity|]. split; [outs|]. split; [|outs].
    exists (nl "[NODE]"), (nl "FORMAT_NODE=NodeID,CoordX,CoordY"), (nl ""). split; [reflexivity|]. split; [reflexivity|]. split; [reflexivity|].
    split; [fmt "FORMAT_NODE"|]. split; [repeat constructor; cbn; lia|cbn; lia].
  - exists (firstn 6 buses_file), (skipn 6 buses_file), []. split; [reflexivity|]. split; [outs|]. split; [|outs].
    exists (nl "[NODE CONNECTOR]"), (nl "FORMAT_NODECONNECTOR=NodeID,CoordX,CoordY"), (nl ""). split; [reflexivity|]. split; [reflexivity|]. split; [reflexivity|].
    split; [fmt "FORMAT_NODECONNECTOR"|]. split; [repeat constructor; cbn; lia|cbn; lia].
  - exists [], connections_file, []. split; [reflexivity|]. split; [outs|]. split; [|outs].
    exists (nl "[SUBNETWORK CONNECTIONS]"), (nl "FORMAT_SUBNETWORKCONNECTIONS=SubNetID,NodeID,ConnectorCoordX"), (nl "").
    split; [reflexivity|]. split; [reflexivity|]. split; [reflexivity|].
    split; [fmt "FORMAT_SUBNETWORKCONNECTIONS"|]. split; [repeat constructor; cbn; lia|cbn; lia].
Qed.
Example C105_connections_met :
  parse_subnetwork_connections ["N1"] (map nl ["[SUBNETWORK CONNECTIONS]"; "FORMAT_SUBNETWORKCONNECTIONS=SubNetID,NodeID,ConnectorCoordX"; "S1,N1,3"; ""]) = Ok ["N1"].
Proof. vm_compute. reflexivity. Qed.

(** The head node of a feeder names no node when its name has capital letters: nodes keep them, head nodes do not. *)
Theorem C105_head_refuted : exists content nodes feeder head, parse_nodes nat digits content = Ok nodes /\
  parse_head_nodes content = Ok [(feeder, head)] /\ In (nl "N1,Feeder1") content /\ In "N1" (map nd_name nodes) /\ ~ In head (map nd_name nodes).
Proof.
  exists nodes_file. do 3 eexists. split; [vm_compute; reflexivity|]. split; [vm_compute; reflexivity|].
  split; [cbn; tauto|]. split; [now left|]. intros [H|[H|[H|[]]]]; discriminate.
Qed.
Print Assumptions C105_head_refuted.

(** A node that is listed twice becomes a second node with another name. *)
Theorem C105_twice_refuted : exists content nodes, parse_nodes nat digits content = Ok nodes /\
  map nd_name nodes = ["N1"; "N2"; "N1*"] /\ Forall (fun l => substr_in "N1*" l = false) content.
Proof.
  exists nodes_file. eexists. split; [vm_compute; reflexivity|]. split; [reflexivity|]. repeat constructor.
Qed.
Print Assumptions C105_twice_refuted.

(** A connection whose node is in the last column is not found: the line ending is part of the name. *)
Theorem C105_connection_refuted :
  parse_subnetwork_connections ["N1"] (map nl ["[SUBNETWORK CONNECTIONS]"; "FORMAT_SUBNETWORKCONNECTIONS=SubNetID,NodeID"; "S1,N1"; ""]) = Err EKey.
Proof. vm_compute. reflexivity. Qed.
Print Assumptions C105_connection_refuted.
