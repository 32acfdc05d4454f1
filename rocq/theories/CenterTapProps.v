(** C35: loads behind transformers. *)
From Verif Require Import Base StoreModel NetworkModel NetworkSpec NetworkTop NetworkQueries NetworkDown CoordSpec CenterTapModel CenterTapSpec CenterTapProofs.
From Coq Require Import QArith.
Local Open Scope string_scope.
Local Open Scope nat_scope.
Local Open Scope list_scope.

(** After a run without exception every load has found the first transformer above it; the phase loads of other
    phases are dropped, those of missing phases added, and the active ones together have the power that all had;
    no other object changes. *)
Theorem C35_loads : forall es s n windings center fuel ls ws ls' ws',
  build es s = Ok n -> all_named es -> unique_names es ->
  center_tap_load_preprocessing es n windings center fuel ls ws = Ok (ls', ws') ->
  (forall i e, nth_error es i = Some e -> e_cls e = "Load" ->
     exists c t m p phs l l', e_conn e = Some c /\ feeds es (net_di n) c t /\ e_name t = Some (Some m) /\ bears es m p /\ phases_of es windings t phs /\
       nth_error ls i = Some (Some l) /\ nth_error ls' i = Some (Some l') /\ served (center p) m phs l l') /\
  (forall i, (forall e, nth_error es i = Some e -> e_cls e <> "Load") -> nth_error ls' i = nth_error ls i).
Proof.
  intros es s n windings center fuel ls ws ls' ws' Hb AN UN E.
  destruct (center_tap_effect es s n windings center Hb AN UN fuel ls ws ls' ws' E) as (H1 & H2 & _). auto.
Qed.
Print Assumptions C35_loads.

(** The wires of the lines in between, and of no other line. *)
Theorem C35_wires : forall es s n windings center fuel ls ws ls' ws',
  build es s = Ok n -> all_named es -> unique_names es ->
  center_tap_load_preprocessing es n windings center fuel ls ws = Ok (ls', ws') ->
  (forall q k c, nth_error es q = Some k -> carries es (net_di n) k c ->
     exists t phs w w', feeds es (net_di n) c t /\ phases_of es windings t phs /\
       nth_error ws q = Some (Some (Some w)) /\ nth_error ws' q = Some (Some (Some w')) /\ rewired phs w w') /\
  (forall q, (forall k c, nth_error es q = Some k -> ~ carries es (net_di n) k c) -> nth_error ws' q = nth_error ws q).
Proof.
  intros es s n windings center fuel ls ws ls' ws' Hb AN UN E.
  destruct (center_tap_effect es s n windings center Hb AN UN fuel ls ws ls' ws' E) as (_ & _ & H3 & H4). auto.
Qed.
Print Assumptions C35_wires.

(** The first transformer above a node is unique. *)
Theorem C35_one_transformer : forall es s n x t t', build es s = Ok n -> feeds es (net_di n) x t -> feeds es (net_di n) x t' -> t = t'.
Proof. intros es s n x t t' Hb. exact (feeds_fun es s n (build_built _ _ _ Hb) x t t'). Qed.
Print Assumptions C35_one_transformer.

(** If no phase load was dropped before, then the active phases are those of the transformer, and the active
    phase loads have the power of the old ones. *)
Theorem C35_conserves : forall phs old new, settled phs old new -> Forall (fun x => pl_drop x = false) old ->
  (forall x, In x (map pl_phase (active new)) <-> phs x) /\
  (exists p, adds_up (map pl_p (active old)) p /\ adds_up (map pl_p (active new)) p) /\
  (exists q, adds_up (map pl_q (active old)) q /\ adds_up (map pl_q (active new)) q).
Proof.
  intros phs old new S F. split; [exact (settled_active phs old new S F)|].
  assert (E : active old = old).
  { clear S. unfold active. induction F as [|x l H _ IH]; [reflexivity|]. cbn [filter]. rewrite H. cbn. congruence. }
  rewrite E. destruct S as (k & a & _ & _ & _ & _ & _ & _ & P & Q). auto.
Qed.
Print Assumptions C35_conserves.

(** The run succeeds if every load is below a transformer with known phases and has complete data. *)
Theorem C35_succeeds : forall es s n windings center fuel ls ws, build es s = Ok n -> all_named es -> unique_names es ->
  length (d_nodes (net_di n)) < fuel ->
  (forall i e, nth_error es i = Some e -> e_cls e = "Load" -> ready es (net_di n) windings ls ws i e) ->
  exists r, center_tap_load_preprocessing es n windings center fuel ls ws = Ok r.
Proof. exact center_tap_success. Qed.
Print Assumptions C35_succeeds.

(** The load "ld" of the example network is connected to the phases A and B, its transformer to B and C. *)
Definition xwindings (p : nat) : res (list (list (option string))) :=
  if Nat.eqb p 7 then Ok [[Some "B"; Some "C"]; [Some "C"; Some "B"]] else Err EAttr.
Definition xcenter (p : nat) : bool := Nat.eqb p 7.
Definition xload_of (pls : list pload) : load := mkLoad (Some pls) None None None None None.
Definition xloads (pls : list pload) : loads := repeat None 11 ++ [Some (xload_of pls)].
Definition xpls : list pload := [mkPload (Some "A") (Some 4%Q) (Some 1%Q) false; mkPload (Some "B") (Some 2%Q) (Some 0%Q) false].
Definition xan : option (option (list wire)) := Some (Some [mkWire (Some "A") false; mkWire (Some "N") false]).
Definition xwires : wiring := repeat None 6 ++ [xan; None; xan; xan; xan; None].

Definition xrun (ls : loads) (ws : wiring) := center_tap_load_preprocessing xes xnet xwindings xcenter 10 ls ws.
(** The phase loads of "ld" and the wires of "l2" after the run. *)
Definition xview (r : res (loads * wiring)) : option (list pload * list wire) :=
  match r with
  | Ok (ls, ws) => match nth_error ls 11, nth_error ws 8 with
                   | Some (Some l), Some (Some (Some w)) => match l_phases l with Some pls => Some (pls, w) | None => None end
                   | _, _ => None
                   end
  | Err _ => None
  end.

Example C35_hypotheses_met :
  build xes "s" = Ok xnet /\ all_named xes /\ unique_names xes /\ length (d_nodes (net_di xnet)) < 10 /\
  xview (xrun (xloads xpls) xwires) =
    Some ([mkPload (Some "A") (Some (6 # 2)%Q) (Some (1 # 2)%Q) true; mkPload (Some "B") (Some (6 # 2)%Q) (Some (1 # 2)%Q) false;
           mkPload (Some "C") (Some (6 # 2)%Q) (Some (1 # 2)%Q) false],
          [mkWire (Some "A") true; mkWire (Some "N") false; mkWire (Some "B") false; mkWire (Some "C") false]).
Proof.
  split; [exact xnet_built|]. split; [exact xes_named|]. split; [|split; [vm_compute; lia|vm_compute; reflexivity]].
  intros i j e e' x Hi Hj Hx Hx'.
  assert (K : NoDup (map e_name xes)) by (vm_compute; repeat constructor; cbn; intuition congruence).
  rewrite NoDup_nth_error in K. apply K; [rewrite map_length; apply nth_error_Some; congruence|].
  rewrite !nth_error_map, Hi, Hj. cbn. congruence.
Qed.

Example C35_ready_met : forall i e, nth_error xes i = Some e -> e_cls e = "Load" -> ready xes (net_di xnet) xwindings (xloads xpls) xwires i e.
Proof.
  intros i e Hi Hl.
  assert (i = 11).
  { do 12 (destruct i as [|i]; [first [reflexivity|cbn in Hi; injection Hi as <-; discriminate]|]). cbn in Hi. destruct i; discriminate. }
  subst i. cbn in Hi. injection Hi as <-.
  exists "d", (xtrafo "t1" "a" "b"), "t1", 7. do 4 eexists. split; [reflexivity|]. split.
  { exists "b", "a". split; [|split; [eexists; vm_compute; tauto|split; [|reflexivity]]].
    - apply asc_up with (y := "b"); [eexists; vm_compute; tauto| |constructor].
      intros j (u & v & E & H & _). assert (Hj : In j xes) by (rewrite E; apply in_app_iff; right; left; reflexivity).
      unfold xes in Hj. cbn [In] in Hj. unfold spans in H.
      repeat (destruct Hj as [<-|Hj]; [first [intros Q; discriminate|exfalso; cbn in H; destruct H as [[H1 H2]|[H1 H2]]; discriminate]|]). destruct Hj.
    - exists [xnode "s"; xnode "a"; xnode "b"; xnode "c"; xnode "d"; xnode "z"; xline "l1" "s" "a" 10].
      exists [xline "l2" "d" "b" 3; xline "l3" "c" "b" 4; xline "l4" "c" "s" 7; xload "ld" "d"]. split; [reflexivity|]. split; [left; split; reflexivity|].
      intros j Hj. unfold spans. cbn [In] in Hj. repeat (destruct Hj as [<-|Hj]; [split; intros [Q1 Q2]; cbn in Q1, Q2; discriminate|]). destruct Hj. }
  split; [reflexivity|]. split; [apply lookup_spec; vm_compute; reflexivity|]. split; [reflexivity|]. split.
  { split; [|split].
    - intros w w' [<-|[<-|[]]] [<-|[<-|[]]]; reflexivity.
    - intros x (w & [<-|[<-|[]]] & H); cbn in H; intuition congruence.
    - exists (Some "B"), [Some "B"; Some "C"]. split; left; reflexivity. }
  split; [reflexivity|]. split; [reflexivity|]. split; [repeat constructor; discriminate|].
  intros k q (z & y & _ & _ & _ & C) Hq.
  do 12 (destruct q as [|q]; [cbn in Hq; injection Hq as <-; first [discriminate|do 2 eexists; reflexivity]|]). cbn in Hq. destruct q; discriminate.
Qed.

(** The full statement fails on a model in which phase loads are dropped already, for instance by an earlier run:
    their power is counted again.  Here the active power of one load goes from 6 to 9. *)
Theorem C35_second_run_refuted : exists ls ws ls' ws' ls'' ws'' pls' pls'' w' w'' p p',
  xrun ls ws = Ok (ls', ws') /\ xrun ls' ws' = Ok (ls'', ws'') /\
  xview (Ok (ls', ws')) = Some (pls', w') /\ xview (Ok (ls'', ws'')) = Some (pls'', w'') /\
  adds_up (map pl_p (active pls')) p /\ adds_up (map pl_p (active pls'')) p' /\ ~ (p == p')%Q.
Proof.
  exists (xloads xpls), xwires. do 8 eexists. exists 6%Q, 9%Q.
  split; [vm_compute; reflexivity|]. split; [vm_compute; reflexivity|]. split; [vm_compute; reflexivity|]. split; [vm_compute; reflexivity|].
  split; [eexists; split; [cbn [active filter map negb pl_drop pl_p]; instantiate (1 := [_; _]); reflexivity|reflexivity]|].
  split; [eexists; split; [cbn [active filter map negb pl_drop pl_p]; instantiate (1 := [_; _]); reflexivity|reflexivity]|].
  vm_compute. discriminate.
Qed.
Print Assumptions C35_second_run_refuted.
