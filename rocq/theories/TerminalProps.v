(** C62: the phases of secondary windings taken from the loads. *)
From Verif Require Import Base StoreModel NetworkModel NetworkSpec NetworkTop NetworkQueries NetworkDown CoordSpec CenterTapModel CenterTapSpec CenterTapProofs CenterTapProps
  TerminalModel TerminalSpec TerminalProofs.
From Coq Require Import Sorted Lia.
Local Open Scope string_scope.
Local Open Scope nat_scope.
Local Open Scope list_scope.

(** After a run without exception the second winding of a transformer with two or three windings has been matched
    with the loads behind the transformer, in the order of the model; a transformer with three windings gets one
    phase winding more per load.  No other winding and no other object changes. *)
Theorem C62_windings : forall es s n lp fuel ups ws ups' ws',
  build es s = Ok n -> all_named es -> unique_names es -> terminals_to_phases es n lp fuel ups ws = Ok (ups', ws') ->
  (forall q t, nth_error es q = Some t -> exists phs, behind_phases es (net_di n) lp t phs /\
     ((phs = [] /\ nth_error ws' q = nth_error ws q) \/
      exists w w', nth_error ws q = Some (Some (Some w)) /\ nth_error ws' q = Some (Some (Some w')) /\ recoiled phs w w')) /\
  (forall q, nth_error es q = None -> nth_error ws' q = nth_error ws q).
Proof. exact terminals_effect. Qed.
Print Assumptions C62_windings.

(** Every load behind a transformer knows its name afterwards; nothing else does. *)
Theorem C62_loads : forall es s n lp fuel ups ws ups' ws',
  build es s = Ok n -> all_named es -> unique_names es -> terminals_to_phases es n lp fuel ups ws = Ok (ups', ws') -> length ups = length es ->
  (forall i t, supplied_by es (net_di n) t i -> exists m, e_name t = Some (Some m) /\ nth_error ups' i = Some (Some m)) /\
  (forall i, (forall t, ~ supplied_by es (net_di n) t i) -> nth_error ups' i = nth_error ups i).
Proof.
  intros es s n lp fuel ups ws ups' ws' Hb AN UN E Lu. destruct (terminals_done es s n lp fuel (build_built _ _ _ Hb) AN UN _ _ _ _ E) as (U1 & U2 & _). split; [|auto].
  intros i t Hs. assert (Li : i < length es) by (destruct Hs as (e & c & He & _); apply nth_error_Some; congruence).
  destruct (U1 i t Li Hs) as (m & Hm & Q). exists m. split; [exact Hm|]. rewrite Q. destruct (nth_error ups i) eqn:Ei; [reflexivity|]. apply nth_error_None in Ei. lia.
Qed.
Print Assumptions C62_loads.

(** If all loads behind the transformer have the phases [l] and the winding afterwards has as many phase windings,
    then these are its phases. *)
Theorem C62_agree : forall es s n lp fuel ups ws ups' ws' q t w w' b b' l,
  build es s = Ok n -> all_named es -> unique_names es -> terminals_to_phases es n lp fuel ups ws = Ok (ups', ws') ->
  nth_error es q = Some t -> nth_error ws q = Some (Some (Some w)) -> nth_error ws' q = Some (Some (Some w')) -> length w = 2 \/ length w = 3 ->
  nth_error w 1 = Some (Some b) -> nth_error w' 1 = Some (Some b') ->
  (exists i, supplied_by es (net_di n) t i) -> (forall i, supplied_by es (net_di n) t i -> nth_error lp i = Some (Some l)) ->
  length b' = length l -> b' = l.
Proof.
  intros es s n lp fuel ups ws ups' ws' q t w w' b b' l Hb AN UN E Hq Hw Hw' L23 Hb1 Hb1' [i0 Hi0] All Lb.
  destruct (terminals_effect _ _ _ _ _ _ _ _ _ Hb AN UN E) as [W _]. destruct (W q t Hq) as (phs & (idx & S & I & F) & R).
  assert (A : forall k, In k phs -> k = l).
  { intros k Hk. clear R S. assert (All' : forall i, In i idx -> nth_error lp i = Some (Some l)) by (intros i Hi; apply All, I; exact Hi). clear I All Hi0.
    induction F as [|i y idx phs Hy F IH]; [destruct Hk|]. destruct Hk as [<-|Hk]; [assert (Q := All' i (or_introl eq_refl)); congruence|].
    apply IH; [exact Hk|]. intros j Hj. apply All'. right. exact Hj. }
  assert (Ne : phs <> []) by (intros ->; inversion F; subst; apply I in Hi0; destruct Hi0).
  destruct R as [[-> _]|(w1 & w2 & Q1 & Q2 & R)]; [contradiction|]. assert (w1 = w) by congruence. assert (w2 = w') by congruence. subst w1 w2.
  destruct R as [(a & c & c' & -> & -> & M)|[(a & c & c' & e & -> & -> & M)|(N2 & N3 & _)]]; [| |lia]; cbn in Hb1'; injection Hb1' as <-; exact (matched_agree _ phs c c' l M Ne A Lb).
Qed.
Print Assumptions C62_agree.

(** The run succeeds if every load has a name and phase loads and the secondary windings above the loads can be read. *)
Theorem C62_succeeds : forall es s n lp fuel ups ws, build es s = Ok n -> all_named es -> unique_names es -> length (d_nodes (net_di n)) < fuel ->
  (forall i e, nth_error es i = Some e -> e_cls e = "Load" -> exists m l, e_name e = Some (Some m) /\ nth_error lp i = Some (Some l)) ->
  (forall i t q, supplied_by es (net_di n) t i -> nth_error es q = Some t -> exists w, nth_error ws q = Some (Some (Some w)) /\ readable w) ->
  exists r, terminals_to_phases es n lp fuel ups ws = Ok r.
Proof. exact terminals_success. Qed.
Print Assumptions C62_succeeds.

(** A second run changes nothing but transformers with three windings. *)
Theorem C62_again : forall es s n lp fuel ups ws ups' ws' ups'' ws'', build es s = Ok n -> all_named es -> unique_names es ->
  terminals_to_phases es n lp fuel ups ws = Ok (ups', ws') -> terminals_to_phases es n lp fuel ups' ws' = Ok (ups'', ws'') ->
  (forall i, nth_error ups'' i = nth_error ups' i) /\
  (forall q, (forall w, nth_error ws q = Some (Some (Some w)) -> length w <> 3) -> nth_error ws'' q = nth_error ws' q).
Proof. exact terminals_again. Qed.
Print Assumptions C62_again.

(** The transformer "t" from "s" to "b" feeds the two loads "p" and "q" at "b". *)
Definition tes : list elem := [xnode "s"; xnode "b"; xtrafo "t" "s" "b"; xload "p" "b"; xload "q" "b"].
Definition tnet : network := net_or_empty (build tes "s").
Definition tcoils (w : list coils) : coiling := [None; None; Some (Some w); None; None].
Definition tups : list (option string) := repeat None 5.
Definition tlp (p q : list phase) : load_phases := [None; None; None; Some p; Some q].
Definition trun (p q : list phase) (w : list coils) := terminals_to_phases tes tnet (tlp p q) 9 tups (tcoils w).
Definition tA : phase := Some "A".
Definition tB : phase := Some "B".
Definition tC : phase := Some "C".

Example C62_hypotheses_met :
  build tes "s" = Ok tnet /\ all_named tes /\ unique_names tes /\ length (d_nodes (net_di tnet)) < 9 /\
  supplied_by tes (net_di tnet) (xtrafo "t" "s" "b") 3 /\
  trun [tA; tB] [tC] [Some [tA; tB]; Some [None; None]] = Ok ([None; None; None; Some "t"; Some "t"], tcoils [Some [tA; tB]; Some [tC; tB]]) /\
  trun [tA; tB] [tA; tB] [Some [tA]; Some [None]; None] = Ok ([None; None; None; Some "t"; Some "t"], tcoils [Some [tA]; Some [tA; tB; None]; None]) /\
  trun [tA; tB; tC] [tA; tB; tC] [Some [tA]; Some [None]; None] = Ok ([None; None; None; Some "t"; Some "t"], tcoils [Some [tA]; Some [tA; tB; tC]; None]).
Proof.
  split; [vm_compute; reflexivity|]. split.
  { intros i Hi _. cbn [tes In] in Hi. repeat (destruct Hi as [<-|Hi]; [eexists; reflexivity|]). destruct Hi. }
  split.
  { intros i j e e' x Hi Hj Hx Hx'. assert (K : NoDup (map e_name tes)) by (vm_compute; repeat constructor; cbn; intuition congruence).
    rewrite NoDup_nth_error in K. apply K; [rewrite map_length; apply nth_error_Some; congruence|]. rewrite !nth_error_map, Hi, Hj. cbn. congruence. }
  split; [vm_compute; lia|]. split; [|vm_compute; auto].
  exists (xload "p" "b"), "b". repeat (split; [reflexivity|]). exists "b", "s". split; [constructor|]. split; [eexists; vm_compute; tauto|]. split; [|reflexivity].
  exists [xnode "s"; xnode "b"], [xload "p" "b"; xload "q" "b"]. split; [reflexivity|]. split; [left; split; reflexivity|].
  intros j Hj. cbn [In] in Hj. unfold spans. repeat (destruct Hj as [<-|Hj]; [split; intros [Q1 Q2]; discriminate|]). destruct Hj.
Qed.

(** The full statement fails for several loads: the secondary winding keeps the phases of the last one only. *)
Theorem C62_every_load_refuted : exists p q ups' ws' b,
  trun p q [Some p; Some [None]] = Ok (ups', ws') /\ nth_error ws' 2 = Some (Some (Some [Some p; Some b])) /\
  supplied_by tes (net_di tnet) (xtrafo "t" "s" "b") 3 /\ nth_error (tlp p q) 3 = Some (Some p) /\ length p = length b /\ forall x, In x p -> ~ In x b.
Proof.
  exists [tA], [tB]. do 3 eexists. split; [vm_compute; reflexivity|]. split; [vm_compute; reflexivity|]. split; [apply C62_hypotheses_met|].
  split; [reflexivity|]. split; [reflexivity|]. intros x [<-|[]] [Q|[]]. discriminate.
Qed.
Print Assumptions C62_every_load_refuted.

(** Running twice is not running once: a transformer with three windings gets new phase windings every time. *)
Theorem C62_second_run_refuted : exists p q w ups' ws' ups'' ws'',
  trun p q w = Ok (ups', ws') /\ terminals_to_phases tes tnet (tlp p q) 9 ups' ws' = Ok (ups'', ws'') /\ nth_error ws'' 2 <> nth_error ws' 2.
Proof.
  exists [tA; tB], [tA; tB], [Some [tA]; Some [None]; None]. do 4 eexists. split; [vm_compute; reflexivity|]. split; [vm_compute; reflexivity|]. vm_compute. discriminate.
Qed.
Print Assumptions C62_second_run_refuted.
