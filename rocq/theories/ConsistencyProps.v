(** Property theorems on the consistency checks: C25 - C30. *)
From Coq Require Import Permutation QArith Qcanon.
From Verif Require Import Base BaseFacts StoreModel NetworkModel NetworkSpec NetworkProofs ConsistencyModel ConsistencySpec
  PathProofs ConsistencyProofs RouteProofs PhasePathProofs UndersizedProofs ConsistencyTop.
Local Open Scope string_scope.
Local Open Scope nat_scope.
Local Open Scope list_scope.

(** ** C25 *)

(** [ord] is the iteration order of the set of loads. *)
Theorem C25_loads_connected :
  forall ord m l1 c l2 s, (forall l, Permutation (ord l) l) -> buildable m ->
    m = l1 ++ c :: l2 -> source_at c s -> (forall d s', In d (l1 ++ l2) -> ~ source_at d s') ->
    (forall k1 d k2 d' k3, m = k1 ++ d :: k2 ++ d' :: k3 -> is_load d -> is_load d' -> c_name d <> c_name d') ->
    exists b, check_loads_connected ord m = Ok b /\ (b = true <-> forall l, In l m -> is_load l -> fed m s l).
Proof. exact loads_connected_one. Qed.
Print Assumptions C25_loads_connected.

Theorem C25_no_source :
  forall ord m, (forall c s, In c m -> ~ source_at c s) -> check_loads_connected ord m = Ok false.
Proof. exact loads_connected_none. Qed.
Print Assumptions C25_no_source.

(** Any number of sources: True means each load is fed by exactly one; a load fed by two is an
    AttributeError, the only error. *)
Theorem C25_several_sources :
  forall ord m, (forall l, Permutation (ord l) l) ->
    (forall l1 c l2 c' l3, m = l1 ++ c :: l2 ++ c' :: l3 -> is_load c -> is_load c' -> c_name c <> c_name c') ->
    (forall b, check_loads_connected ord m = Ok b ->
       (b = true <-> (exists c s, In c m /\ source_at c s) /\
          forall l, In l m -> is_load l -> exactly_one (fun c => feeds m c l) m) /\
       ((exists c s, In c m /\ source_at c s) -> forall l, In l m -> is_load l -> ~ at_least_two (fun c => feeds m c l) m)) /\
    (buildable m -> forall e, check_loads_connected ord m = Err e ->
       e = EAttr /\ exists l, In l m /\ is_load l /\ at_least_two (fun c => feeds m c l) m).
Proof. exact loads_connected_model. Qed.
Print Assumptions C25_several_sources.

(** Loads that share a name are not told apart: one of them fed is enough. *)
Theorem C25_same_name_refuted :
  exists m l, check_loads_connected yfirst m = Ok true /\ In l m /\ is_load l /\ e_conn (c_e l) = None /\
    exists c, In c m /\ source_at c "s" /\ ~ fed m "s" l.
Proof.
  exists (ym ++ [mkC (mkElem "Load" (Some (Some "ld")) None None None None None None) None None None None]). eexists.
  split; [vm_compute; reflexivity|]. split; [apply in_app_iff; right; left; reflexivity|]. split; [reflexivity|]. split; [reflexivity|].
  exists (ysource "src" "s"). split; [left; reflexivity|]. split; [split; reflexivity|]. intros (x & E & _). discriminate.
Qed.
Print Assumptions C25_same_name_refuted.

Example C25_hypotheses_met :
  buildable ym /\ ym = [] ++ ysource "src" "s" :: tl ym /\ (forall d s', In d (tl ym) -> ~ source_at d s') /\
  (forall k1 d k2 d' k3, ym = k1 ++ d :: k2 ++ d' :: k3 -> is_load d -> is_load d' -> c_name d <> c_name d') /\
  check_loads_connected (@rev cobj) ym = Ok true /\
  (* the load behind an open switch *)
  check_loads_connected (@rev cobj) (ym ++ [yswitch "sw" "a" "o" true; yload "lo" "o" [1]%Z]) = Ok false /\
  (* two sources *)
  check_loads_connected (@rev cobj) (ym ++ [ysource "src2" "c"]) = Err EAttr.
Proof.
  split; [exact ym_buildable|]. split; [reflexivity|]. split; [exact ym_one_source|]. split.
  - intros k1 d k2 d' k3 E _ _ Q. assert (X : forall y, In y ym -> exists x, e_name (c_e y) = Some (Some x)).
    { intros y Hy. cbn in Hy. repeat (destruct Hy as [<-|Hy]; [eexists; reflexivity|]). destruct Hy. }
    destruct (X d) as [x Ex]; [rewrite E; apply in_app_iff; right; left; reflexivity|].
    destruct (X d') as [x' Ex']; [rewrite E; apply in_app_iff; right; right; apply in_app_iff; right; left; reflexivity|].
    apply (ym_distinct _ _ _ _ _ (Some x) E Ex). unfold c_name in Q. rewrite Ex, Ex' in Q. congruence.
  - repeat split; vm_compute; reflexivity.
Qed.

(** ** C26 *)

Theorem C26_unique_path :
  forall ord show_all m, (forall l, Permutation (ord l) l) -> buildable m ->
    (forall c s s0, In c m -> is_load c -> In s0 m -> source_at s0 s -> proper_load s c) ->
    exists b, check_unique_path ord show_all m = Ok b /\
      (b = true <-> (exists c s, In c m /\ source_at c s) /\
         forall c s l, In c m -> source_at c s -> In l m -> is_load l -> unique_route m s l).
Proof. exact unique_path_result. Qed.
Print Assumptions C26_unique_path.

(** An unconnected load is no node; networkx takes its name for a collection of target nodes. *)
Theorem C26_unconnected_refuted :
  exists m c l, buildable m /\ In c m /\ source_at c "s" /\ In l m /\ is_load l /\ e_conn (c_e l) = None /\
    (forall p, ~ simple_route (closed_link (objs m)) "s" "xa" p) /\ e_name (c_e l) = Some (Some "xa") /\
    check_unique_path yfirst false m = Ok true.
Proof.
  pose (l := mkC (mkElem "Load" (Some (Some "xa")) None None None None None None) None None None None).
  exists [ysource "src" "s"; ywire "l1" "s" "a" yphases; l], (ysource "src" "s"), l.
  split; [apply buildable_by; vm_compute; reflexivity|]. split; [left; reflexivity|]. split; [split; reflexivity|].
  split; [right; right; left; reflexivity|]. split; [reflexivity|]. split; [reflexivity|]. split; [|split; [reflexivity|vm_compute; reflexivity]].
  intros p [(q & E & L & S) _]. rewrite E in L, S. clear E p.
  assert (K : forall a, a <> "xa" -> steps (closed_link (objs [ysource "src" "s"; ywire "l1" "s" "a" yphases; l])) (a :: q) -> last (a :: q) "s" <> "xa").
  { clear L S. induction q as [|b q IH]; intros a Na S; [exact Na|]. destruct S as [(J & _) S]. change (last (b :: q) "s" <> "xa").
    apply IH; [|exact S]. intros ->. destruct J as (i & Hi & J). apply ends_spec in J as (e & He & Ee).
    cbn in Hi. destruct Hi as [<-|[<-|[<-|[]]]]; cbn in He; [destruct He as [<-|[]]|destruct He as [<-|[]]|destruct He];
      destruct Ee as [Q|Q]; discriminate. }
  exact (K "s" ltac:(discriminate) S L).
Qed.
Print Assumptions C26_unconnected_refuted.

Example C26_hypotheses_met :
  buildable ym /\
  (forall c s s0, In c ym -> is_load c -> In s0 ym -> source_at s0 s -> proper_load s c) /\
  check_unique_path (@rev cobj) false ym = Ok true /\ check_unique_path (@rev cobj) true ym = Ok true /\
  (* a second way round *)
  check_unique_path (@rev cobj) false (ym ++ [ywire "l3" "a" "d" yphases; ywire "l4" "d" "c" yphases]) = Ok false /\
  check_unique_path (@rev cobj) true (ym ++ [ywire "l3" "a" "d" yphases; yswitch "l4" "d" "c" true]) = Ok true.
Proof.
  split; [exact ym_buildable|]. split; [|repeat split; vm_compute; reflexivity].
  intros c s s0 Hc Lc H0 Hs. rewrite (ym_source _ _ H0 Hs). cbn in Hc. unfold proper_load.
  destruct Hc as [<-|[<-|[<-|[<-|[<-|[<-|[]]]]]]]; cbn in Lc; try discriminate; eexists; eexists;
    (split; [reflexivity|]); (split; [reflexivity|]); discriminate.
Qed.

(** ** C27 *)

(** For every function that, like nx.cycle_basis, finds no cycle exactly when there is no loop. *)
Theorem C27_loops :
  forall cycle_basis m,
    (forall g, wf_graph g -> (cycle_basis g = [] <-> ~ loop (fun u v => has_edge g u v = true))) ->
    (forall b, check_loops cycle_basis m = Ok b -> (b = true <-> ~ loop (closed_link (objs m)))) /\
    ((forall c s, In c m -> ~ source_at c s) -> check_loops cycle_basis m = Err EType) /\
    (buildable m -> (exists c s, In c m /\ source_at c s) -> exists b, check_loops cycle_basis m = Ok b).
Proof. exact loops_result. Qed.
Print Assumptions C27_loops.

(** There is such a function. *)
Theorem C27_contract_met :
  forall g, wf_graph g -> (all_loops g = [] <-> ~ loop (fun u v => has_edge g u v = true)).
Proof. exact all_loops_contract. Qed.
Print Assumptions C27_contract_met.

(** Two lines between the same nodes are one edge: the loop they form is not seen. *)
Theorem C27_parallel_lines_refuted :
  exists m c c', check_loops all_loops m = Ok true /\ In c m /\ In c' m /\ c <> c' /\
    spans (c_e c) "s" "a" /\ spans (c_e c') "s" "a" /\ e_wires (c_e c) = Some [Some false] /\ e_wires (c_e c') = Some [Some false].
Proof.
  exists [ysource "src" "s"; ywire "l1" "s" "a" [Some "A"]; ywire "l2" "s" "a" [Some "A"]], (ywire "l1" "s" "a" [Some "A"]), (ywire "l2" "s" "a" [Some "A"]).
  split; [vm_compute; reflexivity|]. split; [right; left; reflexivity|]. split; [right; right; left; reflexivity|].
  split; [discriminate|]. repeat split.
Qed.
Print Assumptions C27_parallel_lines_refuted.

Example C27_hypotheses_met :
  (exists c s, In c ym /\ source_at c s) /\ buildable ym /\ check_loops all_loops ym = Ok true /\
  check_loops all_loops (ym ++ [ywire "l3" "a" "d" yphases; ywire "l4" "d" "c" yphases]) = Ok false /\
  check_loops all_loops (ym ++ [ywire "l3" "a" "d" yphases; yswitch "l4" "d" "c" true]) = Ok true.
Proof.
  split; [exists (ysource "src" "s"), "s"; split; [left; reflexivity|split; reflexivity]|].
  split; [exact ym_buildable|]. repeat split; vm_compute; reflexivity.
Qed.

(** ** C28 *)

Theorem C28_matched_phases :
  forall ord verbose m, (forall l, Permutation (ord l) l) ->
    (forall b, check_matched_phases ord verbose m = Ok b ->
       (b = true <-> forall t, In t m -> e_cls (c_e t) = "PowerTransformer" -> accepted t)) /\
    ((forall t, In t m -> e_cls (c_e t) = "PowerTransformer" ->
        (exists x, e_name (c_e t) = Some (Some x)) /\
        exists ws, c_windings t = Some (Some ws) /\ forall w, In w ws -> wd_phases w <> None) ->
     exists b, check_matched_phases ord verbose m = Ok b).
Proof. exact matched_phases_result. Qed.
Print Assumptions C28_matched_phases.

(** Containment is not enough: a low side with fewer phases than the high side is rejected. *)
Theorem C28_contained_refuted :
  check_matched_phases yfirst false [ytrafo "t" "a" "b" false [(1, yphases); (1, [Some "A"])]%Z] = Ok false.
Proof. vm_compute. reflexivity. Qed.
Print Assumptions C28_contained_refuted.

Example C28_hypotheses_met :
  (forall t, In t ym -> e_cls (c_e t) = "PowerTransformer" ->
     (exists x, e_name (c_e t) = Some (Some x)) /\
     exists ws, c_windings t = Some (Some ws) /\ forall w, In w ws -> wd_phases w <> None) /\
  check_matched_phases (@rev cobj) false ym = Ok true /\
  (* a centre tap, and a transformer with one winding *)
  check_matched_phases (@rev cobj) true (ytrafo "t2" "b" "d" false [(1, [Some "A"]); (1, [Some "A"; Some "B"]); (1, [Some "A"; Some "B"])]%Z :: ym) = Ok true /\
  check_matched_phases (@rev cobj) true (ytrafo "t2" "b" "d" false [(1, [Some "A"])]%Z :: ym) = Ok false.
Proof.
  split; [|repeat split; vm_compute; reflexivity]. intros t Ht Et. cbn in Ht.
  destruct Ht as [<-|[<-|[<-|[<-|[<-|[<-|[]]]]]]]; cbn in Et; try discriminate.
  split; [eexists; reflexivity|]. eexists. split; [reflexivity|]. cbn. intros w [<-|[<-|[]]]; discriminate.
Qed.

(** ** C29 *)

(** In a radial network: what the function accepts is [accepts_route] for every load.  [names] is
    the name table of the store. *)
Theorem C29_phase_path_partial :
  forall ord names needs m, (forall l, Permutation (ord l) l) ->
    radial m -> one_per_link m -> all_named (objs m) ->
    (forall c x, In c m -> is_transformer c -> e_name (c_e c) = Some (Some x) -> names x = Some c) ->
    forall b, check_transformer_phase_path ord names needs m = Ok b ->
    (b = true <-> (exists c s, In c m /\ source_at c s) /\
       forall c s l x p cs, In c m -> source_at c s -> In l m -> is_load l -> e_conn (c_e l) = Some x ->
         simple_route (closed_link (objs m)) s x p -> along m p cs -> accepts_route needs p cs).
Proof. exact phase_path_result. Qed.
Print Assumptions C29_phase_path_partial.

(** It answers when the objects on the routes have what it reads. *)
Theorem C29_answers :
  forall ord names needs m, (forall l, Permutation (ord l) l) ->
    buildable m -> radial m -> one_per_link m ->
    (forall c x, In c m -> is_transformer c -> e_name (c_e c) = Some (Some x) -> names x = Some c) ->
    (forall c s l x p cs, In c m -> source_at c s -> In l m -> is_load l -> e_conn (c_e l) = Some x ->
       simple_route (closed_link (objs m)) s x p -> along m p cs -> forall d, In d cs -> readable d) ->
    exists b, check_transformer_phase_path ord names needs m = Ok b.
Proof. exact phase_path_ok. Qed.
Print Assumptions C29_answers.

(** Two distribution transformers in series are accepted. *)
Theorem C29_two_transformers_refuted :
  let t1 := ytrafo "t1" "s" "a" false [(1, yphases); (1, yphases)]%Z in
  let t2 := ytrafo "t2" "a" "b" false [(1, yphases); (1, yphases)]%Z in
  let m := [ysource "src" "s"; t1; t2; yload "ld" "b" [1]%Z] in
  distribution t1 /\ distribution t2 /\ check_transformer_phase_path yfirst (by_name m) true m = Ok true.
Proof. split; [split; [reflexivity|discriminate]|]. split; [split; [reflexivity|discriminate]|]. vm_compute. reflexivity. Qed.
Print Assumptions C29_two_transformers_refuted.

(** A load right at the low side of the only transformer, all phases alike, is rejected. *)
Theorem C29_load_at_transformer_refuted :
  let m := [ysource "src" "s"; ywire "l1" "s" "a" yphases; ytrafo "t1" "a" "b" false [(1, yphases); (1, yphases)]%Z; yload "ld" "b" [1]%Z] in
  check_transformer_phase_path yfirst (by_name m) true m = Ok false /\ check_matched_phases yfirst false m = Ok true.
Proof. split; vm_compute; reflexivity. Qed.
Print Assumptions C29_load_at_transformer_refuted.

(** With an open tie switch the network is not radial before it is opened; a line off the search
    tree carries no attributes and is not looked at: more conductors downstream than upstream pass. *)
Theorem C29_open_tie_refuted :
  let m := [ysource "src" "s"; yswitch "sw" "s" "a" true; ywire "l1" "s" "b" [Some "A"]; ywire "l2" "b" "a" yphases; yload "ld" "a" [1]%Z] in
  check_transformer_phase_path yfirst (by_name m) false m = Ok true /\
  let m' := [ysource "src" "s"; ywire "l1" "s" "b" [Some "A"]; ywire "l2" "b" "a" yphases; yload "ld" "a" [1]%Z] in
  check_transformer_phase_path yfirst (by_name m') false m' = Ok false.
Proof. split; vm_compute; reflexivity. Qed.
Print Assumptions C29_open_tie_refuted.

Example C29_hypotheses_met :
  buildable ym /\ radial ym /\ one_per_link ym /\
  (forall c x, In c ym -> is_transformer c -> e_name (c_e c) = Some (Some x) -> by_name ym x = Some c) /\
  (forall c s l x p cs, In c ym -> source_at c s -> In l ym -> is_load l -> e_conn (c_e l) = Some x ->
     simple_route (closed_link (objs ym)) s x p -> along ym p cs -> forall d, In d cs -> readable d) /\
  check_transformer_phase_path (@rev cobj) (by_name ym) false ym = Ok true /\
  (* the load above the transformer has none *)
  check_transformer_phase_path (@rev cobj) (by_name ym) true ym = Ok false.
Proof.
  split; [exact ym_buildable|]. split; [exact ym_radial|]. split; [exact ym_one|]. split; [exact ynames_ok|].
  split; [exact ym_readable|]. split; vm_compute; reflexivity.
Qed.

(** ** C30 *)

(** A radial model with one source: a transformer that serves less than 5000 kW is rated at least
    that much afterwards and at least as much as before; one that is large enough stays as it is. *)
Theorem C30_rated_for_load :
  forall ord m l1 c l2 s m', (forall l, Permutation (ord l) l) ->
    m = l1 ++ c :: l2 -> source_at c s -> (forall d s', In d (l1 ++ l2) -> ~ source_at d s') ->
    radial m -> one_per_link m -> all_named (objs m) -> distinct_names m ->
    fix_undersized_transformers ord m = Ok m' ->
    forall k t r q, nth_error m k = Some t -> rating t r ->
      (exists l, In l m /\ serves m s t l) -> served_kw m s t q ->
      exists t', nth_error m' k = Some t' /\
        ((q < qc 5000)%Qc -> exists r', rating t' r' /\ (q * qc 1000 <= r')%Qc /\ (r <= r')%Qc) /\
        ((q <= r / qc 1000)%Qc \/ (qc 5000 <= q)%Qc -> t' = t).
Proof. exact undersized_fixed. Qed.
Print Assumptions C30_rated_for_load.

(** Everything it does: each object stays where it is; a transformer that serves loads is treated
    according to their sum, everything else is unchanged. *)
Theorem C30_effect :
  forall ord m l1 c l2 s m', (forall l, Permutation (ord l) l) ->
    m = l1 ++ c :: l2 -> source_at c s -> (forall d s', In d (l1 ++ l2) -> ~ source_at d s') ->
    radial m -> one_per_link m -> all_named (objs m) -> distinct_names m ->
    fix_undersized_transformers ord m = Ok m' ->
    length m' = length m /\
    forall k t, nth_error m k = Some t -> exists t', nth_error m' k = Some t' /\
      (((exists l, In l m /\ serves m s t l) /\ exists q, served_kw m s t q /\ treated t q t') \/
       (t' = t /\ ~ exists l, In l m /\ serves m s t l)).
Proof. exact undersized_result. Qed.
Print Assumptions C30_effect.

Theorem C30_succeeds :
  forall ord m l1 c l2 s, (forall l, Permutation (ord l) l) ->
    m = l1 ++ c :: l2 -> source_at c s -> (forall d s', In d (l1 ++ l2) -> ~ source_at d s') ->
    buildable m -> radial m -> one_per_link m -> distinct_names m ->
    (forall l, In l m -> is_load l -> exists ps, c_loads l = Some (Some (map Some ps))) ->
    (forall t, In t m -> distribution t -> exists r, rating t r) ->
    (forall t, In t m -> is_transformer t -> c_sub t <> None) ->
    (forall l x p cs, In l m -> is_load l -> e_conn (c_e l) = Some x ->
       simple_route (closed_link (objs m)) s x p -> along m p cs -> forall d, In d cs -> e_conn (c_e d) = None) ->
    exists m', fix_undersized_transformers ord m = Ok m'.
Proof. exact undersized_ok. Qed.
Print Assumptions C30_succeeds.

(** A larger second winding is lowered to the size chosen from the first. *)
Theorem C30_never_decrease_refuted :
  exists m m' w w', fix_undersized_transformers yfirst m = Ok m' /\
    (exists ws, c_windings (nth 2 m (ysource "" "")) = Some (Some (ws ++ [w]))) /\
    (exists ws, c_windings (nth 2 m' (ysource "" "")) = Some (Some (ws ++ [w']))) /\
    wd_rated w = Some (qc 50000) /\ wd_rated w' = Some (qc 25000).
Proof.
  exists [ysource "src" "s"; ywire "l1" "s" "a" yphases; ytrafo "t1" "a" "b" false [(10000, yphases); (50000, yphases)]%Z;
     ywire "l2" "b" "c" yphases; yload "ld" "c" [24000]%Z].
  eexists; eexists; eexists. split; [vm_compute; reflexivity|]. split; [exists [mkWinding (Some (qc 10000)) (Some yphases)]; reflexivity|].
  split; [eexists [_]; reflexivity|]. split; [reflexivity|]. vm_compute. reflexivity.
Qed.
Print Assumptions C30_never_decrease_refuted.

(** A load behind two transformers counts for neither. *)
Theorem C30_two_in_series_refuted :
  let m := [ysource "src" "s"; ytrafo "t1" "s" "a" false [(1000, yphases); (1000, yphases)]%Z;
            ytrafo "t2" "a" "b" false [(1000, yphases); (1000, yphases)]%Z; ywire "l" "b" "c" yphases; yload "ld" "c" [24000]%Z] in
  fix_undersized_transformers yfirst m = Ok m.
Proof. vm_compute. reflexivity. Qed.
Print Assumptions C30_two_in_series_refuted.

Example C30_hypotheses_met :
  ym = [] ++ ysource "src" "s" :: tl ym /\ source_at (ysource "src" "s") "s" /\ (forall d s', In d (tl ym) -> ~ source_at d s') /\
  buildable ym /\ radial ym /\ one_per_link ym /\ distinct_names ym /\
  (forall l, In l ym -> is_load l -> exists ps, c_loads l = Some (Some (map Some ps))) /\
  (forall t, In t ym -> distribution t -> exists r, rating t r) /\
  (forall t, In t ym -> is_transformer t -> c_sub t <> None) /\
  (forall l x p cs, In l ym -> is_load l -> e_conn (c_e l) = Some x ->
     simple_route (closed_link (objs ym)) "s" x p -> along ym p cs -> forall d, In d cs -> e_conn (c_e d) = None) /\
  (exists l, In l ym /\ serves ym "s" (nth 2 ym (ysource "" "")) l) /\
  served_kw ym "s" (nth 2 ym (ysource "" "")) (qc 24) /\
  exists m', fix_undersized_transformers (@rev cobj) ym = Ok m' /\ rating (nth 2 m' (ysource "" "")) (qc 25000).
Proof.
  split; [reflexivity|]. split; [split; reflexivity|]. split; [exact ym_one_source|]. split; [exact ym_buildable|].
  split; [exact ym_radial|]. split; [exact ym_one|]. split; [exact ym_distinct|].
  split; [exact ym_loads_kw|]. split; [exact ym_rated|]. split; [exact ym_sub|]. split.
  - intros l x p cs Hl Ll Ex Hp Ha d Hd.
    apply (ym_readable (ysource "src" "s") "s" l x p cs (or_introl eq_refl) (conj eq_refl eq_refl) Hl Ll Ex Hp Ha d Hd).
  - split; [exists (yload "ld" "c" [8000; 8000; 8000]%Z); split; [cbn; auto 10|exact ym_serves]|]. split; [exact ym_served|].
    eexists. split; [vm_compute; reflexivity|]. eexists; eexists. split; [reflexivity|]. vm_compute. reflexivity.
Qed.
