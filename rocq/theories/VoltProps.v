(** C32, C34, C59: source detection and nominal voltages. *)
From Verif Require Import Base StoreModel NetworkModel NetworkSpec NetworkTop VoltModel VoltSpec VoltProofs.
From Coq Require Import QArith.
Local Open Scope string_scope.
Local Open Scope nat_scope.
Local Open Scope list_scope.

(** C32: without a source argument the unique source-bus name is used; none, or two distinct names,
    raise ValueError (names that are None make numpy's comparison raise instead). *)
Theorem C32_source : forall es srcs args, length args <> 1 ->
  ((forall s, ~ bus_name srcs s) -> modifier_init es srcs args = Err EValue) /\
  (forall a b, bus_name srcs (Some a) -> bus_name srcs (Some b) -> a <> b -> ~ bus_name srcs None -> modifier_init es srcs args = Err EValue) /\
  (forall a b, bus_name srcs a -> bus_name srcs b -> a <> b -> exists e, modifier_init es srcs args = Err e) /\
  (forall a, bus_name srcs (Some a) -> (forall b, bus_name srcs b -> b = Some a) ->
     modifier_init es srcs args = do n <- build es a; Ok (mkModifier a (source_voltage srcs) n)) /\
  (forall m, modifier_init es srcs args = Ok m -> bus_name srcs (Some (m_source m)) /\ forall b, bus_name srcs b -> b = Some (m_source m)).
Proof. exact modifier_source. Qed.
Print Assumptions C32_source.

(** The source voltage is that of the last source bus that knows one. *)
Theorem C32_source_voltage : forall srcs,
  (forall v, source_voltage srcs = Some v <->
     exists a x b, srcs = a ++ x :: b /\ s_bus x = true /\ s_volt x = Some v /\ forall y, In y b -> s_bus y = true -> s_volt y = None) /\
  (source_voltage srcs = None <-> forall x, In x srcs -> s_bus x = true -> s_volt x = None).
Proof. exact source_voltage_spec. Qed.
Print Assumptions C32_source_voltage.

Example C32_hypotheses_met :
  modifier_init xes xsrcs [] = Ok xmod /\ bus_name xsrcs (Some "s") /\ (forall b, bus_name xsrcs b -> b = Some "s") /\
  modifier_init xes [mkSource (Some "s") true None; mkSource (Some "a") true None] [] = Err EValue /\
  modifier_init xes [mkSource (Some "s") true None; mkSource None true None] [] = Err EType /\
  modifier_init xes [] [] = Err EValue.
Proof.
  split; [exact xmod_init|]. split; [exists (mkSource (Some "s") true (Some 12470%Q)); split; [left; reflexivity|auto]|]. split.
  - intros b (x & H & Hb & <-). cbn [xsrcs In] in H. destruct H as [<-|[<-|[<-|[]]]]; [reflexivity|discriminate|reflexivity].
  - repeat split; vm_compute; reflexivity.
Qed.

(** C34: every node connected to the source ends with the smallest winding voltage of the transformer
    that feeds it, or the source voltage; everything else is unchanged. *)
Theorem C34_voltages : forall es windings srcs args m v0 fuel vs vs',
  modifier_init es srcs args = Ok m -> m_voltage m = Some v0 -> all_named es ->
  (forall i, last_span es (m_source m) (m_source m) i -> e_cls i <> "PowerTransformer") ->
  set_nominal_voltages_recur es windings fuel m vs = Ok vs' ->
  (forall x, reach (linked es) (m_source m) x -> exists i, bears es x i /\ forall old, nth_error vs i = Some (Some old) ->
     exists o w, fed_by es (net_di (m_net m)) (m_source m) x o /\
       (forall o', fed_by es (net_di (m_net m)) (m_source m) x o' -> o' = o) /\
       gives es windings v0 o w /\ nth_error vs' i = Some (Some (Some w))) /\
  (forall i, (forall x, reach (linked es) (m_source m) x -> ~ bears es x i) -> nth_error vs' i = nth_error vs i) /\
  (forall i, nth_error vs i = Some None <-> nth_error vs' i = Some None) /\ length vs' = length vs.
Proof. exact voltages_spec. Qed.
Print Assumptions C34_voltages.

(** It succeeds, within a recursion depth of the number of nodes, when the nodes are objects and the
    transformers have a known winding voltage. *)
Theorem C34_succeeds : forall es windings srcs args m v0 vs,
  modifier_init es srcs args = Ok m -> m_voltage m = Some v0 -> all_named es ->
  (forall i, last_span es (m_source m) (m_source m) i -> e_cls i <> "PowerTransformer") ->
  (exists y, linked es (m_source m) y /\ y <> m_source m) ->
  (forall x, reach (linked es) (m_source m) x -> exists p, bears es x p) ->
  (forall y x i, arc (net_di (m_net m)) y x -> last_span es y x i -> e_cls i = "PowerTransformer" -> rated es windings i) ->
  exists vs', set_nominal_voltages_recur es windings (S (length (d_nodes (net_di (m_net m))))) m vs = Ok vs'.
Proof. exact voltages_total. Qed.
Print Assumptions C34_succeeds.

Example C34_hypotheses_met :
  modifier_init xes xsrcs [] = Ok xmod /\ m_voltage xmod = Some 7200%Q /\ all_named xes /\
  (forall i, last_span xes (m_source xmod) (m_source xmod) i -> e_cls i <> "PowerTransformer") /\
  set_nominal_voltages_recur xes xwind (S (length (d_nodes (net_di xnet)))) xmod xvolts = Ok xres.
Proof.
  split; [exact xmod_init|]. split; [reflexivity|]. split; [exact xes_named|]. split; [exact xes_no_loop|]. vm_compute. reflexivity.
Qed.

(** C59: a line without a voltage gets the one of the object at its from end; nothing else changes. *)
Theorem C59_line_voltages : forall es vs,
  (forall vs', set_nominal_voltages_recur_line es vs = Ok vs' ->
     length vs' = length vs /\
     (forall i, (forall e, nth_error es i = Some e -> e_cls e = "Line" -> volt vs i = None -> e_from e = None) -> nth_error vs' i = nth_error vs i) /\
     (forall i e f, nth_error es i = Some e -> e_cls e = "Line" -> nth_error vs i = Some (Some None) -> e_from e = Some f ->
        exists p, bears es f p /\ ((forall e', nth_error es p = Some e' -> e_cls e' <> "Line") -> nth_error vs' i = Some (Some (volt vs p))))) /\
  ((exists vs', set_nominal_voltages_recur_line es vs = Ok vs') <->
   (forall i e f, nth_error es i = Some e -> e_cls e = "Line" -> volt vs i = None -> e_from e = Some f -> exists p, bears es f p)).
Proof. exact line_voltages_spec. Qed.
Print Assumptions C59_line_voltages.

Example C59_hypotheses_met :
  set_nominal_voltages_recur_line xes xres =
    Ok [Some (Some 7200%Q); Some (Some 7200%Q); Some (Some 240%Q); None; Some (Some 240%Q); Some None;
        Some (Some 7200%Q); None; Some (Some 240%Q); Some (Some 3%Q); Some None; Some (Some 240%Q)] /\
  nth_error xes 6 = Some (xline "l1" "s" "a" 10) /\ nth_error xres 6 = Some (Some None).
Proof. repeat split; vm_compute; reflexivity. Qed.
