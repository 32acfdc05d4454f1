(** Consistency checks and fixes.  Models ditto/consistency/*.py.

    Simplifications:
    - An object is its network view ([elem] of NetworkModel.v) and the attributes these functions
      read.  isinstance is equality of class names (the classes have no subclasses).
    - Printing is not modelled, except where the printed expression itself can raise.
    - all_loads and all_transformers are Python sets: the order of iteration is a parameter [ord]
      of the functions, any permutation.
    - [model[x]] is a parameter [names] (the dictionary model_names) where the function does not
      call set_names itself.
    - Numbers are rationals.
    - networkx functions are modelled after networkx 2.5 (not part of /repo). *)
From Coq Require Import QArith Qcanon.
From Verif Require Import Base StoreModel NetworkModel.
Local Open Scope string_scope.
Local Open Scope nat_scope.
Local Open Scope list_scope.

(** rated_power and the phases of phase_windings of a winding. *)
Record winding := mkWinding { wd_rated : option Qc; wd_phases : option (list (option string)) }.

(** [None]: the object has no such attribute; [Some None]: the attribute is None. *)
Definition attr (A : Type) := option (option A).

Record cobj := mkC {
  c_e : elem;
  c_sub : attr bool;                       (* is_substation *)
  c_wires : attr (list (option string));   (* phase of each wire *)
  c_windings : attr (list winding);
  c_loads : attr (list (option Qc))        (* p of each phase_load *)
}.

(** [x.attr] followed by a use as a list. *)
Definition use {A} (a : attr A) : res A :=
  match a with None => Err EAttr | Some None => Err EType | Some (Some l) => Ok l end.

Definition is_class (k : string) (c : cobj) : bool := String.eqb (e_cls (c_e c)) k.
Definition c_name (c : cobj) : option string := match e_name (c_e c) with Some n => n | None => None end.

(** check_loads_connected.py 22-26 and the same lines of the other files. *)
Definition sources (m : list cobj) : list cobj :=
  filter (fun c => is_class "PowerSource" c && match e_conn (c_e c) with Some _ => true | None => false end) m.
Definition loads (m : list cobj) : list cobj := filter (is_class "Load") m.
Definition transformers (m : list cobj) : list cobj := filter (is_class "PowerTransformer") m.

(** source.connecting_element of an element of [sources]. *)
Definition source_bus (c : cobj) : string := match e_conn (c_e c) with Some s => s | None => "" end.

(** check_loads_connected.py 36-39: the built network (whose digraph selects the edges that
    set_attributes fills) and the network without open switches. *)
Definition closed_network (m : list cobj) (s : string) : res (network * network) :=
  do n <- build (map c_e m) s;
  do n' <- remove_open_switches (map c_e m) n;
  Ok (n, n').

(** nx.single_source_shortest_path: breadth first, each node gets the path of the node that
    discovered it plus itself. *)
Definition extend_path (ps : dict (list string)) (e : string * string) : dict (list string) :=
  match dget ps (fst e) with
  | Some p => dset ps (snd e) (p ++ [snd e])
  | None => ps
  end.
Definition shortest_paths (g : graph) (s : string) : res (dict (list string)) :=
  if smem s (g_nodes g) then
    do t <- bfs g (S (length (g_nodes g))) [s] [s];
    Ok (fold_left extend_path t [(s, [s])])
  else Err ENodeNotFound.

(** Dictionaries with keys that may be None. *)
Fixpoint kget {V} (d : list (option string * V)) (k : option string) : option V :=
  match d with
  | [] => None
  | (k', v) :: t => if okey_eqb k' k then Some v else kget t k
  end.
Fixpoint kset {V} (d : list (option string * V)) (k : option string) (v : V) : list (option string * V) :=
  match d with
  | [] => [(k, v)]
  | (k', v') :: t => if okey_eqb k' k then (k', v) :: t else (k', v') :: kset t k v
  end.

(** [load_connection in all_paths] *)
Definition supplied (ps : dict (list string)) (c : cobj) : bool :=
  match e_conn (c_e c) with Some x => dmem ps x | None => false end.

(** check_loads_connected.py:16-71 [check_loads_connected]. *)
Definition check_loads_connected (ord : list cobj -> list cobj) (m : list cobj) : res bool :=
  match sources m with
  | [] => Ok false                                                              (* 31-33 *)
  | _ =>
    let map0 := fold_left (fun d c => kset d (c_name c) []) (loads m) [] in     (* 27-29 *)
    do lmap <- foldM (fun (d : list (option string * list string)) src =>       (* 35-47 *)
        do '(_, n) <- closed_network m (source_bus src);
        do ps <- shortest_paths (net_graph n) (source_bus src);
        Ok (fold_left (fun d c =>
              if supplied ps c then
                match kget d (c_name c) with
                | Some l => kset d (c_name c) (l ++ [source_bus src])
                | None => d
                end
              else d) (ord (loads m)) d)) (sources m) map0;
    foldM (fun r (e : option string * list string) =>                           (* 50-59 *)
        match snd e with
        | [] => Ok false
        | [_] => Ok r
        | _ :: _ :: _ => Err EAttr                                              (* 59: a str has no name *)
        end) lmap true
  end.

(** nx.all_simple_paths as the list of its results: the paths from [s] to a target that visit no
    node twice.  [path] is the reversed path so far, ending in [u]. *)
Fixpoint paths_from (g : graph) (targets : list string) (fuel : nat) (path : list string) (u : string)
  : res (list (list string)) :=
  match fuel with
  | O => Err EFuel
  | S fuel' =>
    do ls <- mapM (fun v =>
        if smem v path then Ok []
        else do rest <- paths_from g targets fuel' (v :: path) v;
             Ok ((if smem v targets then [rev (v :: path)] else []) ++ rest)) (neighbors g u);
    Ok (concat ls)
  end.

Fixpoint chars (s : string) : list string :=
  match s with EmptyString => [] | String c t => String c EmptyString :: chars t end.

(** A target that is not a node is taken for a collection of targets: a string is the collection
    of its characters; None is not iterable.  A source among the targets: no path. *)
Definition all_simple_paths (g : graph) (s : string) (t : option string) : res (list (list string)) :=
  if smem s (g_nodes g) then
    match t with
    | None => Err ENodeNotFound
    | Some x =>
      let targets := if smem x (g_nodes g) then [x] else chars x in
      if smem s targets then Ok []
      else paths_from g targets (S (length (g_nodes g))) [s] s
    end
  else Err ENodeNotFound.

(** check_unique_path.py 52-76: the loop over the loads; state: result and break_load.  The
    result is returned together with whether the loop was left. *)
Fixpoint unique_loop (g : graph) (s : string) (show_all : bool) (ls : list cobj) (result break_load : bool) : res bool :=
  match ls with
  | [] => Ok result
  | c :: t =>
    do ps <- all_simple_paths g s (c_name c);                                   (* 55 *)
    if break_load then Ok result                                                (* 57-58 *)
    else match ps with
         | [] => Ok false                                                       (* 69-75 *)
         | [_] => unique_loop g s show_all t result break_load
         | _ :: _ :: _ => unique_loop g s show_all t false (if show_all then break_load else true)  (* 59-68 *)
         end
  end.

(** check_unique_path.py:21-87 [check_unique_path]. *)
Definition check_unique_path (ord : list cobj -> list cobj) (show_all : bool) (m : list cobj) : res bool :=
  match sources m with
  | [] => Ok false
  | _ =>
    foldM (fun r src =>
        do '(_, n) <- closed_network m (source_bus src);
        unique_loop (net_graph n) (source_bus src) show_all (ord (loads m)) r false) (sources m) true
  end.

(** check_loops.py:16-43 [check_loops].  [cycle_basis] is nx.cycle_basis. *)
Fixpoint loops_from (cycle_basis : graph -> list (list string)) (m : list cobj) (srcs : list cobj) : res bool :=
  match srcs with
  | [] => Ok false                                                              (* 43 *)
  | src :: t =>
    match c_name src with
    | None => Err EType                                                         (* 28 *)
    | Some _ =>
      do '(_, n) <- closed_network m (source_bus src);
      match cycle_basis (net_graph n) with
      | [] => Ok true                                                           (* 41-42 *)
      | _ => loops_from cycle_basis m t
      end
    end
  end.
Definition check_loops (cycle_basis : graph -> list (list string)) (m : list cobj) : res bool :=
  match sources m with
  | [] => Err EType                                                             (* 25: raise of a str *)
  | srcs => loops_from cycle_basis m srcs
  end.

(** ** check_matched_phases.py *)

Definition has_phase (p : option string) (l : list (option string)) : bool := existsb (okey_eqb p) l.
Definition subset (l l' : list (option string)) : bool := forallb (fun p => has_phase p l') l.
(** [set(l) == set(l')] *)
Definition same_set (l l' : list (option string)) : bool := subset l l' && subset l' l.
Fixpoint same_list (l l' : list (option string)) : bool :=
  match l, l' with
  | [], [] => true
  | a :: t, b :: t' => okey_eqb a b && same_list t t'
  | _, _ => false
  end.

(** [[p.phase for p in w.phase_windings]] *)
Definition winding_phases (w : winding) : res (list (option string)) := of_opt EType (wd_phases w).

(** Lines 36-87 for one transformer: whether it passes.  [set(low) in set(high)] (line 48) is
    false: no phase is a set. *)
Definition matched (t : cobj) : res bool :=
  do ws <- use (c_windings t);
  match ws with
  | [h; l] =>
    do hp <- winding_phases h; do lp <- winding_phases l;
    Ok (same_set hp lp)
  | [h; l; l2] =>
    do hp <- winding_phases h; do lp <- winding_phases l; do lp2 <- winding_phases l2;
    Ok (same_list lp2 lp && (length lp2 =? 2) && (length hp <=? 2))
  | _ => Ok false
  end.

(** Lines 20-89 [check_matched_phases]; a message with a name None raises TypeError. *)
Definition check_matched_phases (ord : list cobj -> list cobj) (verbose : bool) (m : list cobj) : res bool :=
  foldM (fun r t =>
      do ok <- matched t;
      if ok then Ok r
      else if verbose then match c_name t with None => Err EType | Some _ => Ok false end
      else Ok false) (ord (transformers m)) true.

(** ** Elements on a path: what [ditto_graph.graph[u][v]] holds after set_attributes *)

(** network.py 240-320: [c] writes its attributes on the edge between [u] and [v]. *)
Definition writes (d : digraph) (u v : string) (c : cobj) : bool :=
  match c_name c with
  | None => false
  | Some x =>
    match e_from (c_e c), e_to (c_e c) with
    | Some f, Some t => same_pair u v (f, t, None) && (d_has_edge d f t || d_has_edge d t f)
    | _, _ => false
    end ||
    match e_conn (c_e c) with
    | Some k => same_pair u v (k, x, None) && d_has_edge d k x
    | None => false
    end
  end.

(** The last of the objects that write an attribute decides. *)
Definition last_attr {A} (f : cobj -> option A) (l : list cobj) : option A :=
  fold_left (fun acc c => match f c with Some x => Some x | None => acc end) l None.

(** [None] for a missing key. *)
Record info := mkInfo {
  i_cls : string; i_name : option string; i_sub : option (option bool); i_wires : attr (list (option string)) }.

(** [element = graph[u][v]] and [element['equipment']] (KeyError if missing). *)
Definition element (m : list cobj) (n n' : network) (u v : string) : res info :=
  match edge_attr (net_graph n') u v with
  | None => Err EKey
  | Some a =>
    let l := filter (writes (net_di n) u v) m in
    Ok (mkInfo (ea_cls a) (last_attr c_name l) (last_attr c_sub l) (last_attr c_wires l))
  end.

(** [element['equipment'] == 'PowerTransformer' and not element['is_substation']] *)
Definition distribution_transformer (i : info) : res bool :=
  if String.eqb (i_cls i) "PowerTransformer" then
    match i_sub i with
    | None => Err EKey
    | Some (Some true) => Ok false
    | Some _ => Ok true
    end
  else Ok false.

(** The pairs (path[i], path[i+1]). *)
Fixpoint hops (p : list string) : list (string * string) :=
  match p with
  | a :: ((b :: _) as t) => (a, b) :: hops t
  | _ => []
  end.

(** check_transformer_phase_path.py 71-79 (also fix_transformer_phase_path.py,
    fix_undersized_transformers.py): from the load to the source; the names of the distribution
    transformers met and transformer_low_side. *)
Definition scan_step (el : string -> string -> res info) (st : list string * option string) (h : string * string)
  : res (list string * option string) :=
  do i <- el (snd h) (fst h);
  do d <- distribution_transformer i;
  do names <- (if d then do x <- of_opt EKey (i_name i); Ok (fst st ++ [x]) else Ok (fst st));
  Ok (names, match names with
             | [] => if String.eqb (i_cls i) "PowerTransformer" then snd st else Some (fst h)
             | _ => snd st
             end).
Definition scan (el : string -> string -> res info) (p : list string) : res (list string * option string) :=
  foldM (scan_step el) (rev (hops p)) ([], None).

(** [[wire.phase for wire in element['wires'] if wire.phase != 'N']] *)
Definition line_phases (ws : list (option string)) : list (option string) :=
  filter (fun p => negb (okey_eqb p (Some "N"))) ws.

(** Lines 107-119: the low side, from the load up to the transformer. *)
Fixpoint low_side_ok (el : string -> string -> res info) (low : list (option string)) (hs : list (string * string)) : res bool :=
  match hs with
  | [] => Ok true
  | h :: t =>
    do i <- el (snd h) (fst h);
    do d <- distribution_transformer i;
    if d then Ok true
    else if String.eqb (i_cls i) "Line" then
      do ws <- match i_wires i with None => Err EKey | Some None => Err EType | Some (Some l) => Ok l end;
      if same_set (line_phases ws) low then low_side_ok el low t else Ok false
    else low_side_ok el low t
  end.

(** Lines 122-145 ([high] present) and 151-170 (no transformer): from the source; [prev] is the
    number of phases of the previous line. *)
Fixpoint high_side_ok (el : string -> string -> res info) (high : option (list (option string))) (prev : nat)
    (hs : list (string * string)) : res bool :=
  match hs with
  | [] => Ok true
  | h :: t =>
    do i <- el (fst h) (snd h);
    do d <- match high with Some _ => distribution_transformer i | None => Ok false end;
    if d then Ok true
    else if String.eqb (i_cls i) "Line" then
      match i_wires i with
      | None => high_side_ok el high prev t                                      (* no wires: a warning *)
      | Some None => Err EType
      | Some (Some ws) =>
        let lp := line_phases ws in
        if match high with Some h => negb (subset h lp) | None => false end then Ok false
        else if prev <? length lp then Ok false
        else high_side_ok el high (length lp) t
      end
    else high_side_ok el high prev t
  end.

Definition nth_winding (ws : list winding) (k : nat) : res winding := of_opt EIndex (nth_error ws k).

(** Lines 66-170 for one load with path [p]: whether it passes. *)
Definition load_passes (names : string -> option cobj) (el : string -> string -> res info) (needs : bool)
    (p : list string) : res bool :=
  do '(ts, low) <- scan el p;
  match ts with
  | [] =>
    do h <- high_side_ok el None 3 (hops p);
    Ok (negb needs && h)
  | [t] =>
    do _ <- match hops p with                                                   (* 83: element['name'] *)
            | h :: _ => do i <- el (snd h) (fst h); of_opt EKey (i_name i)
            | [] => Ok t
            end;
    do tr <- of_opt EKey (names t);
    let right_way := okey_eqb (e_to (c_e tr)) low in                            (* 84 *)
    do ws <- use (c_windings tr);
    do w1 <- nth_winding ws 1; do lp <- winding_phases w1;
    do w0 <- nth_winding ws 0; do hp <- winding_phases w0;
    do a <- low_side_ok el lp (rev (hops p));
    do b <- high_side_ok el (Some hp) 3 (hops p);
    Ok (right_way && a && b)
  | [_; _] => Ok true                                                           (* 93: only > 2 *)
  | _ => Ok false
  end.

(** check_transformer_phase_path.py:25-171 [check_transformer_phase_path]. *)
Definition check_transformer_phase_path (ord : list cobj -> list cobj) (names : string -> option cobj)
    (needs : bool) (m : list cobj) : res bool :=
  match sources m with
  | [] => Ok false
  | _ =>
    foldM (fun r src =>
        do '(n, n') <- closed_network m (source_bus src);
        do ps <- shortest_paths (net_graph n') (source_bus src);
        foldM (fun r c =>
            match e_conn (c_e c) with
            | None => Ok r
            | Some x => match dget ps x with
                        | None => Ok r
                        | Some p => do ok <- load_passes names (element m n n') needs p; Ok (r && ok)
                        end
            end) (ord (loads m)) r) (sources m) true
  end.

(** ** fix_undersized_transformers.py *)
Local Open Scope Qc_scope.
Definition qc (z : Z) : Qc := Q2Qc (inject_Z z).

(** Line 25, in kVA. *)
Definition transformer_sizes : list Qc := map qc [15; 25; 50; 75; 100; 300; 500; 1000; 2000; 3000; 5000]%Z.

Definition qc_ltb (a b : Qc) : bool := if Qclt_le_dec a b then true else false.

(** Lines 55-70 for one load. *)
Definition note_load (el : string -> string -> res info) (ps : dict (list string)) (tm : dict (list (option string)))
    (c : cobj) : res (dict (list (option string))) :=
  match e_conn (c_e c) with
  | None => Ok tm
  | Some x =>
    match dget ps x with
    | None => Ok tm
    | Some p =>
      do '(ts, _) <- scan el p;
      match ts with
      | [t] => Ok (dset tm t (match dget tm t with Some l => l | None => [] end ++ [c_name c]))
      | _ => Ok tm
      end
    end
  end.

(** [model[name]] after set_names: the position of the last object with that name. *)
Definition find_object (m : list cobj) (x : option string) : res nat := of_opt EKey (lookup (map c_e m) x).
Definition get_object (m : list cobj) (k : nat) : res cobj := of_opt EIndex (nth_error m k).

(** Lines 74-79: the load of a transformer in kW. *)
Definition load_kw (m : list cobj) (names : list (option string)) : res Qc :=
  foldM (fun tot x =>
      do k <- find_object m x; do c <- get_object m k;
      do ps <- use (c_loads c);
      foldM (fun tot p => do v <- of_opt EType p; Ok (tot + v / qc 1000)) ps tot) names 0.

Definition set_ratings (ws : list winding) (r : Qc) : list winding :=
  map (fun w => mkWinding (Some r) (wd_phases w)) ws.

Fixpoint set_at (m : list cobj) (k : nat) (f : cobj -> cobj) : list cobj :=
  match m, k with
  | [], _ => []
  | c :: t, O => f c :: t
  | c :: t, S k' => c :: set_at t k' f
  end.

Definition with_windings (ws : list winding) (c : cobj) : cobj :=
  mkC (c_e c) (c_sub c) (c_wires c) (Some (Some ws)) (c_loads c).

(** Lines 72-91 for one transformer. *)
Definition upgrade (m : list cobj) (e : string * list (option string)) : res (list cobj) :=
  do k <- find_object m (Some (fst e)); do t <- get_object m k;
  do ws <- use (c_windings t);
  do w0 <- nth_winding ws 0;
  do rated <- of_opt EType (wd_rated w0);
  do total <- load_kw m (snd e);
  if qc_ltb (rated / qc 1000) total then
    match find (fun sz => qc_ltb total sz) transformer_sizes with
    | Some sz => Ok (set_at m k (with_windings (set_ratings ws (sz * qc 1000))))
    | None => Ok m
    end
  else Ok m.

(** fix_undersized_transformers.py:19-92.  transformer_load_map is not reset between sources. *)
Definition fix_undersized_transformers (ord : list cobj -> list cobj) (m : list cobj) : res (list cobj) :=
  match sources m with
  | [] => Ok m
  | srcs =>
    do '(m', _) <- foldM (fun (st : list cobj * dict (list (option string))) src =>
        let (m1, tm) := st in
        do '(n, n') <- closed_network m1 (source_bus src);
        do ps <- shortest_paths (net_graph n') (source_bus src);
        do tm' <- foldM (note_load (element m1 n n') ps) (ord (loads m)) tm;
        do m' <- foldM upgrade tm' m1;
        Ok (m', tm')) srcs (m, []);
    Ok m'
  end.
