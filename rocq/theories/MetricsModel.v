(** The metrics of a network, of the whole model and per feeder.
    Models ditto/metrics/network_analysis.py: analyze_object 776-1367, get_feeder 1369-1388,
    compute_all_metrics_per_feeder 1390-1687, compute_all_metrics 1689-1969, number_of_* 1971-2007,
    get_transformer_load_mapping 2030-2107, lv/mv_length_miles 2315-2333, length_mvXph/lvXph_miles 2335-2381,
    total_demand 2383-2392, total_reactive_power 2394-2403, number_of_loads_* 2405-2431,
    percentage_load_LV_kW_phX 2433-2465.

    Simplifications:
    - Numbers are rational: the rounding of floats is left out. [math.sqrt(3)] is the float nearest to it, which is
      a rational number.
    - Of the results of a feeder only the numbers are kept: the distributions of equipment names, switch categories,
      powers and power factors, the loads per transformer, the impedance lists, the points and the nominal voltages
      are left out, with the errors their computation may raise; the error raised by the power factor is kept.
    - The metrics that networkx computes (degree, diameter, path lengths, distances, loops) and the densities
      (convex hull) are left out.
    - [NaN] and [Inf] stand for [np.nan] and [np.inf].
    - Objects carry the attributes that are read; Python booleans are [bool], [None] counting as [false]. *)
From Verif Require Import Base StoreModel NetworkModel CenterTapModel.
From Coq Require Import QArith Qabs.
Local Open Scope string_scope.
Local Open Scope nat_scope.
Local Open Scope list_scope.

(** ** Objects *)

Record mline := mkMline {
  ml_from : option string; ml_to : option string;
  ml_fuse : bool; ml_switch : bool; ml_recloser : bool; ml_breaker : bool; ml_sectionalizer : bool;
  ml_wires : option (list wire); ml_volt : option Q; ml_length : option Q; ml_type : option string }.
Record mload := mkMload {
  mo_phases : option (list pload); mo_volt : option Q; mo_users : option Q; mo_kva : option Q }.
Record winding := mkWinding { wd_volt : option Q; wd_power : option Q; wd_phases : option nat }.
Record mtrans := mkMtrans { mt_windings : option (list winding) }.
Inductive body := Line (l : mline) | Load (o : mload) | Regulator | Capacitor | Transformer (t : mtrans) | Other.
(** [mb_name]: None when the object has no name; the other two are None when absent. *)
Record mobj := mkMobj { mb_name : option (option string); mb_conn : option string; mb_from : option string; mb_body : body }.

Definition is_line (o : mobj) : option mline := match mb_body o with Line l => Some l | _ => None end.
Definition is_load (o : mobj) : option mload := match mb_body o with Load l => Some l | _ => None end.

Definition Qlt_b (a b : Q) : bool := negb (Qle_bool b a).

(** [math.sqrt(3)] *)
Definition sqrt3 : Q := 3900231685776981 # 2251799813685248.
(** 0.000621371 *)
Definition mile : Q := 621371 # 1000000000.
(** 10 ** -3 and 10 ** -6 *)
Definition milli : Q := 1 # 1000.
Definition micro : Q := 1 # 1000000.

Definition abc (x : option string) : bool := is_in x [Some "A"; Some "B"; Some "C"].
Definition overhead (l : mline) : bool := okey_eqb (ml_type l) (Some "overhead").
Definition live (pls : list pload) : list pload := filter (fun x => negb (pl_drop x)) pls.
Definition some_only (l : list (option Q)) : list Q := flat_map (fun x => match x with Some q => [q] | None => [] end) l.
(** [np.sum] *)
Definition np_sum (l : list Q) : Q := fold_left Qplus l 0%Q.
Definition when {A} (b : bool) (l : list A) : list A := if b then l else [].

Section Metrics.
(** [self.LV_threshold] and [self.MV_threshold], lines 166-167; by default 1000 and 69000. *)
Variables LV MV : Q.
(** [self.compute_kva_density_with_transformers] *)
Variable by_transformers : bool.
(** [self.model[x].feeder_name]: None when there is no such object or attribute. *)
Variable feeder_name : string -> option (option string).
(** The power behind the transformer, lines 1286-1304: None when it is not in [self.transformer_load_mapping]. *)
Variable power_behind : option string -> option Q.

(** ** analyze_object *)

(** An increment: [self.results[feeder_name][key] += value]. *)
Definition incs := list (string * Q).

(** Lines 813-836 *)
Definition link (l : mline) : incs :=
  match ml_from l, ml_to l with
  | Some x, Some y =>
    match feeder_name x, feeder_name y with
    | Some (Some f), Some (Some g) => when (negb (String.eqb f g)) [("num_links_adjacent_feeders", 1%Q)]
    | _, _ => []
    end
  | _, _ => []
  end.

(** Lines 874-878 *)
Definition phases (ws : list wire) : list wire := filter (fun w => abc (w_phase w) && negb (w_drop w)) ws.

(** Lines 900-935, 945-980: [v] is "lv" or "mv". *)
Definition length_incs (v : string) (n : nat) (l : mline) : res incs :=
  do x <- of_opt EType (ml_length l);
  if Qle_bool 0 x then
    Ok ((v ++ "_len_mi", x)%string ::
      match n with
      | 1 => (v ++ "_1ph_len_mi", x)%string :: when (overhead l) [(v ++ "_oh_1ph_len_mi", x)%string]
      | 2 => (v ++ "_2ph_len_mi", x)%string :: when (overhead l) [(v ++ "_oh_2ph_len_mi", x)%string]
      | 3 => (v ++ "_3ph_len_mi", x)%string :: when (overhead l) [(v ++ "_oh_3ph_len_mi", x)%string]
      | _ => []
      end)
  else Ok [].

(** Lines 811-982 *)
Definition line_incs (l : mline) : res incs :=
  match ml_wires l with
  | None => Err EValue                                                        (* 892 *)
  | Some ws =>
    let n := length (phases ws) in
    do len <- match ml_volt l with
              | None => Ok []
              | Some v =>
                if Qle_bool (v * sqrt3) LV then length_incs "lv" n l
                else if Qlt_b (v * sqrt3) MV && Qlt_b LV (v * sqrt3) then length_incs "mv" n l
                else Ok []
              end;
    Ok (link l ++ when (ml_fuse l) [("num_fuses", 1%Q)] ++ when (ml_switch l) [("num_switches", 1%Q)] ++
        when (ml_recloser l) [("num_reclosers", 1%Q)] ++ when (ml_breaker l) [("num_breakers", 1%Q)] ++
        when (ml_sectionalizer l) [("num_sectionalizers", 1%Q)] ++ len)
  end.

(** The key for the phase: [pre]a[post]. *)
Definition phase_key (pre post : string) (x : option string) : option string :=
  if okey_eqb x (Some "A") then Some (pre ++ "a" ++ post)%string
  else if okey_eqb x (Some "B") then Some (pre ++ "b" ++ post)%string
  else if okey_eqb x (Some "C") then Some (pre ++ "c" ++ post)%string
  else None.

(** Lines 1069-1097, 1130-1163, 1172-1191: [amount] is added for each phase load of phase A, B or C with a power. *)
Definition phase_incs (pre post : string) (amount : Q -> Q) (pls : list pload) : incs :=
  flat_map (fun x => match phase_key pre post (pl_phase x), pl_p x with
                     | Some k, Some p => [(k, amount p)]
                     | _, _ => []
                     end) pls.

(** Lines 1052-1111 *)
Definition level_incs (o : mload) : incs :=
  match mo_volt o, mo_phases o with
  | Some v, Some pls =>
    if Qle_bool (v * sqrt3) LV then
      match length (live pls) with
      | 1 => [("num_lv_1ph_loads", 1%Q)]
      | 3 => [("num_lv_3ph_loads", 1%Q)]
      | _ => []
      end ++ phase_incs "sum_lv_ph" "_load_kw" (fun p => p) (live pls)
    else if Qlt_b (v * sqrt3) MV && Qlt_b LV (v * sqrt3) then
      when (Nat.eqb (length (live pls)) 3) [("num_mv_3ph_loads", 1%Q)]
    else []
  | _, _ => []
  end.

Definition all_zero (l : list (option Q)) : bool := forallb (fun x => match x with Some q => Qeq_bool q 0 | None => false end) l.

(** Lines 1113-1207 *)
Definition demand_incs (o : mload) : res incs :=
  match mo_phases o with
  | None => Ok []
  | Some pls =>
    let act := live pls in
    let kw :=
      if all_zero (map pl_p act) && all_zero (map pl_q act) then
        match mo_kva o with
        | Some k => when (negb (Qeq_bool k 0))
            (("sum_load_kw", k) :: phase_incs "sum_load_ph" "_kw" (fun _ => k / inject_Z (Z.of_nat (length act)))%Q act)
        | None => []
        end
      else ("sum_load_kw", np_sum (some_only (map pl_p act))) :: phase_incs "sum_load_ph" "_kw" (fun p => p) act in
    match pls with                                                            (* 1198: power factor *)
    | [] => Err EIndex
    | x :: _ =>
      match pl_p x, pl_q x with
      | Some _, Some _ => Ok (kw ++ [("sum_load_kvar", np_sum (some_only (map pl_q act)))])
      | _, _ => Err EType
      end
    end
  end.

(** Lines 985-1207 *)
Definition load_incs (o : mload) : res incs :=
  do d <- demand_incs o;
  Ok (match mo_users o with Some u => [("num_customers", u)] | None => [] end ++
      when (negb by_transformers) match mo_kva o with Some k => [("sum_distribution_transformer_mva", (k * micro)%Q)] | None => [] end ++
      level_incs o ++ d).

(** Python's [max] *)
Definition py_max (l : list Q) : res Q :=
  match l with [] => Err EValue | x :: r => Ok (fold_left (fun m y => if Qlt_b m y then y else m) r x) end.

(** Lines 1229-1328 *)
Definition overload_incs (name : option string) (t : mtrans) : res incs :=
  match power_behind name with
  | None => Ok []
  | Some total =>
    match mt_windings t with
    | None => Err EName                                                       (* 1318 *)
    | Some ws => do k <- py_max (some_only (map wd_power ws)); Ok (when (Qlt_b k total) [("num_overloaded_transformers", 1%Q)])
    end
  end.

(** Lines 1330-1365 *)
Definition kind_incs (t : mtrans) : res incs :=
  match mt_windings t with
  | None | Some [] => Ok []
  | Some (w :: r) =>
    match wd_volt w with
    | None => Ok []
    | Some v =>
      match r with
      | [] => Err EIndex
      | w' :: _ =>
        match wd_volt w' with
        | None => Ok []
        | Some v' =>
          Ok (when (negb (Qeq_bool v v'))
               ([("num_distribution_transformers", 1%Q)] ++
                when by_transformers match wd_power w with Some p => [("sum_distribution_transformer_mva", (p * micro)%Q)] | None => [] end ++
                match wd_phases w with
                | Some 1 => [("num_1ph_transformers", 1%Q)]
                | Some 3 => [("num_3ph_transformers", 1%Q)]
                | _ => []
                end))
        end
      end
    end
  end.

Definition object_incs (o : mobj) : res incs :=
  match mb_body o with
  | Line l => line_incs l
  | Load x => load_incs x
  | Regulator => Ok [("num_regulators", 1%Q)]
  | Capacitor => Ok [("num_capacitors", 1%Q)]
  | Transformer t =>
    do a <- overload_incs (match mb_name o with Some x => x | None => None end) t;
    do b <- kind_incs t;
    Ok (a ++ b)
  | Other => Ok []
  end.

Definition bump (c : dict Q) (i : string * Q) : res (dict Q) :=
  match dget c (fst i) with Some x => Ok (dset c (fst i) (x + snd i)%Q) | None => Err EKey end.

(** analyze_object, on [self.results[feeder_name]]. *)
Definition analyze (c : dict Q) (o : mobj) : res (dict Q) :=
  do l <- object_incs o;
  foldM bump l c.

(** ** The loops *)

(** setup_results_data_structure, lines 691-771: the numbers that start from zero and are counted. *)
Definition counters : list string :=
  ["num_regulators"; "num_fuses"; "num_switches"; "num_reclosers"; "num_breakers"; "num_capacitors"; "num_sectionalizers";
   "num_customers"; "num_links_adjacent_feeders"; "num_overloaded_transformers"; "num_distribution_transformers";
   "sum_distribution_transformer_mva"; "num_1ph_transformers"; "num_3ph_transformers";
   "lv_len_mi"; "mv_len_mi";
   "mv_1ph_len_mi"; "mv_oh_1ph_len_mi"; "mv_2ph_len_mi"; "mv_oh_2ph_len_mi"; "mv_3ph_len_mi"; "mv_oh_3ph_len_mi";
   "lv_1ph_len_mi"; "lv_oh_1ph_len_mi"; "lv_2ph_len_mi"; "lv_oh_2ph_len_mi"; "lv_3ph_len_mi"; "lv_oh_3ph_len_mi";
   "sum_load_kw"; "sum_load_pha_kw"; "sum_load_phb_kw"; "sum_load_phc_kw"; "sum_load_kvar";
   "num_lv_1ph_loads"; "num_lv_3ph_loads"; "num_mv_3ph_loads";
   "sum_lv_pha_load_kw"; "sum_lv_phb_load_kw"; "sum_lv_phc_load_kw"].
Definition fresh : dict Q := map (fun k => (k, 0%Q)) counters.

Inductive value := Num (q : Q) | NaN | Inf.

Definition miles_keys : list string :=
  ["lv_len_mi"; "mv_len_mi"; "mv_1ph_len_mi"; "mv_2ph_len_mi"; "mv_3ph_len_mi"; "lv_1ph_len_mi"; "lv_2ph_len_mi"; "lv_3ph_len_mi";
   "mv_oh_1ph_len_mi"; "mv_oh_2ph_len_mi"; "mv_oh_3ph_len_mi"; "lv_oh_1ph_len_mi"; "lv_oh_2ph_len_mi"; "lv_oh_3ph_len_mi"].
Definition kilo_keys : list string :=
  ["sum_load_kw"; "sum_load_kvar"; "sum_lv_pha_load_kw"; "sum_lv_phb_load_kw"; "sum_lv_phc_load_kw";
   "sum_load_pha_kw"; "sum_load_phb_kw"; "sum_load_phc_kw"].
(** Lines 1503-1511, 1796-1804 *)
Definition scale (f : Q) (ks : list string) (c : dict Q) : dict Q :=
  fold_left (fun c k => match dget c k with Some q => dset c k (q * f)%Q | None => c end) ks c.

(** The post-processing, lines 1462-1591 and 1753-1881: the counters, converted, and the numbers derived from them. *)
Definition finish (c : dict Q) : res (dict value) :=
  do a <- of_opt EKey (dget c "sum_lv_pha_load_kw");
  do b <- of_opt EKey (dget c "sum_lv_phb_load_kw");
  do d <- of_opt EKey (dget c "sum_lv_phc_load_kw");
  let tot := (a + b + d)%Q in
  let pct x := Num (if Qeq_bool tot 0 then 0 else x / tot * 100)%Q in
  do n1 <- of_opt EKey (dget c "num_1ph_transformers");
  do n3 <- of_opt EKey (dget c "num_3ph_transformers");
  let c' := scale milli kilo_keys (scale mile miles_keys c) in
  do cust <- of_opt EKey (dget c' "num_customers");
  do mv <- of_opt EKey (dget c' "mv_len_mi");
  do lv <- of_opt EKey (dget c' "lv_len_mi");
  do m1 <- of_opt EKey (dget c' "mv_oh_1ph_len_mi");
  do m2 <- of_opt EKey (dget c' "mv_oh_2ph_len_mi");
  do m3 <- of_opt EKey (dget c' "mv_oh_3ph_len_mi");
  do l1 <- of_opt EKey (dget c' "lv_oh_1ph_len_mi");
  do l2 <- of_opt EKey (dget c' "lv_oh_2ph_len_mi");
  do l3 <- of_opt EKey (dget c' "lv_oh_3ph_len_mi");
  let oh x := (if Qeq_bool (lv + mv) 0 then NaN else Num (x / (lv + mv) * 100))%Q in
  do rec <- of_opt EKey (dget c' "num_reclosers");
  do sec <- of_opt EKey (dget c' "num_sectionalizers");
  do kw <- of_opt EKey (dget c' "sum_load_kw");
  do ka <- of_opt EKey (dget c' "sum_load_pha_kw");
  do kb <- of_opt EKey (dget c' "sum_load_phb_kw");
  do kc <- of_opt EKey (dget c' "sum_load_phc_kw");
  let third := (kw / 3)%Q in
  let r := map (fun kv => (fst kv, Num (snd kv))) c' in
  Ok (r ++
    [("perct_lv_pha_load_kw", pct a); ("perct_lv_phb_load_kw", pct b); ("perct_lv_phc_load_kw", pct d);
     ("ratio_1ph_to_3ph_transformers", if Qeq_bool n3 0 then Inf else Num (n1 / n3)%Q);
     ("ratio_mv_len_to_num_cust", if Qeq_bool cust 0 then NaN else Num (mv / cust)%Q);
     ("perct_mv_oh_len", oh (m1 + m2 + m3)%Q); ("perct_lv_oh_len", oh (l1 + l2 + l3)%Q);
     ("num_sectionalizers_per_recloser", if Qeq_bool rec 0 then NaN else Num (sec / rec)%Q);
     ("avg_load_imbalance_by_phase",
        if Qeq_bool kw 0 then NaN else Num ((Qabs (ka - third) + Qabs (kb - third) + Qabs (kc - third)) / kw)%Q)] ++
     (* 1585-1591: without customers it is ratio_mv_len_to_num_cust that is set *)
     when (negb (Qeq_bool cust 0)) [("ratio_lv_len_to_num_cust", Num (lv / cust)%Q)]).

(** compute_all_metrics, lines 1747-1881 *)
Definition compute_all_metrics (objs : list mobj) : res (dict value) :=
  do c <- foldM analyze objs fresh;
  finish c.

(** get_feeder, lines 1369-1388: [m] is [self.node_feeder_mapping]. *)
Definition get_feeder (m : dict string) (o : mobj) (name : option string) : option string :=
  let look x := match x with Some k => dget m k | None => None end in
  match look name with
  | Some f => Some f
  | None => match look (mb_conn o) with Some f => Some f | None => look (mb_from o) end
  end.

(** Lines 1450-1457 *)
Definition feeder_step (m : dict string) (names : list string) (r : dict (dict Q)) (o : mobj) : res (dict (dict Q)) :=
  match mb_name o with
  | None => Ok r
  | Some x =>
    match get_feeder m o x with
    | Some f =>
      if smem f names then
        do c <- of_opt EKey (dget r f);
        do c' <- analyze c o;
        Ok (dset r f c')
      else Ok r
    | None => Ok r
    end
  end.

(** compute_all_metrics_per_feeder: [names] are the feeders with a substation, lines 1439-1448. *)
Definition compute_all_metrics_per_feeder (m : dict string) (names : list string) (objs : list mobj) : res (dict (dict value)) :=
  do r <- foldM (feeder_step m names) objs (fold_left (fun r k => dset r k fresh) names []);
  mapM (fun kc => do d <- finish (snd kc); Ok (fst kc, d)) r.

(** ** The metrics one by one *)

(** Lines 1971-2007: [sum([1 for obj in models if ...])] *)
Definition count (f : mobj -> bool) (objs : list mobj) : nat := fold_left Nat.add (flat_map (fun o => when (f o) [1]) objs) 0.
Definition number_of_regulators := count (fun o => match mb_body o with Regulator => true | _ => false end).
Definition number_of_capacitors := count (fun o => match mb_body o with Capacitor => true | _ => false end).
Definition number_of_fuses := count (fun o => match is_line o with Some l => ml_fuse l | None => false end).
Definition number_of_reclosers := count (fun o => match is_line o with Some l => ml_recloser l | None => false end).
Definition number_of_switches := count (fun o => match is_line o with Some l => ml_switch l | None => false end).

(** Lines 2320, 2330: comparing None with a number fails. *)
Definition is_lv (v : option Q) : res bool := do x <- of_opt EType v; Ok (Qle_bool x LV).
Definition is_mv (v : option Q) : res bool := do x <- of_opt EType v; Ok (Qle_bool x MV && Qlt_b LV x).
Definition add_length (l : mline) (acc : Q) : res Q :=
  do x <- of_opt EType (ml_length l);
  Ok (if Qle_bool 0 x then (acc + x)%Q else acc).

(** lv_length_miles and mv_length_miles, by the test of the voltage. *)
Definition length_miles (level : option Q -> res bool) (objs : list mobj) : res Q :=
  do t <- foldM (fun acc o => match is_line o with
                              | None => Ok acc
                              | Some l => do b <- level (ml_volt l); if b : bool then add_length l acc else Ok acc
                              end) objs 0%Q;
  Ok (t * mile)%Q.
Definition lv_length_miles := length_miles is_lv.
Definition mv_length_miles := length_miles is_mv.

(** length_lvXph_miles and length_mvXph_miles *)
Definition length_Xph_miles (level : option Q -> res bool) (X : nat) (objs : list mobj) : res Q :=
  if Nat.leb 1 X && Nat.leb X 3 then
    do t <- foldM (fun acc o => match is_line o with
                                | None => Ok acc
                                | Some l =>
                                  do b <- level (ml_volt l);
                                  if b : bool then
                                    match ml_wires l with
                                    | Some ws => if Nat.eqb (length (filter (fun w => abc (w_phase w)) ws)) X then add_length l acc else Ok acc
                                    | None => Ok acc
                                    end
                                  else Ok acc
                                end) objs 0%Q;
    Ok (t * mile)%Q
  else Err EValue.
Definition length_lvXph_miles := length_Xph_miles is_lv.
Definition length_mvXph_miles := length_Xph_miles is_mv.

(** total_demand and total_reactive_power, by the attribute. *)
Definition total_of (f : pload -> option Q) (objs : list mobj) : Q :=
  (fold_left (fun acc o => match is_load o with
                           | Some x => match mo_phases x with Some pls => acc + np_sum (some_only (map f pls)) | None => acc end
                           | None => acc
                           end) objs 0 * milli)%Q.
Definition total_demand := total_of pl_p.
Definition total_reactive_power := total_of pl_q.

(** number_of_loads_LV_Xph *)
Definition number_of_loads_LV_Xph (X : nat) (objs : list mobj) : res nat :=
  if Nat.eqb X 1 || Nat.eqb X 3 then
    Ok (count (fun o => match is_load o with
                        | Some x => match mo_volt x, mo_phases x with
                                    | Some v, Some pls => Qle_bool v LV && Nat.eqb (length pls) X
                                    | _, _ => false
                                    end
                        | None => false
                        end) objs)
  else Err EValue.

(** percentage_load_LV_kW_phX: the pair of [demand_phase_X] and [tot_demand]. *)
Definition add_phase_load (X : string) (acc : Q * Q) (x : pload) : Q * Q :=
  if abc (pl_phase x) then
    match pl_p x with
    | Some p => if okey_eqb (pl_phase x) (Some X) then (fst acc + p, snd acc + p)%Q else (fst acc, (snd acc + p)%Q)
    | None => acc
    end
  else acc.
Definition percentage_load_LV_kW_phX (X : string) (objs : list mobj) : res Q :=
  if abc (Some X) then
    let '(d, t) := fold_left (fun acc o => match is_load o with
                                           | Some x => match mo_volt x, mo_phases x with
                                                       | Some v, Some pls => if Qle_bool v LV then fold_left (add_phase_load X) pls acc else acc
                                                       | _, _ => acc
                                                       end
                                           | None => acc
                                           end) objs (0, 0)%Q in
    if Qeq_bool t 0 then Err EZeroDiv else Ok (d / t * 100)%Q
  else Err EValue.
End Metrics.

(** ** get_transformer_load_mapping *)

(** Lines 2054-2105: the name of the transformer found above [node], if any. *)
Fixpoint climb (n : network) (fuel : nat) (node : string) : res (option (option string)) :=
  match fuel with
  | O => Err EFuel
  | S fuel' =>
    match predecessors (net_di n) node with
    | Err e => Err e
    | Ok [] => Ok None                                                        (* 2060 *)
    | Ok ((p, _, _) :: _) =>
      match edge_attr (net_graph n) p node with
      | Some a => if String.eqb (ea_cls a) "PowerTransformer" then Ok (Some (ea_name a)) else climb n fuel' p
      | None => climb n fuel' p
      end
    end
  end.

(** Lines 2095-2102: [mapping[t].append(l)], or a new list. *)
Fixpoint file_under (t l : option string) (m : list (option string * list (option string))) :=
  match m with
  | [] => [(t, [l])]
  | (k, ls) :: r => if okey_eqb k t then (k, ls ++ [l]) :: r else (k, ls) :: file_under t l r
  end.

(** Lines 2048-2105 for one load. *)
Definition mapping_step (n : network) (fuel : nat) (m : list (option string * list (option string))) (e : elem) :=
  if String.eqb (e_cls e) "Load" then
    match e_conn e with
    | Some c =>
      if smem c (d_nodes (net_di n)) then
        do t <- climb n fuel c;
        match t with
        | Some t => do l <- of_opt EAttr (e_name e); Ok (file_under t l m)
        | None => Ok m
        end
      else Ok m
    | None => Ok m
    end
  else Ok m.
Definition get_transformer_load_mapping (es : list elem) (n : network) (fuel : nat) : res (list (option string * list (option string))) :=
  foldM (mapping_step n fuel) es [].
