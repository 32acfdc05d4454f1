(** The impedances of a list of wires.
    Models ditto/readers/abstract_reader.py lines 534-763 ([get_phase_impedances]).
    Simplifications: real numbers instead of floating point numbers; the argument
    distance_matrix is a list of lists of numbers; a number of strands is a natural
    number; a root of a number that is not positive is modelled as a failure
    (it is zero, of which Carson's equation fails, or not a real number); log
    messages are left out except where building them raises. *)
From Coq Require Import Reals.
From Verif Require Import Base MatrixModel ImpedModel.
Local Open Scope string_scope.
Local Open Scope list_scope.
Local Open Scope R_scope.

(** The attributes of a wire, in meters and ohms per meter. *)
Record phwire := mkPhwire {
  p_gmr : option R; p_r : option R;
  cn_gmr : option R; cn_strands : option nat; cn_diameter : option R; cn_outside : option R; cn_r : option R }.

(** [convert_from_meters(x, "ft")], [convert_from_meters(x, "ft", inverse=True)] and
    [convert_from_meters(x, "mi", inverse=True)]: lines 259-289. *)
Definition feet (x : R) : R := 328084 / 100000 * x.
Definition per_foot (x : R) : R := x / (328084 / 100000).
Definition per_mile (x : R) : R := x / (621371 / 1000000000).

(** [convert_to_meters(z, "mi", inverse=True)]: lines 150-154. *)
Definition z_per_meter (z : C) : C := (fst z / (160934 / 100), snd z / (160934 / 100)).

(** Lines 550-563: the distances when there is no argument. *)
Definition default_distances (n : nat) (overhead : bool) : list (list R) :=
  tabulate n n (fun i j => INR ((i - j) + (j - i)) * (if overhead then 6 / 10 else 3 / 10)).

(** Lines 565-573. *)
Definition distances_feet (n : nat) (dist : list (list R)) : res (list (list R)) :=
  if negb (Nat.eqb n (length dist)) then Err EValue
  else mapM (fun i => mapM (fun j => do d <- of_opt EIndex (get2 dist i j); Ok (feet d)) (seq 0 n)) (seq 0 n).

(** [get_primitive_impedance_matrix(np.array(d), gmrs, rs)]: an array without rows has
    no two dimensions. *)
Definition primitive (d : list (list R)) (gmrs rs : list R) : res cmat :=
  match d with [] => Err EValue | _ :: _ => get_primitive_impedance_matrix d (map Some gmrs) (map Some rs) end.

(** Lines 578-594: the warning about a default value uses a name that is not defined. *)
Definition overhead_wire (w : phwire) : res (R * R) :=
  do g <- of_opt EName (p_gmr w);
  do r <- of_opt EName (p_r w);
  Ok (feet g, per_foot r).

(** Lines 575-606; there is no method [kron_reduce]. *)
Definition overhead_matrix (kron : bool) (ws : list phwire) (d : list (list R)) : res cmat :=
  do gr <- mapM overhead_wire ws;
  do z <- primitive d (map fst gr) (map snd gr);
  if kron then Err EAttr else Ok (map (map z_per_meter) z).

Definition default {A} (a : A) (o : option A) : A := match o with Some x => x | None => a end.

(** What is known of a cable: radius and resistance of the phase conductor, those of the
    neutral, and the radius of the circle of the strands. *)
Record cable := mkCable { k_gmr : R; k_r : R; k_gmr_n : R; k_r_n : R; k_radius : R }.

(** Lines 616-713. *)
Definition underground_wire (w : phwire) : res cable :=
  let g_strand := feet (default (5 / 10 / 1000 * (7788 / 10000)) (cn_gmr w)) in
  let n := default 32%nat (cn_strands w) in
  let diameter := default (1 / 1000) (cn_diameter w) in
  let outside := default (2593 / 100 / 1000) (cn_outside w) in
  let rn := default (269 / 1000000) (cn_r w) in
  let r := default (269 / 1000000) (p_r w) in
  let g := default (1326 / 100 / 2 / 1000 * (7788 / 10000)) (p_gmr w) in
  let radius := feet ((outside - diameter) / 2) in
  if Nat.eqb n 0 then Err EZeroDiv
  else
    let base := g_strand * INR n * radius ^ (n - 1) in
    if Rlt_dec 0 base then
      Ok (mkCable (feet g) (per_foot r) (Rpower base (1 / INR n)) (per_mile rn / INR n) radius)
    else Err EValue.

(** Lines 715-733: the distances of the conductors and then of their neutrals. *)
Definition cable_distances (n : nat) (d : list (list R)) (ks : list cable) : res (list (list R)) :=
  mapM (fun i => mapM (fun j =>
    let i' := (i mod n)%nat in
    let j' := (j mod n)%nat in
    if Bool.eqb (Nat.ltb i n) (Nat.ltb j n) then of_opt EIndex (get2 d i' j')
    else if Nat.eqb i' j' then do k <- of_opt EIndex (nth_error ks i'); Ok (k_radius k)
    else of_opt EIndex (get2 d i' j')) (seq 0 (2 * n))) (seq 0 (2 * n)).

(** Lines 607-761; [inv] is np.linalg.inv. *)
Definition underground_matrix (inv : cmat -> res cmat) (ws : list phwire) (d : list (list R)) : res cmat :=
  do ks <- mapM underground_wire ws;
  let n := length ws in
  do dcn <- cable_distances n d ks;
  do z <- primitive dcn (map k_gmr ks ++ map k_gmr_n ks) (map k_r ks ++ map k_r_n ks);
  do y <- kron_reduction C c0 cadd cmul csub inv z (Some (seq n n));
  Ok (map (map z_per_meter) y).

(** abstract_reader.py 534-763 *)
Definition get_phase_impedances (inv : cmat -> res cmat) (ws : list phwire) (dist : option (list (list R)))
  (overhead : bool) (kron_reduce : option bool) : res cmat :=
  let n := length ws in
  let kron := if Nat.eqb n 4 then true else default false kron_reduce in
  do d <- distances_feet n (default (default_distances n overhead) dist);
  if overhead then overhead_matrix kron ws d else underground_matrix inv ws d.
