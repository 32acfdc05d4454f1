(** The loads and capacitors of the Windmil reader.
    Models ditto/readers/windmil_ascii/read.py lines 361-478 ([parse_loads],
    [parse_capacitors]) on the graph that wm_reader.py builds (its lines 289-360).
    Simplifications: a node is given with its loads and the feeders and
    substations of its outgoing edges; floats are exact rationals; only ASCII
    letters are put in capitals. *)
From Coq Require Import QArith.
From Verif Require Import Base WmLineModel.
Local Open Scope string_scope.
Local Open Scope list_scope.

(** One load of a node (wm_reader.py 334-358). *)
Record consumer := mkConsumer {
  c_name : string; c_enabled : bool; c_mix : string; c_phases : string;
  c_kw : list (res Q); c_kvar : list (res Q) }.

(** A node: name, position, loads if any were put on it, if capacitors were put
    on it, and feeder and substation of each outgoing edge. *)
Record node := mkNode {
  n_name : string; n_pos : option (Q * Q); n_loads : option (list consumer);
  n_capacitors : bool; n_out : list (option string * option string) }.

(** One row of the "Load Mix" table. *)
Record mix := mkMix { m_id : string; m_z : res Q; m_i : res Q; m_p : res Q; m_conn : string }.

Record phase_load := mkPL {
  p_phase : string; p_p : Q; p_q : Q; p_zip : bool;
  p_power : Q * Q; p_current : Q * Q; p_impedance : Q * Q; p_model : Z }.

Record load := mkLoad {
  d_name : string; d_conn : string; d_element : string; d_feeder : string;
  d_substation : string; d_phases : list phase_load; d_pos : list (Q * Q) }.

Definition up (c : ascii) : ascii :=
  let n := nat_of_ascii c in
  if Nat.leb 97 n && Nat.leb n 122 then ascii_of_nat (n - 32) else c.

(** [s.upper().replace(" ", "")] *)
Fixpoint squeeze (s : string) : string :=
  match s with
  | "" => ""
  | String c t => if Ascii.eqb (up c) " "%char then squeeze t else String (up c) (squeeze t)
  end.

(** [s.replace("node", "load")] *)
Fixpoint node_load (skip : nat) (s : string) : string :=
  match s with
  | "" => ""
  | String c t =>
      match skip with
      | S k => node_load k t
      | O => if prefix "node" s then "load" ++ node_load 3 t else String c (node_load 0 t)
      end
  end%string.

(** read.py 372-387: fractions of impedance, current and power, if the load is a
    ZIP load, and its connection. *)
Definition mixture (mixes : list mix) (name : string) : res (Q * Q * Q * bool * string) :=
  if negb (String.eqb (squeeze name) "NONE") then
    do lm <- of_opt EIndex (find (fun m => String.eqb (m_id m) name) mixes);
    do z <- m_z lm; do i <- m_i lm; do p <- m_p lm;
    Ok (z, i, p, true, if String.eqb (m_conn lm) "W" then "Y" else "D")
  else Ok (0%Q, 0%Q, 1%Q, false, "Y").

(** read.py 407-420: one phase. *)
Definition one_phase (c : consumer) (z i p : Q) (zip : bool) (pk : string * nat) : res phase_load :=
  do kw <- of_opt EIndex (nth_error (c_kw c) (snd pk));
  do kw <- kw;
  do kvar <- of_opt EIndex (nth_error (c_kvar c) (snd pk));
  do kvar <- kvar;
  Ok (mkPL (fst pk) kw kvar zip (p * 100, p * 100)%Q (i * 100, i * 100)%Q (z * 100, z * 100)%Q
           (if zip then 8 else 1)%Z).

(** read.py 370-426: one load; nothing if it is not enabled. *)
Definition one_load (mixes : list mix) (tab : @dict (list nat)) (n : node)
  (fs : option string * option string) (c : consumer) : res (list load) :=
  if c_enabled c then
    do m <- mixture mixes (c_mix c);
    let '(z, i, p, zip, conn) := m in
    do l0 <- of_opt EKey (dget tab (c_phases c));
    do ps <- mapM (one_phase c z i p zip) (combine (letters (c_phases c)) l0);
    Ok [mkLoad (node_load 0 (c_name c)) conn (n_name n) (text (fst fs)) (text (snd fs)) ps
               (match n_pos n with Some q => [q] | None => [] end)]
  else Ok [].

(** read.py 363-369: the loads of one node. *)
Definition one_node (mixes : list mix) (tab : @dict (list nat)) (n : node) : res (list load) :=
  match n_loads n, n_out n with
  | Some cs, fs :: _ => do ls <- mapM (one_load mixes tab n fs) cs; Ok (concat ls)
  | _, _ => Ok []
  end.

(** read.py 361-426 [parse_loads], with the dictionary that [parse_lines] left. *)
Definition parse_loads (mixes : list mix) (tab : @dict (list nat)) (ns : list node) : res (list load) :=
  do ls <- mapM (one_node mixes tab) ns; Ok (concat ls).

(** wm_reader.py 335-358: the keys of a load's dictionary. *)
Definition load_keys : list string :=
  ["name"; "type"; "phases"; "x"; "y"; "load mix"; "load zone"; "load growth"; "billing code";
   "kw"; "kvar"; "consumers"; "isInteruptable"; "enabled"; "meter number"].

(** read.py 434-437: the loop takes the node's loads for its capacitors; the first
    thing read of each is its state, and no capacitor is made before. The rest of
    the loop body is not reached, as the keys of a load are fixed. *)
Definition node_capacitors (n : node) : res (list string) :=
  match n_capacitors n, n_out n with
  | true, _ :: _ =>
      do cs <- of_opt EKey (n_loads n);
      mapM (fun c => if smem "state" load_keys then Ok (c_name c) else Err EKey) cs
  | _, _ => Ok []
  end.

(** read.py 428-478 [parse_capacitors]: the names of the capacitors. *)
Definition parse_capacitors (ns : list node) : res (list string) :=
  do cs <- mapM node_capacitors ns; Ok (concat cs).
