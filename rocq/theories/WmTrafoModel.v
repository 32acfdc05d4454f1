(** The transformers of the Windmil reader.
    Models ditto/readers/windmil_ascii/read.py lines 480-562
    ([parse_transformers]) on the graph that wm_reader.py builds (494-536).
    Simplifications: floats are real numbers; the transformer edges are a list
    in the order of the graph; [list(set)[0]] is a parameter that picks one of
    the kinds; [phase_2_index] is asked for single letters only. *)
From Coq Require Import Reals.
From Verif Require Import Base WmLineModel.
Local Open Scope string_scope.
Local Open Scope list_scope.

(** The "Tertiary Child Identifier": missing (NaN), a number or a string. *)
Inductive tertiary := TNaN | TNum | TStr.

Record xedge := mkX {
  x_from : string; x_to : string; x_phases : string; x_conn : list string; x_kv : list (res R);
  x_tertiary : tertiary; x_equipment : list string; x_feeder : option string;
  x_substation : option string; x_center : res Z }.

(** One row of the "Transformer" table. *)
Record xrow := mkXRow { k_id : string; k_cell : string -> res R; k_pad : bool }.

Record winding := mkWdg {
  g_resistance : R; g_voltage : R; g_conn : string; g_power : R; g_type : Z;
  g_phases : list string }.

Record transformer := mkTr {
  t_name : string; t_from : string; t_to : string; t_feeder : string; t_substation : string;
  t_kva : R; t_noload : R; t_pad : bool; t_reactances : list R; t_center : Z;
  t_pos : R * R; t_windings : list winding }.

(** [s.replace("node_", "tr_")] *)
Fixpoint node_tr (skip : nat) (s : string) : string :=
  match s with
  | "" => ""
  | String c t =>
      match skip with
      | S k => node_tr k t
      | O => if prefix "node_" s then "tr_" ++ node_tr 4 t else String c (node_tr 0 t)
      end
  end%string.

(** read.py 487-488: the kinds of equipment, "NONE" left out. *)
Definition kinds (e : xedge) : list string :=
  filter (fun s => negb (String.eqb s "NONE")) (x_equipment e).

(** read.py 497: [np.isnan] of a string is an error. *)
Definition windings_of (t : tertiary) : res nat :=
  match t with TNaN => Ok 2 | TNum => Ok 3 | TStr => Err EType end.

(** read.py 548-560: the phase windings; each letter is looked up. *)
Definition phase_winding (p : string) : res string :=
  do ix <- of_opt EKey (dget phase_2_index p); Ok p.

(** read.py 536-562: winding [i] of [n]; [rated] is the cell "Single Phase Rated
    kVA- Zps", which is one number only if the table has one such row. *)
Definition one_winding (e : xedge) (r : R) (n : nat) (rated : res R) (i : nat) : res winding :=
  do kv <- of_opt EIndex (nth_error (x_kv e) i);
  do kv <- kv;
  let kV := (kv * 1000)%R in
  do conn <- of_opt EIndex (nth_error (x_conn e) i);
  do kva <- rated;
  do ps <- mapM phase_winding (letters (x_phases e));
  Ok (mkWdg (r / INR n) (if Nat.eqb (length (letters (x_phases e))) 1 then kV else (1732 / 1000 * kV)%R)
            conn (kva * 1000)%R (if Nat.eqb i 0 then 0 else 2)%Z ps).

Section Reader.
Variable rows : list xrow.
Variable pos : string -> option (R * R).
Variable pick : list string -> string.
(** Does a number equal 0? (a division by it is an error) *)
Variable is_zero : R -> bool.

(** read.py 484-562: one edge. *)
Definition one_transformer (e : xedge) : res (list transformer) :=
  match kinds e with
  | [] => Ok []
  | ks =>
    let found := filter (fun k => String.eqb (k_id k) (pick ks)) rows in
    do n <- windings_of (x_tertiary e);
    do k <- of_opt EIndex (nth_error found 0);
    do ratio <- k_cell k "X/R Ratio- Phase A";
    do z <- k_cell k "Percent Impedance- Zps";
    let r := sqrt (z ^ 2 / (ratio ^ 2 + 1)) in
    let x := sqrt (z ^ 2 - r ^ 2) in
    do a <- k_cell k "Single Phase Base kVA- Zps";
    do b <- k_cell k "Single Phase Base kVA- Zpt";
    do c <- k_cell k "Single Phase Base kVA- Zst";
    do loss <- k_cell k "No-Load Loss- Zps";
    do nl <- (if is_zero a then Err EZeroDiv else Ok (loss / a)%R);
    do ct <- x_center e;
    do p <- of_opt EKey (pos (x_to e));
    let rated := match found with [k] => k_cell k "Single Phase Rated kVA- Zps" | _ => Err EType end in
    do ws <- mapM (one_winding e r n rated) (seq 0 n);
    Ok [mkTr (node_tr 0 (x_to e)) (x_from e) (x_to e) (text (x_feeder e)) (text (x_substation e))
             (a + b + c)%R nl (k_pad k) [x] ct p ws]
  end.

(** read.py 480-562 [parse_transformers]. *)
Definition parse_transformers (es : list xedge) : res (list transformer) :=
  do ts <- mapM one_transformer es; Ok (concat ts).
End Reader.
