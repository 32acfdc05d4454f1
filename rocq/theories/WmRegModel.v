(** The regulators of the Windmil reader.
    Models ditto/readers/windmil_ascii/read.py lines 564-598 ([parse_regulators])
    and 622-684 ([CreateRegXfmr]) on the graph that wm_reader.py builds (443-491),
    with the attribute "kv" that [get_base_kv] gives (WmKvModel.v).
    Simplifications: floats are exact rationals; the feeder and the substation of
    a regulator are strings; [list(set)[0]] is a parameter that picks one of the
    kinds; the printed text is left out. *)
From Coq Require Import QArith.
From Verif Require Import Base WmLineModel.
Local Open Scope string_scope.
Local Open Scope list_scope.

(** The value of "kv": the number of a substation, the list (input, output,
    tertiary) of a transformer, or None. *)
Inductive kv := KNone | KNum (q : Q) | KList (l : list (res Q)).

Record redge := mkR {
  e_from : string; e_to : string; e_name : string; e_phases : string; e_conn : list string;
  e_kv : kv; e_equipment : list string; e_vset : list (res Q); e_ldcr : list (res Q);
  e_ldcx : list (res Q); e_high : list (res Q); e_low : list (res Q);
  e_feeder : string; e_substation : string }.

(** One row of the "Regulator" table. *)
Record rrow := mkRRow { k_id : string; k_bandwidth : res Q; k_ampacity : res Q }.

Record phase_winding := mkPW { p_phase : string; p_tap : Z; p_r : Q; p_x : Q }.
Record winding := mkWdg {
  g_voltage : Q; g_conn : string; g_power : Q; g_type : Z; g_phases : list phase_winding }.
Record transformer := mkTr {
  t_name : string; t_from : string; t_to : string; t_feeder : string; t_substation : string;
  t_kva : Q; t_pos : Q * Q; t_windings : list winding }.
Record regulator := mkReg {
  r_name : string; r_from : string; r_to : string; r_bandwidth : Q; r_transformer : string;
  r_feeder : string; r_substation : string; r_pos : Q * Q }.

(** [int(q)]: towards 0. *)
Definition trunc (q : Q) : Z := Z.quot (Qnum q) (Zpos (Qden q)).

(** [float(kv[0])]: a number or None cannot be indexed. *)
Definition first_kv (k : kv) : res Q :=
  match k with
  | KList l => do x <- of_opt EIndex (nth_error l 0); x
  | _ => Err EType
  end.

(** [zip] of the phases and the five lists (669). *)
Fixpoint zip6 (ps : list string) (a b c d e : list (res Q)) : list (string * (res Q * res Q * res Q * res Q * res Q)) :=
  match ps, a, b, c, d, e with
  | p :: ps, x1 :: a, x2 :: b, x3 :: c, x4 :: d, x5 :: e => (p, (x1, x2, x3, x4, x5)) :: zip6 ps a b c d e
  | _, _, _, _, _, _ => []
  end.

(** read.py 670-682: one phase. The names [vu] and [vl] are those of the code: the
    lists come in the order low, high. *)
Definition one_phase (z : string * (res Q * res Q * res Q * res Q * res Q)) : res phase_winding :=
  let '(phase, (r, x, vu, vl, vs)) := z in
  do vu <- vu; do vl <- vl;
  let step := ((vu - vl) / 33)%Q in
  do vs <- vs;
  do tap <- (if Qeq_bool step 0 then Err EZeroDiv else Ok (trunc ((vs - 1) / step)));
  do ix <- of_opt EKey (dget phase_2_index phase);
  do r <- r; do x <- x;
  Ok (mkPW phase tap r x).

(** read.py 651-683: winding [i]. *)
Definition one_winding (e : redge) (amp : Q) (i : nat) : res winding :=
  do k <- first_kv (e_kv e);
  let kV := (k * 1000)%Q in
  do conn <- of_opt EIndex (nth_error (e_conn e) i);
  do ps <- mapM one_phase (zip6 (letters (e_phases e)) (e_ldcr e) (e_ldcx e) (e_low e) (e_high e) (e_vset e));
  Ok (mkWdg (if Nat.eqb (length (letters (e_phases e))) 1 then kV else ((1732 # 1000) * kV)%Q)
            conn (k * amp * 1000)%Q (if Nat.eqb i 0 then 0 else 2)%Z ps).

(** The last element ([iloc[-1]]) of a list. *)
Definition last_of {A} (l : list A) : option A := nth_error (rev l) 0.

(** read.py 622-684 [CreateRegXfmr]. *)
Definition create_reg_xfmr (pos : string -> option (Q * Q)) (e : redge) (k : rrow) : res transformer :=
  do v <- first_kv (e_kv e);
  do amp <- k_ampacity k;
  do p <- of_opt EKey (pos (e_to e));
  do ws <- mapM (one_winding e amp) (seq 0 2);
  Ok (mkTr ("xfmr_" ++ e_name e) (e_from e) (e_to e) (e_feeder e) (e_substation e)
           (v * amp * 3)%Q p ws).

Definition kinds (e : redge) : list string :=
  filter (fun s => negb (String.eqb s "NONE")) (e_equipment e).

(** read.py 567-597: one edge; the regulator and its transformer. *)
Definition one_regulator (rows : list rrow) (pos : string -> option (Q * Q)) (pick : list string -> string)
  (e : redge) : res (list (regulator * transformer)) :=
  match kinds e with
  | [] => Ok []
  | ks =>
    do k <- of_opt EIndex (last_of (filter (fun k => String.eqb (k_id k) (pick ks)) rows));
    do bw <- k_bandwidth k;
    do t <- create_reg_xfmr pos e k;
    do p <- of_opt EKey (pos (e_to e));
    Ok [(mkReg (e_name e) (e_from e) (e_to e) bw (t_name t) (e_feeder e) (e_substation e) p, t)]
  end.

(** read.py 564-598 [parse_regulators]. *)
Definition parse_regulators (rows : list rrow) (pos : string -> option (Q * Q)) (pick : list string -> string)
  (es : list redge) : res (list (regulator * transformer)) :=
  do l <- mapM (one_regulator rows pos pick) es; Ok (concat l).
