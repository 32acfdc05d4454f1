(** The regulators of the OpenDSS reader.
    Models ditto/readers/opendss/read.py 1835-2157 (parse_regulators).

    Simplifications: those of DssRdTransModel. Names that were met before only give a warning (1859-1864) and are left out.
    The variables N_windings, trans, bus and phases keep their values from one regulator to the next: [vars] (None: not
    assigned yet); the loop of 2130 leaves in trans a transformer of the model, which has no items ([TModel]). The default of
    the list of windings is empty. *)
From Verif Require Import Base CsvModel TextModel DssNameModel DssRdLoadModel DssRdTransModel.
From Coq Require Import Reals.
Local Open Scope string_scope.
Local Open Scope nat_scope.
Local Open Scope list_scope.

Record rreg := mkRr { rr_name : option string; rr_feeder : string; rr_winding : option Z; rr_shift : option Z; rr_windings : list rwinding;
  rr_ct : option R; rr_noload : option R; rr_delay : option R; rr_high : option Z; rr_low : option Z; rr_set : option Z; rr_pt : option R; rr_band : option R;
  rr_center : option R; rr_limit : option R; rr_trans : option string; rr_from : option string; rr_to : option string; rr_reacs : list R; rr_phase : option string }.
Inductive tvar := TData (d : data) | TModel.
Record rvars := mkRv { v_n : option Z; v_trans : option tvar; v_bus : option string; v_phases : option (list string) }.

Section Reg.
Variable int_ : string -> option Z.
Variable num : string -> option R.
Variable source_name : string.
Variable transformers : list (string * data).   (* _dss_class_to_dict("Transformer") *)
Variable read : list rtrans.                    (* self._transformers *)

(** [l[z]], from the end when z is negative *)
Definition py_nth {A} (l : list A) (z : Z) : option A :=
  if Z.ltb z 0 then (if Z.ltb (z + Z.of_nat (length l)) 0 then None else nth_error l (Z.to_nat (z + Z.of_nat (length l)))) else nth_error l (Z.to_nat z).
Definition must_int (d : data) (k : string) : res Z := do v <- of_opt EKey (d k); match v with PText s => of_opt EValue (int_ s) | PList _ => Err EType end.
(** 1983-2021: one phase of a winding *)
Definition reg_pw (trans d : data) (w : nat) (node : string) : res rpw :=
  do tap <- (if present trans "taps" then do s <- item trans "taps" w; do r <- of_opt EValue (num s); Ok (Some r)
             else if present d "TapNum" then do r <- must num d "TapNum"; Ok (Some r) else Ok None);
  Ok (mkRpw (r_phase_str node) tap (float_of num d "R") (float_of num d "X")).
(** 1918-2021: one winding; the bus and the phases stay *)
Definition reg_winding (trans d : data) (s : option string * option (list string)) (w : nat) : res (option string * option (list string) * rwinding) :=
  let bus := match item trans "buses" w with Ok b => Some b | Err _ => fst s end in
  do x <- (if present trans "buses" then do b <- of_opt EName bus; Ok (bus, snd (bus_parts b)) else Ok (fst s, ["1"; "2"; "3"]));
  do ps <- mapM (reg_pw trans d w) (snd x);
  Ok (fst x, Some (snd x),
      mkRw (match item trans "conns" w with Ok c => Some (if String.eqb (lower c) "wye" then "Y" else if String.eqb (lower c) "delta" then "D" else c) | Err _ => None end)
        (option_map (fun v => v * 1000)%R (float_item num trans "kVAs" w)) (option_map (fun v => v * 1000)%R (float_of num trans "emerghkVA"))
        (option_map (fun v => v * 1000)%R (float_item num trans "kVs" w)) (float_item num trans "%Rs" w) false None ps).
Fixpoint reg_windings (trans d : data) (s : option string * option (list string)) (ws : list nat) : res (option string * option (list string) * list rwinding) :=
  match ws with
  | [] => Ok (fst s, snd s, [])
  | w :: rest =>
    do x <- reg_winding trans d s w;
    do y <- reg_windings trans d (fst x) rest;
    Ok (fst y, snd x :: snd y)
  end.
(** 1876-1882 *)
Definition find_trans (d : data) : res (option data) :=
  match d "transformer" with
  | None => Ok None
  | Some (PList _) => Err EAttr
  | Some (PText s) => Ok (option_map snd (find (fun x => String.eqb (fst x) ("Transformer." ++ lower s)) transformers))
  end.
(** 2030-2052: types of windings that are there, else an error *)
Definition reg_types (n : option Z) (t : option tvar) (ws : list rwinding) : res (list rwinding) :=
  do n <- of_opt EName n;
  if Z.eqb n 2 || Z.eqb n 3 then
    do t <- of_opt EName t;
    match t with
    | TModel => Err EType
    | TData d => do ts <- types_of num d n; if Nat.ltb (length ws) (length ts) then Err EIndex else Ok (with_types ws ts)
    end
  else Ok ws.
(** 1847-2155 for one regulator; None when it is disabled *)
Definition parse_reg (v : rvars) (full : string) (d : data) : res (rvars * option rreg) :=
  do en <- of_opt EKey (d "enabled");
  if match en with PText s => String.eqb s "Yes" | PList _ => false end then
    do tr <- find_trans d;
    do x <- (match tr with
             | None => Ok (v, None, [])
             | Some t =>
               do n <- must_int t "windings";
               do sh <- shift_of t n;
               do y <- reg_windings t d (v_bus v, v_phases v) (seq 0 (Z.to_nat n));
               Ok (mkRv (Some n) (Some (TData t)) (fst (fst y)) (snd (fst y)), sh, snd y)
             end);
    let '(v1, sh, ws) := x in
    do ws' <- reg_types (v_n v1) (v_trans v1) ws;
    let name := match d "transformer" with Some (PText s) => Some (lower s) | _ => None end in
    let high := int_of int_ d "maxtapchange" in
    let found := match name with Some n => find (fun t => String.eqb (rt_name t) n) read | None => None end in
    let v2 := match name, read with Some _, _ :: _ => mkRv (v_n v1) (Some TModel) (v_bus v1) (v_phases v1) | _, _ => v1 end in
    Ok (v2, Some (mkRr (match split_on "." full with _ :: n :: _ => Some ("regulator_" ++ lower n)%string | _ => None end) source_name (int_of int_ d "winding") sh ws'
      (float_of num d "CTprim") (float_of num d "%noloadloss") (float_of num d "delay") high high (int_of int_ d "vreg") (float_of num d "ptratio") (float_of num d "band")
      (float_of num d "vreg") (float_of num d "vlimit") name
      (match found with Some t => rt_from t | None => None end) (match found with Some t => rt_to t | None => None end) (match found with Some t => rt_reacs t | None => [] end)
      (match int_of int_ d "PTphase", v_phases v1 with Some z, Some ps => match py_nth ps (z - 1) with Some m => r_phase_str m | None => None end | _, _ => None end)))
  else Ok (v, None).
Fixpoint parse_all_regs (v : rvars) (rs : list (string * data)) : res (list rreg) :=
  match rs with
  | [] => Ok []
  | (full, d) :: rest =>
    do x <- parse_reg v full d;
    do l <- parse_all_regs (fst x) rest;
    Ok (match snd x with Some r => r :: l | None => l end)
  end.
(** 1835-2157 *)
Definition parse_regulators (rs : list (string * data)) : res (list rreg) := parse_all_regs (mkRv None None None None) rs.
End Reg.
