(** The transformers of the OpenDSS reader.
    Models ditto/readers/opendss/read.py 1533-1832 (parse_transformers).

    Simplifications: those of DssRdLoadModel (dictionaries of texts and lists of texts, floats are reals, no warnings). The
    properties of the windings (buses, conns, kVs, kVAs, %Rs, taps) are lists, the others texts. The numbers [1, 2, 3] of
    1606-1638 are texts, which phase_mapping maps alike. The variables b1_name, b1_phases and b2_name keep their values from
    one transformer to the next: [vars] (None: not assigned yet). *)
From Verif Require Import Base CsvModel TextModel DssNameModel DssRdLoadModel.
From Coq Require Import Reals.
Local Open Scope string_scope.
Local Open Scope nat_scope.
Local Open Scope list_scope.

Record rpw := mkRpw { rw_phase : option string; rw_tap : option R; rw_r : option R; rw_x : option R }.
Record rwinding := mkRw { rw_conn : option string; rw_va : option R; rw_emerg : option R; rw_kv : option R; rw_res : option R; rw_ground : bool; rw_type : option Z; rw_phases : list rpw }.
Record rtrans := mkRt { rt_name : string; rt_feeder : string; rt_loss : option R; rt_sub : bool; rt_norm : option R; rt_noload : option R;
  rt_from : option string; rt_to : option string; rt_reacs : list R; rt_center : bool; rt_shift : option Z; rt_windings : list rwinding }.
Definition vars := option (string * list string * string).

Section Trans.
Variable int_ : string -> option Z.
Variable num : string -> option R.
Variable source_name : string.
Variable regs : list (string * data).

Definition list_of (d : data) (k : string) : option (list string) := match d k with Some (PList l) => Some l | _ => None end.
Definition present (d : data) (k : string) : bool := match d k with Some _ => true | None => false end.
(** [data[k][i]] and [float(data[k][i])] *)
Definition item (d : data) (k : string) (i : nat) : res string := do l <- of_opt EKey (list_of d k); of_opt EIndex (nth_error l i).
Definition float_item (d : data) (k : string) (i : nat) : option R := match item d k i with Ok s => num s | Err _ => None end.
(** 1601-1611: a bus and its nodes *)
Definition bus_parts (b : string) : string * list string := match split_on "." b with n :: m :: ms => (n, m :: ms) | _ => (b, ["1"; "2"; "3"]) end.
(** 1594-1642 *)
Definition ends_of (v : vars) (d : data) : vars :=
  match list_of d "buses" with
  | Some [b1; b2] | Some [b1; b2; _] => Some (fst (bus_parts b1), snd (bus_parts b1), fst (bus_parts b2))
  | _ => v
  end.
(** 1638-1639 *)
Definition from_to (v : vars) (d : data) : option string * option string :=
  match list_of d "buses", v with Some _, Some (b1, _, b2) => (Some b1, Some b2) | _, _ => (None, None) end.
(** 1652-1669 *)
Definition must (d : data) (k : string) : res R := do s <- of_opt EType (text_of d k); of_opt EValue (num s).
Definition must_if (d : data) (k : string) : res (list R) := if present d k then do r <- must d k; Ok [r] else Ok [].
Definition reacs_of (d : data) (n : Z) : res (list R) :=
  if present d "Xscarray" then
    Ok (match list_of d "Xscarray" with
        | Some (s :: _) => match mapM (fun x => of_opt EValue (num x)) (words s) with Ok l => l | Err _ => [] end
        | _ => []
        end)
  else if Z.eqb n 1 && present d "XHL" then do r <- must d "XHL"; Ok [r]
  else if Z.eqb n 2 then
    do a <- must_if d "XHL"; do b <- must_if d "XLT"; do c <- must_if d "XHT"; Ok (a ++ b ++ c)
  else Ok [].
(** 1688-1714 *)
Definition shift_of (d : data) (n : Z) : res (option Z) :=
  if Z.leb 2 n then
    do a <- item d "conns" 0;
    let wye s := String.eqb (lower s) "wye" in
    let delta s := String.eqb (lower s) "delta" in
    if wye a then do b <- item d "conns" 1; Ok (if wye b then Some 0%Z else if delta b then Some (-30)%Z else None)
    else if delta a then do b <- item d "conns" 1; Ok (if delta b then Some 0%Z else if wye b then Some (-30)%Z else None)
    else Ok None
  else Ok None.
(** 1786-1797: the settings of the last control of the transformer, as they are set one after the other *)
Definition control_step (name : string) (s : option R * option R) (x : string * data) : res (option R * option R) :=
  let c := snd x in
  if present c "transformer" then
    do t <- of_opt EAttr (text_of c "transformer");
    if String.eqb (lower t) (lower name) then
      do r <- (if present c "R" then do v <- must c "R"; Ok (Some v) else Ok (fst s));
      do x <- (if present c "X" then do v <- must c "X"; Ok (Some v) else Ok (snd s));
      Ok (r, x)
    else Ok s
  else Ok s.
(** 1762-1797 *)
Definition pw_of (name : string) (d : data) (w : nat) (node : string) : res rpw :=
  do s <- foldM (control_step name) regs (None, None);
  Ok (mkRpw (r_phase_str node) (if present d "taps" then float_item d "taps" w else if present d "tap" then float_of num d "tap" else None) (fst s) (snd s)).
(** 1716-1801 *)
Definition winding_of (name : string) (d : data) (n : Z) (nodes : option (list string)) (w : nat) : res rwinding :=
  do b <- item d "buses" w;
  do ns <- of_opt EName nodes;
  do ps <- mapM (pw_of name d w) ns;
  Ok (mkRw (match item d "conns" w with Ok s => if String.eqb (lower s) "wye" then Some "Y" else if String.eqb (lower s) "delta" then Some "D" else None | Err _ => None end)
    (option_map (fun v => v * 1000)%R (float_item d "kVAs" w)) (option_map (fun v => v * 1000)%R (float_of num d "emerghkVA"))
    (option_map (fun v => v * 1000)%R (float_item d "kVs" w)) (float_item d "%Rs" w)
    ((match cut_at ".0" b with Some _ => true | None => false end) && Z.eqb n 2) None ps).
(** 1803-1825 *)
Definition kv_item (d : data) (i : nat) : res R := do s <- item d "kVs" i; of_opt EValue (num s).
Definition kv_max (d : data) : res R :=
  do l <- of_opt EKey (list_of d "kVs");
  do rs <- mapM (fun s => of_opt EValue (num s)) l;
  match rs with [] => Err EValue | r :: t => Ok (fold_left Rmax t r) end.
Definition types_of (d : data) (n : Z) : res (list (option Z)) :=
  if Z.eqb n 2 then
    do a <- kv_item d 0; do b <- kv_item d 1;
    Ok (if Rle_dec b a then [Some 0%Z; Some 2%Z] else [Some 2%Z; Some 0%Z])
  else if Z.eqb n 3 then
    do a <- kv_item d 0; do m <- kv_max d;
    if Req_EM_T a m then Ok [Some 0%Z; Some 2%Z; Some 2%Z]
    else do b <- kv_item d 1; Ok (if Req_EM_T b m then [Some 2%Z; Some 0%Z; Some 2%Z] else [Some 2%Z; Some 2%Z; Some 0%Z])
  else Ok [].
Fixpoint with_types (ws : list rwinding) (ts : list (option Z)) : list rwinding :=
  match ws, ts with
  | w :: ws', t :: ts' => mkRw (rw_conn w) (rw_va w) (rw_emerg w) (rw_kv w) (rw_res w) (rw_ground w) t (rw_phases w) :: with_types ws' ts'
  | _, _ => ws
  end.
(** 1545-1831 for one transformer; None when it is disabled *)
Definition parse_trans (v : vars) (full : string) (d : data) : res (vars * option rtrans) :=
  do en <- of_opt EKey (d "enabled");
  if match en with PText s => String.eqb s "Yes" | PList _ => false end then
    let name := match second_piece "ransformer." full with Some x => lower x | None => "" end in
    let v' := ends_of v d in
    let n := match int_of int_ d "windings" with Some z => z | None => 2%Z end in
    let k := match int_of int_ d "phases" with Some z => z | None => 3%Z end in
    do xs <- reacs_of d n;
    do sh <- shift_of d n;
    do ws <- mapM (winding_of name d n (match v' with Some (_, ns, _) => Some ns | None => None end)) (seq 0 (Z.to_nat n));
    do ts <- types_of d n;
    Ok (v', Some (mkRt name source_name (float_of num d "%loadloss") (match text_of d "sub" with Some s => String.eqb s "Yes" | None => false end)
      (float_of num d "normhkVA") (float_of num d "%noloadloss") (fst (from_to v' d)) (snd (from_to v' d)) xs (Z.eqb n 3 && Z.eqb k 1) sh (with_types ws ts)))
  else Ok (v, None).
Fixpoint parse_all (v : vars) (ts : list (string * data)) : res (list rtrans) :=
  match ts with
  | [] => Ok []
  | (full, d) :: rest =>
    do x <- parse_trans v full d;
    do l <- parse_all (fst x) rest;
    Ok (match snd x with Some t => t :: l | None => l end)
  end.
(** 1533-1832 *)
Definition parse_transformers (ts : list (string * data)) : res (list rtrans) := parse_all None ts.
End Trans.
