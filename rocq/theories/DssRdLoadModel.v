(** The loads of the OpenDSS reader.
    Models ditto/readers/opendss/read.py 2368-2601 (parse_loads).

    Simplifications:
    - OpenDSS reports each load as a dictionary from names of properties to texts or lists of texts
      (_dss_class_to_dict, 2855-2856). [int_] and [num] are Python's int and float of a text.
    - Floats are reals; [NotFinite] stands for infinities and NaN, which numpy gives for a division by zero and for the
      root of a negative number.
    - The phases are mapped (1-3 and the letters, 155-184) where they are found instead of where they are used.
    - Warnings, and the list of the names of all objects that only decides about one, are left out. *)
From Verif Require Import Base CsvModel TextModel DssNameModel.
From Coq Require Import Reals.
Local Open Scope string_scope.
Local Open Scope nat_scope.
Local Open Scope list_scope.

Inductive pval := PText (s : string) | PList (l : list string).
Definition data := string -> option pval.
Inductive fl := Num (r : R) | NotFinite.

Record rphase := mkRphase { rp_phase : option string; rp_p : R; rp_q : fl; rp_model : Z; rp_zip : bool; rp_shares : option (list R) }.
Record rload := mkRload {
  rl_name : string; rl_feeder : string; rl_bus : option string; rl_kv : option R; rl_users : option R; rl_conn : option string;
  rl_vmin : option R; rl_vmax : option R; rl_phases : list rphase }.

(** [s.split(sep)[1]] for a text sep that is not empty; None when there is no second piece *)
Fixpoint cut_at (sep s : string) : option (string * string) :=
  if String.prefix sep s then Some ("", substring (String.length sep) (String.length s - String.length sep) s)
  else match s with
       | "" => None
       | String c t => match cut_at sep t with Some (a, b) => Some (String c a, b) | None => None end
       end.
Definition second_piece (sep s : string) : option string :=
  match cut_at sep s with
  | Some (_, r) => Some (match cut_at sep r with Some (a, _) => a | None => r end)
  | None => None
  end.
(** [s.split()] *)
Fixpoint blank_cuts (s : string) : list string :=
  match s with
  | "" => [""]
  | String c t => if is_space c then "" :: blank_cuts t else match blank_cuts t with [] => [String c ""] | h :: r => String c h :: r end
  end.
Definition words (s : string) : list string := filter (fun w => negb (String.eqb w "")) (blank_cuts s).
(** [l[:n]] *)
Definition py_take {A} (n : Z) (l : list A) : list A := if Z.ltb n 0 then firstn (length l - Z.to_nat (- n)) l else firstn (Z.to_nat n) l.

Section Loads.
Variable int_ : string -> option Z.
Variable num : string -> option R.
Variable source_name : string.

Definition text_of (d : data) (k : string) : option string := match d k with Some (PText s) => Some s | _ => None end.
Definition float_of (d : data) (k : string) : option R := match text_of d k with Some s => num s | None => None end.
Definition int_of (d : data) (k : string) : option Z := match text_of d k with Some s => int_ s | None => None end.

(** 2415-2423 *)
Definition conn_of (d : data) : option string :=
  match text_of d "conn" with
  | Some s => if String.eqb (lower s) "wye" then Some "Y" else if String.eqb (lower s) "delta" then Some "D" else None
  | None => None
  end.
(** 2445-2458: the bus and the phases; None when something fails *)
Definition at_of (d : data) : option (string * list (option string)) :=
  match text_of d "bus1" with
  | None => None
  | Some s =>
    match split_on "." s with
    | b :: n :: ns => match mapM (fun x => of_opt EValue (int_ x)) (n :: ns) with Ok zs => Some (b, map r_phase_int zs) | Err _ => None end
    | _ => Some (s, map Some ["A"; "B"; "C"])
    end
  end.
(** 2473-2495; N_phases and phases are never None *)
Definition phases_of (n : Z) (conn : option string) (phases : list (option string)) : list (option string) :=
  if Z.eqb n (Z.of_nat (length phases)) then phases
  else if match conn with Some c => String.eqb c "D" | None => false end then py_take n phases else phases.
(** 2540-2542 *)
Definition reactive (kw pf : R) : fl :=
  if Rlt_dec (1 - pf * pf) 0 then NotFinite else if Req_EM_T pf 0 then NotFinite else Num (kw * 1000 * sqrt (1 - pf * pf) / pf)%R.
(** 2574-2597: the coefficients, in the order impedance, current, power of the active and of the reactive power *)
Definition shares_of (d : data) : res (option (list R)) :=
  match d "ZIPV" with
  | Some (PList (s :: _)) =>
    match mapM (fun x => of_opt EValue (num x)) (words s) with
    | Err _ => Ok None
    | Ok (z :: i :: p :: zq :: iq :: pq :: _) => Ok (Some (map (fun x => x * 100)%R [z; i; p; zq; iq; pq]))
    | Ok _ => Err EIndex
    end
  | Some (PText (String c _)) =>
    match mapM (fun x => of_opt EValue (num x)) (words (String c "")) with
    | Err _ => Ok None
    | Ok _ => Err EIndex
    end
  | _ => Ok None
  end.
(** 2529-2599 *)
Definition phase_of (d : data) (kw : R) (pf : option R) (p : option string) : res rphase :=
  do f <- of_opt EName pf;
  let model := int_of d "model" in
  let zip := match model with Some z => Z.eqb z 8 | None => false end in
  do sh <- (if zip then shares_of d else Ok None);
  Ok (mkRphase p (kw * 1000)%R (reactive kw f) (match model with Some z => z | None => 1%Z end) (match sh with Some _ => true | None => false end) sh).
(** 2378-2601 for one load; None when it is disabled *)
Definition parse_load (name : string) (d : data) : res (option rload) :=
  do en <- of_opt EKey (d "enabled");
  if match en with PText s => String.eqb s "Yes" | PList _ => false end then
    let conn := conn_of d in
    let n := match int_of d "phases" with Some z => z | None => 1%Z end in
    let phases := phases_of n conn (match at_of d with Some (_, ps) => ps | None => [] end) in
    let count := INR (length phases) in
    do kw <- of_opt EType (float_of d "kW");
    if length phases =? 0 then Err EZeroDiv else
    do kva <- of_opt EType (float_of d "kVA");
    do pls <- mapM (phase_of d (kw / count)%R (float_of d "pf")) phases;
    Ok (Some (mkRload (match second_piece "oad." name with Some x => "load_" ++ lower x | None => "" end)%string source_name
      (match at_of d with Some (b, _) => Some b | None => text_of d "bus1" end)
      (option_map (fun v => v * 1000)%R (float_of d "kV")) (float_of d "NumCust") conn (float_of d "Vminpu") (float_of d "Vmaxpu") pls))
  else Ok None.
Fixpoint kept_loads (l : list (option rload)) : list rload := match l with [] => [] | Some x :: r => x :: kept_loads r | None :: r => kept_loads r end.
(** 2376-2601 *)
Definition parse_loads (loads : list (string * data)) : res (list rload) :=
  do l <- mapM (fun x => parse_load (fst x) (snd x)) loads; Ok (kept_loads l).
End Loads.
