(** Code tables of the CYME reader and writer.
    Models ditto/readers/cyme/read.py 294-329, 359-755 and ditto/writers/cyme/write.py 52-212. *)
From Coq Require Import QArith Reals.
From Verif Require Import Base NetworkModel.
Local Close Scope Q_scope.
Local Open Scope string_scope.
Local Open Scope list_scope.

(** A Python argument: int, float, str or None (bool and other types are left out). *)
Inductive pyv := VInt (z : Z) | VFloat (q : Q) | VStr (s : string) | VNone.

(** [v == n] for an int literal. *)
Definition is_num (v : pyv) (n : Z) : bool :=
  match v with VInt z => Z.eqb z n | VFloat q => Qeq_bool q (inject_Z n) | _ => false end.
Definition is_text (v : pyv) (t : string) : bool := match v with VStr s => String.eqb s t | _ => false end.

(** [list(s)] *)
Fixpoint chars (s : string) : list string :=
  match s with EmptyString => [] | String c t => String c EmptyString :: chars t end.

(** readers/cyme/read.py 359-404; [list(n)] of a number or None: TypeError. *)
Definition phase_mapping (v : pyv) : res (list (option string)) :=
  if is_num v 0 then Ok [None]
  else if is_num v 1 then Ok [Some "A"]
  else if is_num v 2 then Ok [Some "B"]
  else if is_num v 3 then Ok [Some "C"]
  else if is_num v 4 then Ok [Some "A"; Some "B"]
  else if is_num v 5 then Ok [Some "A"; Some "C"]
  else if is_num v 6 then Ok [Some "B"; Some "C"]
  else if is_num v 7 then Ok [Some "A"; Some "B"; Some "C"]
  else match v with VStr s => Ok (map Some (chars s)) | _ => Err EType end.

(** 406-429 *)
Definition phase_to_num (v : pyv) : pyv :=
  if is_text v "A" || is_text v "a" then VStr "1"
  else if is_text v "B" || is_text v "b" then VStr "2"
  else if is_text v "C" || is_text v "c" then VStr "3"
  else v.

(** 431-504.  Numbers are reals; [None] as second component is the NaN of numpy's square root of
    a negative number; [Ok None]: Python's None (no branch matches).  [to_float] is Python's float(). *)
Section Load.
Variable A : Type.
Variable to_float : A -> option R.

Definition np_sqrt (x : R) : option R := if Rlt_dec x 0 then None else Some (sqrt x).
Definition scaled (a : R) (x : option R) : option R := match x with Some y => Some (a * y)%R | None => None end.

Definition kw_kvar (v1 v2 : R) : res (option (R * option R)) := Ok (Some (v1, Some v2)).
Definition kva_pf (v1 v2 : R) : res (option (R * option R)) :=
  Ok (Some ((v1 * v2)%R, scaled v1 (np_sqrt (1 - v2 * v2)%R))).
Definition kw_pf (v1 v2 : R) : res (option (R * option R)) :=
  if Req_EM_T v2 0 then Err EZeroDiv
  else Ok (Some (v1, scaled (v1 / v2)%R (np_sqrt (1 - v2 * v2)%R))).

Definition load_value_type_mapping (t : pyv) (a1 a2 : A) : res (option (R * option R)) :=
  do v1 <- of_opt EValue (to_float a1);
  do v2 <- of_opt EValue (to_float a2);
  match t with
  | VStr s =>
    if String.eqb s "0" || String.eqb (lower s) "kw_kvar" then kw_kvar v1 v2
    else if String.eqb s "1" || String.eqb (lower s) "kva_pf" then kva_pf v1 v2
    else if String.eqb s "2" || String.eqb (lower s) "kw_pf" then kw_pf v1 v2
    else if String.eqb s "3" || String.eqb (lower s) "amp_pf" then Err ENotImpl
    else Ok None
  | VInt z =>
    if Z.eqb z 0 then kw_kvar v1 v2
    else if Z.eqb z 1 then kva_pf v1 v2
    else if Z.eqb z 2 then kw_pf v1 v2
    else if Z.eqb z 3 then Err ENotImpl
    else Ok None
  | _ => Err EValue
  end.
End Load.

(** 506-541 *)
Definition capacitors_connection_mapping (v : pyv) : res pyv :=
  match v with
  | VFloat _ | VNone => Err EValue
  | _ =>
    if is_num v 0 || is_text v "0" || is_text v "Y" then Ok (VStr "Y")
    else if is_num v 1 || is_text v "1" || is_text v "YNG" then Ok (VStr "Y")
    else if is_num v 2 || is_text v "2" || is_text v "D" then Ok (VStr "D")
    else Ok v
  end.

Definition low_is (s t : string) : bool := String.eqb (lower s) t.

(** 543-615; [Ok None] is Python's None. *)
Definition connection_configuration_mapping (v : pyv) : res (option string) :=
  match v with
  | VInt z =>
    if Z.eqb z 0 || Z.eqb z 1 then Ok (Some "Y")
    else if Z.eqb z 2 || Z.eqb z 3 || Z.eqb z 4 then Ok (Some "D")
    else if Z.eqb z 5 then Ok (Some "Z")
    else if Z.eqb z 6 || Z.eqb z 7 then Err ENotImpl
    else Ok None
  | VStr s =>
    if String.eqb s "0" || low_is s "yg" || String.eqb s "1" || low_is s "y" then Ok (Some "Y")
    else if String.eqb s "2" || low_is s "delta" || String.eqb s "3" || low_is s "open delta" ||
            String.eqb s "4" || low_is s "closed delta" then Ok (Some "D")
    else if String.eqb s "5" || low_is s "zg" then Ok (Some "Z")
    else if String.eqb s "6" || low_is s "ct" || String.eqb s "7" || low_is s "dg" then Err ENotImpl
    else Ok None
  | _ => Err EValue
  end.

(** 617-720.  Successive [if]s: a later match overrides. *)
Definition pair_of_int (z : Z) : option string * option string :=
  let r := (None, None) in
  let r := if Z.eqb z 0 || Z.eqb z 3 || Z.eqb z 9 || Z.eqb z 10 then (Some "Y", Some "Y") else r in
  let r := if Z.eqb z 1 || Z.eqb z 7 then (Some "D", Some "Y") else r in
  let r := if Z.eqb z 2 || Z.eqb z 6 || Z.eqb z 8 then (Some "Y", Some "D") else r in
  let r := if Z.eqb z 4 || Z.eqb z 5 then (Some "D", Some "D") else r in
  let r := if Z.eqb z 11 then (Some "Y", Some "Z") else r in
  if Z.eqb z 12 then (Some "D", Some "Z") else r.
Definition pair_of_str (s : string) : option string * option string :=
  let r := (None, None) in
  let r := if String.eqb s "0" || low_is s "y_y" then (Some "Y", Some "Y") else r in
  let r := if String.eqb s "1" || low_is s "d_y" then (Some "D", Some "Y") else r in
  let r := if String.eqb s "2" || low_is s "y_d" then (Some "Y", Some "D") else r in
  let r := if String.eqb s "3" || low_is s "yng_yng" then (Some "Y", Some "Y") else r in
  let r := if String.eqb s "4" || low_is s "d_d" then (Some "D", Some "D") else r in
  let r := if String.eqb s "5" || low_is s "do_do" then (Some "D", Some "D") else r in
  let r := if String.eqb s "6" || low_is s "yo_do" then (Some "Y", Some "D") else r in
  let r := if String.eqb s "7" || low_is s "d_yng" then (Some "D", Some "Y") else r in
  let r := if String.eqb s "8" || low_is s "yng_d" then (Some "Y", Some "D") else r in
  let r := if String.eqb s "9" || low_is s "y_yng" then (Some "Y", Some "Y") else r in
  let r := if String.eqb s "10" || low_is s "yng_y" then (Some "Y", Some "Y") else r in
  let r := if String.eqb s "11" || low_is s "yg_zg" then (Some "Y", Some "Z") else r in
  if String.eqb s "12" || low_is s "d_zg" then (Some "D", Some "Z") else r.
Definition transformer_connection_mapping (v : pyv) (winding : Z) : res (option string) :=
  if negb (Z.eqb winding 0 || Z.eqb winding 1) then Err EValue
  else
    let pick (p : option string * option string) := if Z.eqb winding 0 then fst p else snd p in
    match v with
    | VInt z => Ok (pick (pair_of_int z))
    | VStr s => Ok (pick (pair_of_str s))
    | _ => Err EValue
    end.

(** ** Header mapping: read.py 294-329 and 722-755 *)

(** A header: a str, or (after update_header_mapping) a list. *)
Inductive header := HStr (s : string) | HList (l : list header).

Fixpoint header_eqb (a b : header) : bool :=
  match a, b with
  | HStr s, HStr t => String.eqb s t
  | HList l, HList l' =>
    (fix go (x y : list header) : bool :=
       match x, y with
       | [], [] => true
       | h :: t, h' :: t' => header_eqb h h' && go t t'
       | _, _ => false
       end) l l'
  | _, _ => false
  end.

(** update_header_mapping: the new list of [key] holds the update, or the whole old list as one
    element. *)
Definition update_header_mapping (m : list (string * list header)) (update : list (string * header)) :
  list (string * list header) :=
  map (fun kv => let '(k, value) := kv in
         match dget update k with
         | Some h => if existsb (header_eqb h) value then (k, [HList value]) else (k, [h])
         | None => (k, [HList value])
         end) m.

(** check_object_in_line: [x in line] with a list [x] is a TypeError.  The comprehension runs
    over all headers before [np.any]. *)
Definition check_object_in_line (m : list (string * list header)) (line obj : string) : res bool :=
  match dget m obj with
  | None => Err EValue
  | Some hs =>
    do bs <- mapM (fun h => match h with HStr s => Ok (substr_in s line) | HList _ => Err EType end) hs;
    Ok (existsb (fun b => b) bs)
  end.

(** ** The writer *)

(** writers/cyme/write.py 52-75 *)
Definition w_connection (v : string) : res string :=
  if String.eqb v "Y" then Ok "0"
  else if String.eqb v "D" then Ok "2"
  else if String.eqb v "Z" then Ok "5"
  else Err EValue.

(** 103-175 *)
Definition setting_map : list (string * string) :=
  [("Y_Y", "0"); ("D_Y", "1"); ("Y_D", "6"); ("D_D", "2"); ("Yg_Zg", "11"); ("D_Zg", "12")].
Definition transformer_map : list (string * string) :=
  [("Y_Y", "0"); ("D_Y", "1"); ("Y_D", "2"); ("D_D", "4"); ("Yg_Zg", "11"); ("D_Zg", "12")].
Definition w_transformer_connection (v1 v2 table : string) : res string :=
  let m := if String.eqb table "transformer_settings" then setting_map else transformer_map in
  let at_ k := of_opt EKey (dget m k) in
  if String.eqb v1 "Y" && String.eqb v2 "Y" then at_ "Y_Y"
  else if String.eqb v1 "D" && String.eqb v2 "Y" then at_ "D_Y"
  else if String.eqb v1 "Y" && String.eqb v2 "D" then at_ "Y_D"
  else if String.eqb v1 "D" && String.eqb v2 "D" then at_ "D_D"
  else if String.eqb v1 "Y" && String.eqb v2 "Z" then at_ "Y_Z"
  else if String.eqb v1 "D" && String.eqb v2 "Z" then at_ "D_Z"
  else Err EValue.

(** 77-101 [smallest_perimeter]: the divisions are exact (floats beyond 2^53 are not modelled).
    [fuel] bounds the first loop. *)
Fixpoint factor_loop (fuel : nat) (i n : Z) (factors : list Z) : res (list Z) :=
  match fuel with
  | O => Err EFuel
  | S k =>
    if Z.leb (i * i) n then
      if negb (Z.eqb (Z.modulo n i) 0) then factor_loop k (i + 1) n factors
      else factor_loop k i (Z.div n i) (factors ++ [i])
    else Ok (if Z.ltb 1 n then factors ++ [n] else factors)
  end.
(** The second loop takes the factors from the last to the second; [bst = None] is infinity. *)
Fixpoint greedy (fs : list Z) (n res : Z) (bst : option Q) : Z :=
  match fs with
  | [] => res
  | f :: t =>
    let tmp := (res * f)%Z in
    let per := (inject_Z tmp + inject_Z n / inject_Z tmp)%Q in
    let worse := match bst with Some b => negb (Qle_bool per b) | None => false end in
    if worse then res else greedy t n tmp (Some per)
  end.
Definition smallest_perimeter (n : Z) : res (Q * Q) :=
  do fs <- factor_loop (Z.to_nat n + 2) 2 n [];
  let r := greedy (rev (tl fs)) n 1 None in
  Ok (inject_Z r, (inject_Z n / inject_Z r)%Q).

(** ** Regulators: write.py 177-212 *)

(** [s.split(",")] *)
Fixpoint split_comma (s : string) : list string :=
  match s with
  | EmptyString => [""]
  | String c t =>
    match split_comma t with
    | h :: r => if Ascii.eqb c "," then "" :: h :: r else String c h :: r
    | [] => []   (* never *)
    end
  end.
(** Each field followed by a comma, without the last character. *)
Fixpoint join_comma (l : list string) : string :=
  match l with
  | [] => ""
  | [x] => x
  | x :: t => x ++ "," ++ join_comma t
  end.

(** ["".join(sorted(s))] *)
Fixpoint insert_char (c : ascii) (s : string) : string :=
  match s with
  | EmptyString => String c EmptyString
  | String d t => if Nat.leb (nat_of_ascii c) (nat_of_ascii d) then String c s else String d (insert_char c t)
  end.
Fixpoint sort_chars (s : string) : string :=
  match s with EmptyString => "" | String c t => insert_char c (sort_chars t) end.

Definition phase_combinations : list string := ["A"; "B"; "C"; "AB"; "AC"; "BA"; "BC"; "CB"; "CA"].

Definition merge_field (x y : string) : string :=
  if String.eqb x y then x
  else if smem x phase_combinations && smem y phase_combinations then sort_chars (x ++ y)
  else if String.eqb x "0" && negb (String.eqb y "0") then y
  else if String.eqb y "0" && negb (String.eqb x "0") then x
  else "".

Definition merge (a b : string) : res string :=
  let s1 := split_comma a in
  let s2 := split_comma b in
  if negb (Nat.eqb (length s1) (length s2)) then Err EValue
  else Ok (join_comma (map (fun p => merge_field (fst p) (snd p)) (combine s1 s2))).

Definition merge_regulators (regs : list string) : res (list string) :=
  do d <- foldM (fun d reg =>
            let key := hd "" (split_comma reg) in
            match dget d key with
            | Some old => do m <- merge old reg; Ok (dset d key m)
            | None => Ok (dset d key reg)
            end) regs [];
  Ok (map snd d).
