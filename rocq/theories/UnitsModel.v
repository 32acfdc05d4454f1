(** Length-unit conversions.
    Models ditto/readers/abstract_reader.py lines 78-342 and
    ditto/writers/abstract_writer.py lines 45-154.
    Simplification: Python floats are exact rationals; non-ASCII letters are
    not lower-cased. *)
From Coq Require Import QArith.
From Verif Require Import Base.
Local Open Scope string_scope.
Local Open Scope Q_scope.

(** The keyword argument [inverse]: absent, present but not a bool, or a bool. *)
Inductive kw_inverse := KwAbsent | KwNotBool | KwBool (b : bool).

(** abstract_reader.py 135-138, 244-247; abstract_writer.py 98-101:
    [inverse] is used only when it is a bool, otherwise it is False. *)
Definition inverse_flag (k : kw_inverse) : bool :=
  match k with KwBool b => b | _ => false end.

(** abstract_reader.py 78-190 [AbstractReader.convert_to_meters]. *)
Definition convert_to_meters (quantity : option Q) (unit : pyunit) (kw : kw_inverse)
  : option Q :=
  let inverse := inverse_flag kw in
  match unit with
  | PNone => None                                   (* 140-141 *)
  | POther => None                                  (* 143-145 *)
  | PStr u =>
    match quantity with
    | None => None                                  (* 147-148 *)
    | Some q =>
      if String.eqb (lower u) "mi" then             (* 150-154 *)
        if inverse then Some (q / (160934 # 100)) else Some ((160934 # 100) * q)
      else if String.eqb (lower u) "km" then        (* 156-160 *)
        if inverse then Some (q / 1000) else Some (1000 * q)
      else if String.eqb (lower u) "kft" then       (* 162-166 *)
        if inverse then Some (q / (3048 # 10)) else Some ((3048 # 10) * q)
      else if String.eqb (lower u) "m" then Some q  (* 168-169 *)
      else if String.eqb (lower u) "ft" then        (* 171-175 *)
        if inverse then Some (q / (3048 # 10000)) else Some ((3048 # 10000) * q)
      else if String.eqb (lower u) "in" then        (* 177-181 *)
        if inverse then Some (q / (254 # 10000)) else Some ((254 # 10000) * q)
      else if String.eqb (lower u) "cm" then        (* 183-187 *)
        if inverse then Some (q / (1 # 100)) else Some ((1 # 100) * q)
      else None                                     (* 189-190 *)
    end
  end.

(** abstract_reader.py 192-299 [AbstractReader.convert_from_meters];
    [10 ** -3] is the exact rational 1/1000 here. *)
Definition convert_from_meters (quantity : option Q) (unit : pyunit) (kw : kw_inverse)
  : option Q :=
  let inverse := inverse_flag kw in
  match unit with
  | PNone => None                                   (* 249-250 *)
  | POther => None                                  (* 252-254 *)
  | PStr u =>
    match quantity with
    | None => None                                  (* 256-257 *)
    | Some q =>
      if String.eqb (lower u) "mi" then             (* 259-263 *)
        if inverse then Some (q / (621371 # 1000000000)) else Some ((621371 # 1000000000) * q)
      else if String.eqb (lower u) "km" then        (* 265-269 *)
        if inverse then Some (q / (1 # 1000)) else Some ((1 # 1000) * q)
      else if String.eqb (lower u) "kft" then       (* 271-275 *)
        if inverse then Some (q / (328084 # 100000000)) else Some ((328084 # 100000000) * q)
      else if String.eqb (lower u) "m" then Some q  (* 277-278 *)
      else if String.eqb (lower u) "ft" then        (* 280-284 *)
        if inverse then Some (q / (328084 # 100000)) else Some ((328084 # 100000) * q)
      else if String.eqb (lower u) "in" then        (* 286-290 *)
        if inverse then Some (q / (393701 # 10000)) else Some ((393701 # 10000) * q)
      else if String.eqb (lower u) "cm" then        (* 292-296 *)
        if inverse then Some (q / 100) else Some (100 * q)
      else None                                     (* 298-299 *)
    end
  end.

(** abstract_reader.py 331: the list tested, case-sensitively, by [unit_conversion]. *)
Definition supported_units : list string :=
  ["km"; "m"; "ft"; "kft"; "in"; "cm"; "mi"].

(** [unit in supported_units]: None and non-strings are not in the list. *)
Definition unit_supported (u : pyunit) : bool :=
  match u with PStr s => smem s supported_units | _ => false end.

(** abstract_reader.py 301-342 [AbstractReader.unit_conversion]. *)
Definition unit_conversion (quantity : option Q) (unit_from unit_to : pyunit) : option Q :=
  if negb (unit_supported unit_from) then None      (* 332-333 *)
  else if negb (unit_supported unit_to) then None   (* 334-335 *)
  else
    let in_meters := convert_to_meters quantity unit_from KwAbsent in  (* 337 *)
    convert_from_meters in_meters unit_to KwAbsent.                    (* 340 *)

(** abstract_writer.py 45-154 [AbstractWriter.convert_from_meters], a separate copy of
    the reader's function in the source, hence a separate definition here. *)
Definition w_convert_from_meters (quantity : option Q) (unit : pyunit) (kw : kw_inverse)
  : option Q :=
  let inverse := inverse_flag kw in
  match unit with
  | PNone => None                                   (* 104-105 *)
  | POther => None                                  (* 107-109 *)
  | PStr u =>
    match quantity with
    | None => None                                  (* 111-112 *)
    | Some q =>
      if String.eqb (lower u) "mi" then             (* 114-118 *)
        if inverse then Some (q / (621371 # 1000000000)) else Some ((621371 # 1000000000) * q)
      else if String.eqb (lower u) "km" then        (* 120-124 *)
        if inverse then Some (q / (1 # 1000)) else Some ((1 # 1000) * q)
      else if String.eqb (lower u) "kft" then       (* 126-130 *)
        if inverse then Some (q / (328084 # 100000000)) else Some ((328084 # 100000000) * q)
      else if String.eqb (lower u) "m" then Some q  (* 132-133 *)
      else if String.eqb (lower u) "ft" then        (* 135-139 *)
        if inverse then Some (q / (328084 # 100000)) else Some ((328084 # 100000) * q)
      else if String.eqb (lower u) "in" then        (* 141-145 *)
        if inverse then Some (q / (393701 # 10000)) else Some ((393701 # 10000) * q)
      else if String.eqb (lower u) "cm" then        (* 147-151 *)
        if inverse then Some (q / 100) else Some (100 * q)
      else None                                     (* 153-154 *)
    end
  end.

(** readers/synergi/length_units.py 4-8 [SynergiValueType]. *)
Inductive synergi_type := SUL | MUL | LUL | Per_LUL.

(** The [value_type] argument: an enum member or anything else. *)
Inductive synergi_arg := SType (t : synergi_type) | SNotType.

(** readers/synergi/length_units.py 79-104 [CONVERSION_FACTORS]; each inner
    dictionary has all four members as keys, so it is a function. *)
Definition conversion_factors : dict (synergi_type -> Q) :=
  [ ("english2", fun t => match t with SUL => 254 # 10000 | MUL => 3048 # 10000
                                   | LUL => 160934 # 100 | Per_LUL => 1 / (160934 # 100) end);
    ("english1", fun t => match t with SUL => 254 # 10000 | MUL => 3048 # 10000
                                   | LUL => 3048 # 10 | Per_LUL => (328084 # 100000) * (1 # 1000) end);
    ("metric",   fun t => match t with SUL => 1 # 1000 | MUL => 1
                                   | LUL => 1000 | Per_LUL => 1 # 1000 end);
    ("english",  fun t => match t with SUL => 254 # 10000 | MUL => 3048 # 10000
                                   | LUL => 3048 # 10 | Per_LUL => (328084 # 100000) * (1 # 1000) end) ].

(** readers/synergi/length_units.py 11-107 [convert_length_unit].  The value is a
    number; the dictionary is indexed with the unmodified [length_units] (106). *)
Definition convert_length_unit (value : Q) (value_type : synergi_arg) (length_units : pyunit)
  : res Q :=
  match value_type with
  | SNotType => Err EValue                                           (* 60-64 *)
  | SType t =>
    match length_units with
    | PStr u =>
      if negb (smem (lower u) ["english"; "english2"; "english1"; "metric"])
      then Err EValue                                                (* 72-77 *)
      else match dget conversion_factors u with                      (* 106 *)
           | None => Err EKey
           | Some tbl => Ok (value * tbl t)                          (* 107 *)
           end
    | _ => Err EValue                                                (* 66-70 *)
    end
  end.
