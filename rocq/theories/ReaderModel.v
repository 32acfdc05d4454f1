(** The base reader: parse order, default values, dictionary helpers.
    Models ditto/readers/abstract_reader.py 764-863 and 913-1056, ditto/utils.py 15-18 and
    ditto/default_values/default_values_json.py. *)
From Verif Require Import Base.
Local Open Scope string_scope.
Local Open Scope list_scope.

(** ** Dictionaries *)

(** utils.py 15-18: [{key: val for d in dicts for key, val in d.items()}] *)
Definition combine_dicts {V} (ds : list (list (string * V))) : list (string * V) :=
  fold_left (fun acc d => fold_left (fun acc kv => dset acc (fst kv) (snd kv)) d acc) ds [].

(** [d.update(e)] *)
Definition dict_update {V} (d e : list (string * V)) : list (string * V) :=
  fold_left (fun acc kv => dset acc (fst kv) (snd kv)) e d.

(** abstract_reader.py 764-770 [update_dict].  The inner dictionaries are mutable objects: a heap
    maps references to them, the outer dictionaries hold references. *)
Definition inner (V : Type) := list (string * V).
Definition heap (V : Type) := list (inner V).
Fixpoint hset {V} (h : heap V) (r : nat) (d : inner V) : heap V :=
  match h, r with
  | [], _ => []
  | _ :: t, O => d :: t
  | x :: t, S k => x :: hset t k d
  end.
Definition update_dict {V} (h : heap V) (d1 d2 : list (string * nat)) : res (heap V * list (string * nat)) :=
  foldM (fun st kv =>
           let '(h, d) := st in
           match dget d (fst kv) with
           | Some r =>                                        (* d1[k2].update(v2) *)
             do old <- of_opt EFuel (nth_error h r);          (* dangling references do not occur *)
             do new <- of_opt EFuel (nth_error h (snd kv));
             Ok (hset h r (dict_update old new), d)
           | None => Ok (h, dset d (fst kv) (snd kv))         (* d1[k2] = v2 *)
           end) d2 (h, d1).

(** ** Parse order: 772-863 *)

(** A parser works on the model in place and may raise: the model it leaves behind and the
    exception.  Its return value is not used (lines 792 ...). *)
Section Parse.
Variable M : Type.
Definition parser := M -> M * option exn.

Record reader := mkReader {
  r_nodes : parser; r_lines : parser; r_transformers : parser; r_loads : parser; r_regulators : parser;
  r_generators : parser; r_capacitors : parser; r_dg : parser; r_defaults : parser;
  (** The attribute DSS_file_names, if the reader has one: for each of its two entries whether the
      file name is true and whether the flag [is True]; [None]: the entry is missing. *)
  r_files : option (option bool * option bool)
}.

Definition and_then (p : M * option exn) (q : parser) : M * option exn :=
  match p with (m, None) => q m | (m, Some e) => (m, Some e) end.

Definition parse_defaults_if (r : reader) : parser := fun m =>
  match r_files r with
  | None => (m, None)
  | Some (None, _) => (m, Some EKey)
  | Some (Some true, _) => r_defaults r m
  | Some (Some false, None) => (m, Some EKey)
  | Some (Some false, Some b) => if b then r_defaults r m else (m, None)
  end.

Definition parse (r : reader) : parser := fun m =>
  let s := r_nodes r m in
  let s := and_then s (r_lines r) in
  let s := and_then s (r_transformers r) in
  let s := and_then s (r_loads r) in
  let s := and_then s (r_regulators r) in
  let s := and_then s (r_generators r) in
  let s := and_then s (r_capacitors r) in
  let s := and_then s (r_dg r) in
  and_then s (parse_defaults_if r).
End Parse.

(** ** Default values: 913-1056 *)

Section Defaults.
Variable V : Type.
Variable none : V.                                   (* Python's None *)
Variable cmatrix : V -> V.                           (* lines 917-922: np.array(value) as a list of rows *)
Variable zmatrix : V -> V -> res V.                  (* lines 924-931: r + 1j x as a list of rows *)

(** An object: its class and its attributes. *)
Record dobj := mkDobj { d_class : string; d_attrs : list (string * V) }.

(** 913-934; [arg] is [args[0]], present for the impedance matrix only. *)
Definition set_default_values (flag : bool) (attr : string) (value : V) (arg : option V) (o : dobj) : res dobj :=
  do v <- (if negb flag then
             if dmem (d_attrs o) attr then
               if String.eqb attr "capacitance_matrix" then Ok (cmatrix value)
               else if String.eqb attr "impedance_matrix" then
                 match arg with Some x => zmatrix value x | None => Err EIndex end
               else Ok value
             else Ok value
           else Ok none);
  Ok (mkDobj (d_class o) (dset (d_attrs o) attr v)).

(** One call of lines 943-1056: only for the class (if any), attribute, section and key of the table. *)
Record call := mkCall { k_class : option string; k_attr : string; k_section : string; k_key : string; k_arg : option string }.
Definition calls : list call :=
  let c attr sec key := mkCall None attr sec key None in
  [ c "faultrate" "Line" "faultrate"; mkCall None "impedance_matrix" "Line" "rmatrix" (Some "xmatrix");
    c "capacitance_matrix" "Line" "cmatrix";
    c "ampacity" "Wire" "ampacity"; c "emergency_ampacity" "Wire" "emergency_ampacity";
    c "insulation_thickness" "Wire" "insulation_thickness";
    mkCall (Some "Capacitor") "connection_type" "Capacitor" "connection_type" None;
    mkCall (Some "Capacitor") "delay" "Capacitor" "delay" None; mkCall (Some "Capacitor") "pt_ratio" "Capacitor" "pt_ratio" None;
    c "low" "Capacitor" "low"; c "high" "Capacitor" "high"; c "ct_ratio" "Capacitor" "ct_ratio"; c "pt_phase" "Capacitor" "pt_phase";
    mkCall (Some "Regulator") "connection_type" "Regulator" "connection_type" None;
    mkCall (Some "Regulator") "delay" "Regulator" "delay" None; mkCall (Some "Regulator") "pt_ratio" "Regulator" "pt_ratio" None;
    c "ct_prim" "Regulator" "ct_prim"; c "highstep" "Regulator" "highstep"; c "bandwidth" "Regulator" "bandwidth";
    c "bandcenter" "Regulator" "bandcenter";
    mkCall (Some "Transformer") "connection_type" "Transformer" "connection_type" None;
    c "reactances" "Transformer" "reactances";
    mkCall (Some "Load") "connection_type" "Load" "connection_type" None; c "vmin" "Load" "vmin"; c "vmax" "Load" "vmax" ].

(** [parsed_values.get("Line", None).get(key, None)]: AttributeError without a Line section; the
    other sections default to {}. *)
Definition table_value (t : list (string * list (string * V))) (sec key : string) : res V :=
  match dget t sec with
  | Some d => Ok (match dget d key with Some v => v | None => none end)
  | None => if String.eqb sec "Line" then Err EAttr else Ok none
  end.

Definition run_call (flag : bool) (t : list (string * list (string * V))) (o : dobj) (k : call) : res dobj :=
  if match k_class k with Some c => String.eqb (d_class o) c | None => true end then
    do v <- table_value t (k_section k) (k_key k);
    match k_arg k with
    | Some key2 => do x <- table_value t (k_section k) key2; set_default_values flag (k_attr k) v (Some x) o
    | None => set_default_values flag (k_attr k) v None o
    end
  else Ok o.

(** 936-1056; [file]: the parsed default values file, if there is one. *)
Definition parse_default_values (flag : bool) (file : option (list (string * list (string * V)))) (m : list dobj) : res (list dobj) :=
  let t := match file with Some t => t | None => [("Line", [])] end in
  mapM (fun o => foldM (run_call flag t) calls o) m.
End Defaults.
