(** The CSV reader.  Models ditto/readers/csv/read.py 58-141.
    [pd.read_csv] is not modelled: its result (column names and rows of cells) is the input.
    [model.set_names()] (line 141) is [set_names] of StoreModel.v and not repeated here. *)
From Verif Require Import Base.
From Coq Require Import QArith DecimalString DecimalNat.
Local Open Scope string_scope.
Local Open Scope nat_scope.

(** A cell: empty ("" or NaN), text, or a number. *)
Inductive cell := CEmpty | CStr (s : string) | CNum (q : Q).

(** [s.split(c)] for a one-character separator *)
Fixpoint split_on (c : ascii) (s : string) : list string :=
  match s with
  | EmptyString => [""]
  | String a t =>
    if Ascii.eqb a c then "" :: split_on c t
    else match split_on c t with [] => [String a ""] | x :: xs => String a x :: xs end
  end.

(** [s.strip("]")] *)
Fixpoint lstrip_bracket (s : string) : string :=
  match s with String "]" t => lstrip_bracket t | _ => s end.
Fixpoint rstrip_bracket (s : string) : string :=
  match s with
  | EmptyString => EmptyString
  | String a t => match rstrip_bracket t with
                  | EmptyString => if Ascii.eqb a "]" then EmptyString else String a EmptyString
                  | r => String a r
                  end
  end.
Definition strip_bracket (s : string) : string := rstrip_bracket (lstrip_bracket s).

(** [int(s)]: decimal digits.  Signs, blanks and underscores, which Python also accepts, are
    ValueErrors here (a header using them fails in both: its name is never created). *)
Definition int_of (s : string) : res nat :=
  match s with
  | EmptyString => Err EValue
  | _ => match NilEmpty.uint_of_string s with Some d => Ok (Nat.of_uint d) | None => Err EValue end
  end.
(** [str(j)] *)
Definition str_of (j : nat) : string := NilEmpty.string_of_uint (Nat.to_uint j).

(** An object created by the reader: class, attributes set so far, and its lists (a missing list
    is None).  Objects are numbered in order of creation. *)
Record cobj := mkCobj { o_class : string; o_attrs : list (string * cell); o_lists : list (string * list nat) }.
Definition cheap := list cobj.

Fixpoint oset (h : cheap) (r : nat) (o : cobj) : cheap :=
  match h, r with
  | [], _ => []
  | _ :: t, O => o :: t
  | x :: t, S k => x :: oset t k o
  end.

Section Csv.
(** [globals()[c]] is a class. *)
Variable known : string -> bool.
(** Lists that a new object of a class has from the start; all empty. *)
Variable empty_lists : string -> list string.
(** [parent_obj.traits()[l]._trait.klass] as a class name, or the exception. *)
Variable elem : string -> string -> res string.
(** Trait validation of [setattr]: the value stored, or the exception. *)
Variable accept : string -> string -> cell -> res cell.

Definition new_obj (c : string) : cobj := mkCobj c [] (map (fun l => (l, [])) (empty_lists c)).

(** The row's state: all objects, and [all_objs]. *)
Record cstate := mkCstate { c_heap : cheap; c_objs : list (string * nat) }.

(** [globals()[c](model)] and entering it in all_objs under [key] *)
Definition create (st : cstate) (c key : string) : res (cstate * nat) :=
  if known c then
    let r := length (c_heap st) in
    Ok (mkCstate (c_heap st ++ [new_obj c])%list (dset (c_objs st) key r), r)
  else Err EKey.

(** Lines 104-107 *)
Definition ensure_list (h : cheap) (p : nat) (l : string) : cheap :=
  match nth_error h p with
  | Some o => match dget (o_lists o) l with
              | Some _ => h
              | None => oset h p (mkCobj (o_class o) (o_attrs o) (dset (o_lists o) l []))
              end
  | None => h
  end.
(** Line 125 *)
Definition append_to (h : cheap) (p : nat) (l : string) (q : nat) : cheap :=
  match nth_error h p with
  | Some o => let old := match dget (o_lists o) l with Some x => x | None => [] end in
              oset h p (mkCobj (o_class o) (o_attrs o) (dset (o_lists o) l (old ++ [q])%list))
  | None => h
  end.

(** Lines 109-128, one [j] *)
Definition add_elem (prefix : string) (p : nat) (l klass : string) (st : cstate) (j : nat) : res cstate :=
  let e := prefix ++ "." ++ l ++ "[" ++ str_of j ++ "]" in
  if dmem (c_objs st) e then Ok st
  else do '(st', q) <- create st klass e; Ok (mkCstate (append_to (c_heap st') p l q) (c_objs st')).

(** Lines 86-130, one layer: the state, the parent object and ".".join(layers[:i]) *)
Definition layer_step (s : cstate * nat * string) (layer : string) : res (cstate * nat * string) :=
  let '(st, p, prefix) := s in
  let parts := split_on "[" layer in
  let name := match parts with x :: _ => x | [] => "" end in
  do txt <- of_opt EIndex (nth_error parts 1);
  do n <- int_of (strip_bracket txt);
  do o <- of_opt EFuel (nth_error (c_heap st) p);
  do klass <- elem (o_class o) name;
  let full := prefix ++ "." ++ layer in
  do st1 <- (if dmem (c_objs st) full then Ok st
             else foldM (add_elem prefix p name klass) (seq 0 (S n))
                        (mkCstate (ensure_list (c_heap st) p name) (c_objs st)));
  do q <- of_opt EKey (dget (c_objs st1) full);
  Ok (st1, q, full).

(** Lines 132-139 *)
Definition set_cell (st : cstate) (p : nat) (attr : string) (v : cell) : res cstate :=
  do o <- of_opt EFuel (nth_error (c_heap st) p);
  do v' <- (if String.eqb attr "name" then match v with CStr s => Ok (CStr (lower s)) | _ => Err EAttr end else Ok v);
  do w <- accept (o_class o) attr v';
  Ok (mkCstate (oset (c_heap st) p (mkCobj (o_class o) (dset (o_attrs o) attr w) (o_lists o))) (c_objs st)).

(** Lines 67-139, one column.  Line 70 raises a plain Exception, here EValue. *)
Definition column_step (st : cstate) (cv : string * cell) : res cstate :=
  let layers := split_on "." (fst cv) in
  match layers with
  | c :: _ :: _ =>
    match snd cv with
    | CEmpty => Ok st
    | v =>
      do '(st, p) <- (match dget (c_objs st) c with
                      | Some p => Ok (st, p)
                      | None => create st c c
                      end);
      do '(st, p, _) <- foldM layer_step (removelast (tl layers)) (st, p, c);
      set_cell st p (last layers "") v
    end
  | _ => Err EValue
  end.

(** Lines 66-139: one row *)
Definition parse_row (columns : list string) (h : cheap) (row : list cell) : res cheap :=
  do st <- foldM column_step (combine columns row) (mkCstate h []);
  Ok (c_heap st).

(** Lines 58-139 *)
Definition parse_csv (columns : list string) (rows : list (list cell)) (h : cheap) : res cheap :=
  foldM (parse_row columns) rows h.
End Csv.
