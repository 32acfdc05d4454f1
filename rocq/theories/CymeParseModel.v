From Coq Require Import List String Ascii Bool Arith.
From Verif Require Import Base TextModel CsvModel CymeMapModel ReaderModel.
Import ListNotations.
Local Open Scope string_scope.
Local Open Scope nat_scope.
Local Open Scope list_scope.

(** Reading the sections of a CYME file.
    Models ditto/readers/cyme/read.py 757-875 (parser_helper), the loop that every parser puts around it
    (lines 1005-1008 and others), and 925-971 (parse_header).

    Simplifications:
    - [self.content], an iterator over the lines of the file, is the list of the remaining lines, each with its line
      ending; ASCII text.
    - attribute_list and additional_attributes_list are lists of strings (numpy arrays of them behave alike);
      the default mapping has natural numbers.
    - A record is a dictionary from attribute names to texts; the additional information is one as well.
    - The star loop of lines 823-824 has fuel; the log messages are left out. *)

(** [s.strip("\r\n")] *)
Definition is_eol (c : ascii) : bool := let n := nat_of_ascii c in Nat.eqb n 10 || Nat.eqb n 13.
Fixpoint lstrip_eol (s : string) : string :=
  match s with String c t => if is_eol c then lstrip_eol t else s | EmptyString => "" end.
Fixpoint rstrip_eol (s : string) : string :=
  match s with
  | EmptyString => ""
  | String c t => match rstrip_eol t with
                  | EmptyString => if is_eol c then "" else String c ""
                  | r => String c r
                  end
  end.
Definition strip_eol (s : string) : string := rstrip_eol (lstrip_eol s).

Definition columns := list (string * nat).
Definition record := list (string * string).

(** Lines 799-808 and 842-848: the names of the columns; [split("=")[1]] may be missing. *)
Definition format_names (line : string) : option (list string) :=
  match nth_error (split_on "=" line) 1 with
  | Some x => Some (map (fun a => strip_eol (lower a)) (split_on "," x))
  | None => None
  end.

(** [np.argwhere(arg == attribute_list)] has one element. *)
Definition once (a : string) (attrs : list string) : bool := Nat.eqb (length (filter (String.eqb a) attrs)) 1.

(** Lines 810-815 and 857-862 *)
Definition format_columns (attrs : list string) (names : list string) : columns :=
  fold_left (fun m ia => if once (snd ia) attrs then dset m (snd ia) (fst ia) else m) (combine (seq 0 (length names)) names) [].
(** The whole try block; without "=" the mapping has been emptied already. *)
Definition read_format (attrs : list string) (line : string) : columns :=
  match format_names line with Some names => format_columns attrs names | None => [] end.

(** Lines 823-824 *)
Fixpoint starred (fuel : nat) (d : list (string * record)) (id : string) : res string :=
  match fuel with
  | O => Err EFuel
  | S k => if dmem d id then starred k d (id ++ "*") else Ok id
  end.

(** Lines 825-833 *)
Definition make_record (attrs : list string) (cols : columns) (info : record) (data : list string) : record :=
  dict_update
    (fold_left (fun r k => match dget cols k with
                           | Some j => match nth_error data j with Some v => dset r k v | None => r end
                           | None => r
                           end) attrs []) info.

(** Lines 817-833: a line without "=". *)
Definition data_line (attrs : list string) (cols : columns) (info : record) (d : list (string * record)) (line : string)
  : res (list (string * record)) :=
  let data := split_on "," line in
  if Nat.ltb 1 (length data) then
    do id <- starred (S (length d)) d (strip (hd "" data));
    Ok (dset d id (make_record attrs cols info data))
  else Ok d.

Definition has_eq (line : string) : bool := substr_in "=" line.

(** Lines 816-874: the records and the remaining lines. *)
Fixpoint body_loop (attrs : list string) (cols : columns) (info : record) (add : list string)
  (d : list (string * record)) (lines : list string) : res (list (string * record) * list string) :=
  match lines with
  | [] => Ok (d, [])                                              (* 871-874 *)
  | l :: r =>
    if Nat.ltb 2 (String.length l) then
      if has_eq l then
        match add with
        | [] => body_loop attrs cols info add d r
        | _ => body_loop add (read_format add l) info [] d r      (* 834-865 *)
        end
      else do d' <- data_line attrs cols info d l; body_loop attrs cols info add d' r
    else Ok (d, r)
  end.

(** Lines 757-875; next(self.content) without lines raises StopIteration. *)
Definition parser_helper (headers : list (string * list header)) (objs attrs : list string) (mapping : columns)
  (info : record) (add : list string) (line : string) (content : list string) : res (list (string * record) * list string) :=
  do checks <- mapM (check_object_in_line headers line) objs;
  if existsb (fun b => b) checks then
    match content with
    | [] => Err EStop
    | l :: r =>
      if substr_in "format" (lower l) then
        match r with
        | [] => Err EStop
        | _ => body_loop attrs (read_format attrs l) info add [] r
        end
      else body_loop attrs mapping info add [] content
    end
  else Ok ([], content).

(** [for line in self.content: settings.update(self.parser_helper(line, ...))]; every round takes a line. *)
Fixpoint read_all (fuel : nat) (headers : list (string * list header)) (objs attrs : list string) (mapping : columns)
  (info : record) (add : list string) (d : list (string * record)) (content : list string) : res (list (string * record)) :=
  match fuel with
  | O => Err EFuel
  | S k =>
    match content with
    | [] => Ok d
    | line :: rest =>
      do '(d', rest') <- parser_helper headers objs attrs mapping info add line rest;
      read_all k headers objs attrs mapping info add (dict_update d d') rest'
    end
  end.

(** Lines 925-971: the version and whether SI units are used.  A version with a point whose [split(".")] does not
    have two parts leaves [a] and [b] unbound, unless an earlier line bound them: [bound]. *)
Definition header_line (st : option string * option bool * bool) (line : string) : res (option string * option bool * bool) :=
  let '(version, si, bound) := st in
  do '(version, bound) <-
    (if substr_in "cyme_version" (lower line) then
       let version := match nth_error (split_on "=" line) 1 with Some x => Some (strip x) | None => version end in
       match version with
       | Some v =>
         if substr_in "." v then
           let bound := bound || Nat.eqb (length (split_on "." v)) 2 in
           if bound then Ok (version, bound) else Err EName
         else Ok (version, bound)
       | None => Ok (version, bound)
       end
     else Ok (version, bound));
  let si := if substr_in "[si]" (lower line) then Some true else si in
  let si := if substr_in "[imperial]" (lower line) then Some false else si in
  Ok (version, si, bound).
Definition parse_header (lines : list string) : res (option string * bool) :=
  do '(version, si, _) <- foldM header_line lines (None, None, false);
  match si with Some b => Ok (version, b) | None => Err EValue end.
