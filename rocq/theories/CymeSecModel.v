From Coq Require Import List String Ascii Bool Arith.
From Verif Require Import Base TextModel CsvModel CymeParseModel.
Import ListNotations.
Local Open Scope string_scope.
Local Open Scope nat_scope.
Local Open Scope list_scope.

(** The sections and networks of a CYME network file.
    Models ditto/readers/cyme/read.py 1553-1742 (parse_sections).

    Simplifications:
    - [self.content], an iterator over the lines of the file, is the list of the remaining lines, each with its line
      ending; ASCII text.
    - The attributes of the reader that the function sets are a record; [network_type] is left as it was when no
      network is declared. *)

(** Lines 1586-1594: what the function fills.  [s_section_format] and the two after it are its local variables. *)
Record sections := mkSections {
  s_section_format : option (list string);
  s_feeder_format : option (list string);
  s_net : option string;
  s_type : option string;
  s_network_data : list (string * record);
  s_feeder_sections : list (string * list string);
  s_section_feeder : list (string * string);
  s_section_phase : list (string * record)
}.

(** Lines 1623-1628 and 1636-1641: [map(strip, map(lower, line.split("=")[1].split(",")))] *)
Definition format_of (line : string) : res (list string) :=
  do x <- of_opt EIndex (nth_error (split_on "=" line) 1);
  Ok (map (fun a => strip (lower a)) (split_on "," x)).

(** [line[:n]] *)
Definition upto (n : nat) (line : string) : string := String.substring 0 n line.
Definition starts (line p : string) : bool := String.eqb (lower (upto (String.length p) line)) p.

(** [l.index(x)] *)
Fixpoint index_of (x : string) (l : list string) : res nat :=
  match l with
  | [] => Err EValue
  | y :: t => if String.eqb y x then Ok 0 else do i <- index_of x t; Ok (S i)
  end.

(** [d[key] = value for key, value in zip(keys, values)] in a new dictionary: lines 1696-1698 and 1733-1734 *)
Definition row_dict (keys values : list string) : record :=
  fold_left (fun d kv => dset d (fst kv) (snd kv)) (combine keys values) [].

(** Lines 1653-1701: a network is declared. *)
Definition network_line (st : sections) (line : string) : res sections :=
  let t := if starts line "feeder=" || starts line "generalnetwork=" then Some "feeder" else s_type st in
  let t := if starts line "substation=" then Some "substation" else t in
  match s_section_format st with
  | None => Err EValue
  | Some fs =>
    match s_feeder_format st with
    | None => Err EValue
    | Some ff =>
      do x <- of_opt EIndex (nth_error (split_on "=" line) 1);
      let data := split_on "," x in
      if negb (Nat.eqb (length data) (length ff)) then Err EValue
      else if negb (smem "networkid" ff) then Err EValue
      else if negb (smem "sectionid" fs) then Err EValue
      else
        do i <- index_of "networkid" ff;
        do n <- of_opt EIndex (nth_error data i);
        let net := lower n in
        Ok (mkSections (Some fs) (Some ff) (Some net) t
              (dset (s_network_data st) net (row_dict ff data)) (dset (s_feeder_sections st) net [])
              (s_section_feeder st) (s_section_phase st))
    end
  end.

(** Lines 1704-1737: any other line is a section.  Without a format for sections, [len(None)] raises a TypeError. *)
Definition section_line (st : sections) (line : string) : res sections :=
  match s_net st with
  | None => Err EValue
  | Some net =>
    let data := map strip (split_on "," line) in
    do fs <- of_opt EType (s_section_format st);
    if negb (Nat.eqb (length data) (length fs)) then Err EValue
    else
      do i <- index_of "sectionid" fs;
      do n <- of_opt EIndex (nth_error data i);
      let sid := lower n in
      Ok (mkSections (Some fs) (s_feeder_format st) (Some net) (s_type st) (s_network_data st) (s_feeder_sections st)
            (dset (s_section_feeder st) sid net) (dset (s_section_phase st) sid (row_dict fs data)))
  end.

(** Lines 1621-1737: one line. *)
Definition one_line (st : sections) (line : string) : res sections :=
  if substr_in "format_section" (lower line) then
    do f <- format_of line;
    Ok (mkSections (Some f) (s_feeder_format st) (s_net st) (s_type st) (s_network_data st) (s_feeder_sections st)
          (s_section_feeder st) (s_section_phase st))
  else if substr_in "format_feeder" (lower line) || substr_in "format_substation" (lower line)
          || substr_in "format_generalnetwork" (lower line) then
    do f <- format_of line;
    Ok (mkSections (s_section_format st) (Some f) (s_net st) (s_type st) (s_network_data st) (s_feeder_sections st)
          (s_section_feeder st) (s_section_phase st))
  else if Nat.leb 7 (String.length line) && (starts line "feeder=" || starts line "substation=" || starts line "generalnetwork=") then
    network_line st line
  else section_line st line.

(** Lines 1612-1740: the lines after the header; [next] raises StopIteration at the end of the file.  The condition on
    [line[0]] is a disjunction of inequalities with different characters, hence always true. *)
Fixpoint section_lines (content : list string) (st : sections) : res sections :=
  match content with
  | [] => Err EStop
  | line :: rest =>
    if Nat.ltb 2 (String.length line) then do st' <- one_line st line; section_lines rest st'
    else Ok st
  end.

(** Lines 1586-1740.  After the sections the next line, if any, ends the loop. *)
Fixpoint parse_sections_from (content : list string) (st : sections) : res sections :=
  match content with
  | [] => Ok st
  | line :: rest => if substr_in "[SECTION]" line then section_lines rest st else parse_sections_from rest st
  end.
Definition parse_sections (network_type : option string) (content : list string) : res sections :=
  parse_sections_from content (mkSections None None None network_type [] [] [] []).
