From Coq Require Import List String Ascii Bool Arith.
From Verif Require Import Base TextModel CsvSpec CymeMapModel CymeParseModel.
Import ListNotations.
Local Open Scope string_scope.
Local Open Scope nat_scope.
Local Open Scope list_scope.

(** The cells of a line: the texts between its commas. *)
Definition cells (line : string) (cs : list string) : Prop :=
  cs <> [] /\ line = String.concat "," cs /\ Forall (free ",") cs.

Definition newline : string := String (ascii_of_nat 10) "".
Definition solid_name (s : string) : Prop := free "," s /\ free "=" s /\ free (ascii_of_nat 10) s /\ free (ascii_of_nat 13) s.
(** A format line that announces the columns [names] (compared without regard to case). *)
Definition format_line (line : string) (names : list string) : Prop :=
  exists key e, line = (key ++ "=" ++ String.concat "," names ++ e)%string /\ free "=" key /\ names <> [] /\
    Forall solid_name names /\ (e = "" \/ e = newline).

(** Column [j] is the last one with the name [k]. *)
Definition announced (names : list string) (k : string) (j : nat) : Prop :=
  nth_error (map lower names) j = Some k /\ forall i, nth_error (map lower names) i = Some k -> i <= j.

(** Where the attributes are: at default places, or in announced columns. *)
Inductive layout := Default (attrs : list string) (mapping : columns) | Announced (attrs names : list string).
Definition wanted (l : layout) : list string := match l with Default a _ => a | Announced a _ => a end.
Definition column (l : layout) (k : string) (j : nat) : Prop :=
  match l with Default _ m => dget m k = Some j | Announced _ names => announced names k j end.

(** A line with data: two cells or more, and no "=". *)
Definition is_row (line : string) : bool := negb (substr_in "=" line) && substr_in "," line.

Fixpoint stars (n : nat) : string := match n with O => "" | S k => String "*" (stars k) end.

(** [recs]: a record for every row, in order.  The key is the first cell with as many stars as needed to differ from
    the keys before it; an attribute is the cell in its column, unless the additional information has it. *)
Definition record_of (info : record) (row : layout * string) (before : list string) (x : string * record) : Prop :=
  exists cs, cells (snd row) cs /\
  (exists n, fst x = (strip (hd "" cs) ++ stars n)%string /\ ~ In (fst x) before /\
     forall m, m < n -> In (strip (hd "" cs) ++ stars m)%string before) /\
  forall k v, dget (snd x) k = Some v <->
    dget info k = Some v \/
    (dget info k = None /\ In k (wanted (fst row)) /\ exists j, column (fst row) k j /\ nth_error cs j = Some v).
Definition records_of (info : record) (rows : list (layout * string)) (recs : list (string * record)) : Prop :=
  length recs = length rows /\
  forall i row x, nth_error rows i = Some row -> nth_error recs i = Some x -> record_of info row (firstn i (map fst recs)) x.

(** The section ends at the first line of at most two characters, which is taken as well, or with the file. *)
Definition section_of (content body rest : list string) : Prop :=
  Forall (fun l => 2 < String.length l) body /\
  ((content = body /\ rest = []) \/ exists b, content = body ++ b :: rest /\ String.length b <= 2).

(** The header texts of the objects are known and plain. *)
Definition plain_headers (headers : list (string * list header)) (objs : list string) : Prop :=
  forall obj, In obj objs -> exists ss, dget headers obj = Some (map HStr ss).
(** The line is a header of one of the objects. *)
Definition heads (headers : list (string * list header)) (objs : list string) (line : string) : Prop :=
  exists obj ss s, In obj objs /\ dget headers obj = Some (map HStr ss) /\ In s ss /\ substr_in s line = true.

(** Units in a header line. *)
Definition says_si (l : string) : bool := substr_in "[si]" (lower l).
Definition says_imperial (l : string) : bool := substr_in "[imperial]" (lower l).
(** The last of the lines that name units decides; imperial wins within a line. *)
Definition units (lines : list string) (si : bool) : Prop :=
  exists a l b, lines = a ++ l :: b /\ (says_si l = true \/ says_imperial l = true) /\ si = negb (says_imperial l) /\
    forall x, In x b -> says_si x = false /\ says_imperial x = false.
(** A line with the version whose number has two parts, if it has points at all. *)
Definition plain_version (l : string) : Prop :=
  substr_in "cyme_version" (lower l) = true ->
  exists k v e, l = (k ++ String "=" (v ++ e))%string /\ free "=" k /\ free "=" v /\ free "=" e /\
    (free "." (strip (v ++ e)) \/ exists a b, strip (v ++ e)%string = (a ++ String "." b)%string /\ free "." a /\ free "." b).
