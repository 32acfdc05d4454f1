(** Specification vocabulary for the CYME code tables. *)
From Coq Require Import QArith Reals.
From Verif Require Import Base.
Local Close Scope Q_scope.
Local Open Scope string_scope.
Local Open Scope list_scope.

(** The phases of a set given by three flags. *)
Definition phase_set (a b c : bool) : list (option string) :=
  (if a then [Some "A"] else []) ++ (if b then [Some "B"] else []) ++ (if c then [Some "C"] else []).

(** [h] occurs in [line]. *)
Definition occurs (h line : string) : Prop := exists a b, line = (a ++ h ++ b)%string.

(** A record of comma separated fields. *)
Definition comma_free (s : string) : Prop := forall a b, s <> (a ++ String "," b)%string.
Definition record (l : list string) : Prop := l <> [] /\ Forall comma_free l.
Definition text (l : list string) : string := String.concat "," l.

(** The section of a record is its first field. *)
Definition section_of (l : list string) : string := hd "" l.

(** The [i]-th fields of the records of section [s]. *)
Definition column (rs : list (list string)) (s : string) (i : nat) (x : string) : Prop :=
  exists r, In r rs /\ section_of r = s /\ nth_error r i = Some x.

(** Number of occurrences of a letter. *)
Fixpoint count_char (c : ascii) (s : string) : nat :=
  match s with EmptyString => 0 | String d t => (if Ascii.eqb c d then 1 else 0) + count_char c t end.

(** [s] is the code [z] as text, or the name [t] in any letter case. *)
Definition spelt (code name : string) (s : string) : Prop := s = code \/ lower s = name.
(** The codes of a connection, with CYME's names in lower case. *)
Definition connection_table : list (Z * string * string * string) :=
  [(0, "0", "yg", "Y"); (1, "1", "y", "Y"); (2, "2", "delta", "D"); (3, "3", "open delta", "D"); (4, "4", "closed delta", "D"); (5, "5", "zg", "Z")]%Z.
Definition pair_table : list (Z * string * string * (string * string)) :=
  [(0, "0", "y_y", ("Y", "Y")); (1, "1", "d_y", ("D", "Y")); (2, "2", "y_d", ("Y", "D")); (3, "3", "yng_yng", ("Y", "Y")); (4, "4", "d_d", ("D", "D"));
   (5, "5", "do_do", ("D", "D")); (6, "6", "yo_do", ("Y", "D")); (7, "7", "d_yng", ("D", "Y")); (8, "8", "yng_d", ("Y", "D")); (9, "9", "y_yng", ("Y", "Y"));
   (10, "10", "yng_y", ("Y", "Y")); (11, "11", "yg_zg", ("Y", "Z")); (12, "12", "d_zg", ("D", "Z"))]%Z.

(** The capacitor banks. *)
Definition bank_table : list (Z * string * string * string) := [(0, "0", "Y", "Y"); (1, "1", "YNG", "Y"); (2, "2", "D", "D")]%Z.
(** The codes of a pair of connections in the two tables of the writer. *)
Definition written_table : list (string * string * string * string) :=
  [("Y", "Y", "0", "0"); ("D", "Y", "1", "1"); ("Y", "D", "2", "6"); ("D", "D", "4", "2")].
