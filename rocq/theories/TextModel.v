(** Python string methods used by the text parsers: strip and its friends on ASCII text. *)
From Verif Require Import Base CsvModel.
Local Open Scope string_scope.
Local Open Scope nat_scope.
Local Open Scope list_scope.

(** [str.isspace] for one ASCII character: \t \n \v \f \r, \x1c to \x1f and the blank. *)
Definition is_space (c : ascii) : bool :=
  let n := nat_of_ascii c in (Nat.leb 9 n && Nat.leb n 13) || (Nat.leb 28 n && Nat.leb n 32).

(** [s.strip()] *)
Fixpoint lstrip (s : string) : string :=
  match s with
  | EmptyString => ""
  | String c t => if is_space c then lstrip t else s
  end.
Fixpoint rstrip (s : string) : string :=
  match s with
  | EmptyString => ""
  | String c t => match rstrip t with
                  | EmptyString => if is_space c then "" else String c ""
                  | r => String c r
                  end
  end.
Definition strip (s : string) : string := rstrip (lstrip s).
