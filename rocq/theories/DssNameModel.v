(** Names and phases in the OpenDSS writer and reader.
    Models ditto/writers/opendss/write.py 247-282 and 353, and ditto/readers/opendss/read.py 155-184. *)
From Verif Require Import Base.
Local Open Scope string_scope.

(** The class [0-9a-zA-Z] of the regular expression. *)
Definition alnum (c : ascii) : bool :=
  let n := nat_of_ascii c in
  (((48 <=? n) && (n <=? 57)) || ((97 <=? n) && (n <=? 122)) || ((65 <=? n) && (n <=? 90)))%nat%bool.

(** [re.sub('[^0-9a-zA-Z]+', '_', s)]; [run] tells whether the previous character was replaced.
    ASCII only: other characters are replaced like punctuation, each being several bytes. *)
Fixpoint sub_from (run : bool) (s : string) : string :=
  match s with
  | EmptyString => EmptyString
  | String c t =>
    if alnum c then String c (sub_from false t)
    else if run then sub_from true t else String "_" (sub_from true t)
  end.
Definition re_sub (s : string) : string := sub_from false s.

(** writers/opendss/write.py 353: the name of a bus in the coordinates file. *)
Definition bus_name (s : string) : string := re_sub (lower s).

(** writers/opendss/write.py 247-282 *)
Definition w_phase (p : string) : option Z :=
  if String.eqb p "A" then Some 1%Z
  else if String.eqb p "B" then Some 2%Z
  else if String.eqb p "C" then Some 3%Z
  else if String.eqb p "N" then Some 0%Z
  else None.

(** readers/opendss/read.py 155-184 on an int and on a str. *)
Definition r_phase_int (z : Z) : option string :=
  if Z.eqb z 1 then Some "A" else if Z.eqb z 2 then Some "B" else if Z.eqb z 3 then Some "C" else None.
Definition r_phase_str (s : string) : option string :=
  if String.eqb s "1" || String.eqb s "A" then Some "A"
  else if String.eqb s "2" || String.eqb s "B" then Some "B"
  else if String.eqb s "3" || String.eqb s "C" then Some "C"
  else None.
