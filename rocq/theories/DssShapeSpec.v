(** Specification vocabulary for the load shapes of the OpenDSS script. *)
From Verif Require Import Base CsvModel DssNameModel DssCodeModel DssFileModel DssTextModel DssShapeModel DssFileSpec DssTextSpec DssLoadSpec.
From Coq Require Import QArith.
Local Open Scope string_scope.
Local Open Scope nat_scope.
Local Open Scope list_scope.

(** Where a series belongs. *)
Definition place_of (i : tseries) : obj := mkObj (ts_sub (sh_of i)) (ts_fee (sh_of i)) None.
Inductive members (sepf seps : bool) (s f : string) : list tseries -> list tseries -> Prop :=
| mb_nil : members sepf seps s f [] []
| mb_here i r l : home sepf seps (place_of i) s f -> members sepf seps s f r l -> members sepf seps s f (i :: r) (i :: l)
| mb_there i r l : ~ home sepf seps (place_of i) s f -> members sepf seps s f r l -> members sepf seps s f (i :: r) l.

(** The series of a list without those whose data came before. *)
Inductive firsts : list (option string) -> list tseries -> list tseries -> Prop :=
| fs_nil seen : firsts seen [] []
| fs_new seen i r l : ~ In (ts_loc (sh_of i)) seen -> firsts (ts_loc (sh_of i) :: seen) r l -> firsts seen (i :: r) (i :: l)
| fs_again seen i r l : In (ts_loc (sh_of i)) seen -> firsts seen r l -> firsts seen (i :: r) l.

(** A series whose data are a file as it is. *)
Definition plain_path (l : string) : Prop := all_chars (fun c => negb (newline c) && negb (Ascii.eqb c "(") && negb (Ascii.eqb c ")")) l = true.
Definition good_series (i : tseries) : Prop :=
  (exists n, ts_label (sh_of i) = Some n /\ token n) /\ (exists l, ts_loc (sh_of i) = Some l /\ plain_path l) /\
  (forall q, sh_scale i = Some q -> (q == 1)%Q) /\ sh_kvar i = None.
Definition same_data (ts : list tseries) : Prop :=
  forall i j, In i ts -> In j ts -> ts_label (sh_of i) = ts_label (sh_of j) -> ts_loc (sh_of i) = ts_loc (sh_of j).

Definition data_file (e : element) (k l : string) : Prop := prop e k = Some ("(file=" ++ l ++ ")")%string.
Record shape_is (num : string -> option Q) (points : string -> nat) (i : tseries) (e : element) : Prop := {
  hi_class : e_class e = "Loadshape";
  hi_name : ts_label (sh_of i) = Some (e_name e);
  hi_file : exists l, ts_loc (sh_of i) = Some l /\ data_file e "mult" l /\ prop e "npts" = Some (str_of (points l));
  hi_interval : gives num e "interval" (Some (match sh_interval i with Some q => q | None => 1%Q end));
  hi_only : only e ["npts"; "interval"; "mult"] }.

(** One day in hours, minutes or seconds. *)
Definition one_day (n : nat) : Prop := In n [24; 24 * 60; 24 * 60 * 60].
