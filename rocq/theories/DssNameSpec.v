(** Specification vocabulary for names. *)
From Verif Require Import Base.
Local Open Scope string_scope.

(** A character that OpenDSS accepts in a name. *)
Definition letter_or_digit (c : ascii) : Prop :=
  let n := nat_of_ascii c in (48 <= n <= 57 \/ 97 <= n <= 122 \/ 65 <= n <= 90)%nat.

(** Letters, digits and underscores only, and no two adjacent underscores. *)
Definition safe (s : string) : Prop :=
  (forall a c b, s = a ++ String c b -> letter_or_digit c \/ c = "_"%char) /\
  (forall a b, s <> a ++ String "_" (String "_" b)).

Definition lower_case (s : string) : Prop := forall a c b, s = a ++ String c b -> ~ (65 <= nat_of_ascii c <= 90)%nat.

(** Only letters and digits. *)
Definition plain (s : string) : Prop := forall a c b, s = a ++ String c b -> letter_or_digit c.

(** [kept s r]: [r] holds the letters and digits of [s], in order, and each stretch of other characters
    became one underscore. *)
Inductive kept : string -> string -> Prop :=
| kept_nil : kept "" ""
| kept_char c s r : letter_or_digit c -> kept s r -> kept (String c s) (String c r)
| kept_gap g s r : g <> "" -> (forall a c b, g = a ++ String c b -> ~ letter_or_digit c) ->
    (s = "" \/ exists c t, s = String c t /\ letter_or_digit c) -> kept s r -> kept (g ++ s) (String "_" r).
