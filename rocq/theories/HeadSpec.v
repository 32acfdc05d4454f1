From Coq Require Import List String Ascii Bool Arith QArith.
From Verif Require Import Base CsvSpec HeadModel.
Import ListNotations.
Local Open Scope string_scope.
Local Open Scope nat_scope.
Local Open Scope list_scope.

(** [t] is [s] without the occurrences of [sub], found from the left. *)
Inductive removed (sub : string) : string -> string -> Prop :=
| removed_nil : removed sub "" ""
| removed_hit s t : removed sub s t -> removed sub (sub ++ s) t
| removed_keep c s t : (forall r, String c s <> (sub ++ r)%string) -> removed sub s t -> removed sub (String c s) (String c t).
(** The name of a feeder without dots, capitals and "_src". *)
Definition plain_name (n c : string) : Prop := exists a, removed "." n a /\ removed "_src" (lower a) c.
(** Only the letter x. *)
Inductive all_x : string -> Prop := all_x_nil : all_x "" | all_x_cons s : all_x s -> all_x (String "x" s).
(** [c] is [h] without the letters x at its ends. *)
Definition trimmed (h c : string) : Prop :=
  exists a b, h = (a ++ c ++ b)%string /\ all_x a /\ all_x b /\ (forall t, c <> String "x" t) /\ (forall t, c <> (t ++ "x")%string).
(** The two sides of ">" the other way round, with an arrow; names without ">" stay. *)
Definition turned (h r : string) : Prop :=
  (free ">" h /\ r = h) \/ (exists a b, free ">" a /\ free ">" b /\ h = (a ++ ">" ++ b)%string /\ r = (b ++ "->" ++ a)%string).
(** [h] is the first node of the list that satisfies [P]. *)
Definition first_with (P : string -> Prop) (l : list string) (h : string) : Prop :=
  exists before after, l = before ++ h :: after /\ P h /\ Forall (fun x => ~ P x) before.

Section Spec.
Variable successors : string -> option (list string).
Variable voltage_of : string -> res (option Q).
(** What becomes of a feeder. *)
Definition headed (f f' : meta) : Prop :=
  exists n c sub heads, f_name f = Some n /\ plain_name n c /\ f_sub f = Some sub /\ successors sub = Some heads /\
    f_name f' = f_name f /\ f_sub f' = f_sub f /\
    ((In c heads /\ f_head f' = Some c /\ f_nominal f' = f_nominal f /\ f_operating f' = f_operating f) \/
     (~ In c heads /\
      ((exists h, first_with (fun x => trimmed x c) heads h /\ f_head f' = Some h /\ f_nominal f' = f_nominal f /\ f_operating f' = f_operating f) \/
       (Forall (fun x => ~ trimmed x c) heads /\
        ((exists h v, first_with (fun x => exists t, trimmed x t /\ turned t c) heads h /\ voltage_of h = Ok v /\ f_head f' = Some h /\ f_nominal f' = v /\ f_operating f' = v) \/
         (Forall (fun x => ~ exists t, trimmed x t /\ turned t c) heads /\ f' = f)))))).
End Spec.
