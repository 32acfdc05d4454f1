(** The voltage that an edge is to have. *)
From Verif Require Import Base WmKvModel.

(** The value of the nearest edge at or above [e] that has one in the file; None if
    the way up ends before. *)
Inductive nearest {V} (into : string -> option edge) (file : @attr V) : edge -> option V -> Prop :=
| near_own e x : file e = Some x -> nearest into file e x
| near_up e e' x : file e = None -> into (fst e) = Some e' -> nearest into file e' x -> nearest into file e x
| near_top e : file e = None -> into (fst e) = None -> nearest into file e None.
