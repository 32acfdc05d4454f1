From Coq Require Import List String Ascii Bool Arith.
From Verif Require Import Base TextModel CsvSpec GlmSpec CymeMapModel CymeParseModel CymeParseSpec CymeSecSpec CymeNodeModel.
Import ListNotations.
Local Open Scope string_scope.
Local Open Scope nat_scope.
Local Open Scope list_scope.

(** Lines that do not begin the part with the header [h]. *)
Definition outside (h : string) (lines : list string) : Prop := Forall (fun l => substr_in h l = false) lines.
(** A part of a file: its header, its format, its lines, and a short line after them. *)
Definition part (h : string) (names body : list string) (lines : list string) : Prop :=
  exists header f b, lines = header :: f :: body ++ [b] /\ substr_in h header = true /\
    substr_in "format" (lower f) = true /\ format_line f names /\
    Forall (fun l => 2 < String.length l) body /\ String.length b <= 2.
(** The file has one part with this header. *)
Definition has_part (h : string) (names body : list string) (content : list string) : Prop :=
  exists pre lines post, content = pre ++ lines ++ post /\ outside h pre /\ part h names body lines /\ outside h post.

(** What a node has from its record. *)
Definition reads {V} (num : string -> option V) (d : record) (k : string) (v : V) : Prop := exists t, dget d k = Some t /\ num t = Some v.
Definition lacks (d : record) (k : string) : Prop := dget d k = None.
(** The connectors of [id]: the records [id], [id*], [id**], ... *)
Definition connectors {V} (num : string -> option V) (conns : list (string * record)) (id : string) (l : list (V * V)) : Prop :=
  (forall k p, nth_error l k = Some p -> exists d, dget conns (id ++ stars k) = Some d /\ reads num d "coordx" (fst p) /\ reads num d "coordy" (snd p)) /\
  dget conns (id ++ stars (length l)) = None.
Definition node_of {V} (num : string -> option V) (conns : list (string * record)) (x : string * record) (n : node V) : Prop :=
  nd_name n = fst x /\
  (forall v, nd_voltage n = Some v <-> reads num (snd x) "ratedvoltage" v) /\
  (forall lon lat, reads num (snd x) "coordx" lon -> reads num (snd x) "coordy" lat -> nd_positions n = [(lon, lat)]) /\
  (forall a b l c d, lacks (snd x) "coordx" -> reads num (snd x) "coordx1" a -> reads num (snd x) "coordy1" b -> connectors num conns (fst x) l ->
     reads num (snd x) "coordx2" c -> reads num (snd x) "coordy2" d -> nd_positions n = (a, b) :: l ++ [(c, d)]) /\
  (lacks (snd x) "coordx" -> lacks (snd x) "coordx1" -> nd_positions n = []) /\
  (~ lacks (snd x) "coordx" -> (forall lon lat, ~ (reads num (snd x) "coordx" lon /\ reads num (snd x) "coordy" lat)) -> nd_positions n = []).
