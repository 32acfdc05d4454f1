From Coq Require Import List String Ascii Bool Arith ZArith Reals.
From Verif Require Import Base TextModel CsvSpec CymeParseSpec CymeWrLoadModel.
Import ListNotations.
Local Open Scope string_scope.
Local Open Scope nat_scope.
Local Open Scope list_scope.

(** Texts that can stand in a cell. *)
Definition clean (s : string) : Prop := free "," s /\ free "=" s /\ free (ascii_of_nat 10) s.

Section Spec.
Variable str_of : R -> string.
Variable hash : string -> string.

(** The section of a load: its element and its name, or a hash of them if they are long. *)
Definition section_name (e n s : string) : Prop :=
  (String.length (e ++ "_" ++ n) <= 64 /\ s = (e ++ "_" ++ n)%string) \/ (64 < String.length (e ++ "_" ++ n) /\ s = hash (e ++ "_" ++ n)%string).
(** The phases of a load that are not dropped; all of them have a name. *)
Definition phases_are (i : wload) (l : list (string * option R * option R)) : Prop :=
  exists all, w_phases i = Some all /\
    Forall2 (fun p x => wp_phase p = Some (fst (fst x)) /\ wp_p p = snd (fst x) /\ wp_q p = snd x) (filter (fun p => negb (wp_drop p)) all) l.
Definition kilo (l : list (option R)) : R := fold_right (fun x a => match x with Some v => v / 1000 + a | None => a end)%R 0%R l.
Definition code_of (i : wload) (c : string) : Prop :=
  match w_connection i with
  | None => c = ""
  | Some t => if w_center i then c = "6" else (t = "Y" /\ c = "0") \/ (t = "D" /\ c = "2") \/ (t = "Z" /\ c = "5") \/ (~ In t ["Y"; "D"; "Z"] /\ c = "")
  end.
Definition label_of (i : wload) (s : string) : Prop :=
  match w_label i with Some t => (t <> "" /\ s = t) \/ (t = "" /\ s = "PQ") | None => s = "PQ" end.
(** A complete load with the element [e], the name [n] and the phases [l]. *)
Definition complete (i : wload) (n e : string) (l : list (string * option R * option R)) : Prop :=
  w_name i = Some n /\ w_element i = Some e /\ phases_are i l.
Definition load_row (i : wload) (row : list string) : Prop :=
  exists n e l s c, complete i n e l /\ section_name e n s /\ code_of i c /\ row = [s; s; "SPOT"; c; "0"].
Definition taps_of (i : wload) (p q : R) (cs : list string) : Prop :=
  match w_center i, w_1n i, w_n2 i, w_12 i with
  | true, Some a, Some b, Some _ => cs = map str_of [a * 100; b * 100; p * a; q * a; p * b; q * b]%R
  | _, _, _, _ => cs = [""; ""; ""; ""; ""; ""]
  end.
Definition customer_row (i : wload) (row : list string) : Prop :=
  exists n e l s t ts p q, complete i n e l /\ section_name e n s /\ label_of i t /\
    p = kilo (map (fun x => snd (fst x)) l) /\ q = kilo (map snd l) /\ taps_of i p q ts /\
    row = [s; s; "SPOT"; "0"; String.concat "" (map (fun x => fst (fst x)) l)] ++ (if w_center i then [""; ""] else [str_of p; str_of q]) ++ ["0"; t] ++ ts ++ ["0"].
(** The section of a load goes from its element to its name with its phases; a delta load on one phase is between two. *)
Definition section_row (i : wload) (row : list string) : Prop :=
  exists n e l s ph, complete i n e l /\ section_name e n s /\ row = [s; e; "0"; n; "0"; ph] /\
    ((w_connection i = Some "D" /\ exists p q, (l = [("A", p, q)] /\ ph = "AB") \/ (l = [("B", p, q)] /\ ph = "BC") \/ (l = [("C", p, q)] /\ ph = "AC")) \/
     (~ (w_connection i = Some "D" /\ exists p q, In l [[("A", p, q)]; [("B", p, q)]; [("C", p, q)]]) /\ ph = String.concat "" (map (fun x => fst (fst x)) l))).
(** All texts of a complete load can stand in a cell. *)
Definition clean_load (i : wload) : Prop :=
  exists n e l, complete i n e l /\ clean n /\ clean e /\ Forall (fun x => clean (fst (fst x))) l /\ (forall t, w_label i = Some t -> clean t).
(** A line with these cells. *)
Definition line_of (row : list string) (line : string) : Prop := cells line row /\ free "=" line /\ free (ascii_of_nat 10) line.

(** What [get] says of the loads of the feeder [f], in order. *)
Definition of_feeder {A} (f : string) (loads : list (wload * A)) (l : list A) : Prop :=
  l = map snd (filter (fun x => match w_feeder (fst x) with Some g => String.eqb g f | None => false end) loads).
(** The node of a load. *)
Definition node_row (i : wload) (n : string) (row : list string) : Prop :=
  w_name i = Some n /\ match w_position i with Some (x, y) => row = [n; str_of x; str_of y] | None => row = [n; "0"; "0"] end.
End Spec.
