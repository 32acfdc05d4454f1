From Coq Require Import List String Bool Arith QArith.
From Verif Require Import Base CsvModel.
Import ListNotations.
Local Open Scope string_scope.
Local Open Scope nat_scope.
Local Open Scope list_scope.

(** Sections of a CYME file with several elements.
    Models ditto/readers/cyme/read.py 6448-6543 (fix_section_overlaps).

    Simplifications:
    - Of the elements only class, from_element, to_element and connecting_element are kept; a class without one
      of them has None there.
    - [self.section_duplicates] holds positions in the list of the elements.
    - model[...] is the dictionary of names made by set_names at the start (line 6462), which the new nodes do not
      enter; of the object found only the positions (long, lat) are kept.
    - Of a new node only name and positions are kept.
    - An exception leaves the changes made before it: the result is the state and the exception. *)

Record element := mkElement { el_cls : string; el_from : option string; el_to : option string; el_conn : option string }.
(** long and lat of a Position *)
Definition point := (option Q * option Q)%type.
(** A new node: its name and positions; None: the positions are left at their default. *)
Definition node := (string * option (list point))%type.
Record sections := mkSections { sc_els : list element; sc_nodes : list node }.

Definition el_at (l : list element) (p : nat) : element := nth p l (mkElement "" None None None).
Fixpoint el_put (l : list element) (p : nat) (e : element) : list element :=
  match l, p with
  | [], _ => []
  | _ :: t, O => e :: t
  | x :: t, S k => x :: el_put t k e
  end.

Definition of_class (l : list element) (c : string) (p : nat) : bool := String.eqb (el_cls (el_at l p)) c.
Definition is_connector (l : list element) (p : nat) : bool :=
  of_class l "Regulator" p || of_class l "PowerTransformer" p || of_class l "Line" p.

Section Overlaps.
(** [model[name].positions]: KeyError and AttributeError as Err. *)
Variable positions : string -> res (option (list point)).

(** Lines 6485-6507: the ends of the last connector *)
Definition ends (l : list element) (sec : list nat) : option string * option string :=
  fold_left (fun acc p => if is_connector l p then (el_from (el_at l p), el_to (el_at l p)) else acc) sec (None, None).

(** Lines 6520-6538 for one connector; [from] is from_element, [k] intermediate_count, [count] connector_count. *)
Definition chain_step (orig : string) (ps : option (list point)) (count : nat)
  (st : sections * string * nat) (p : nat) : sections * string * nat :=
  let '(s, from, k) := st in
  let e := el_at (sc_els s) p in
  let e1 := if String.eqb from orig then e else mkElement (el_cls e) (Some from) (el_to e) (el_conn e) in
  let from' := (if String.eqb (el_cls e) "Regulator" then orig ++ "_reg" else orig ++ "_sec_" ++ str_of k)%string in
  if Nat.eqb (S k) count then (mkSections (el_put (sc_els s) p e1) (sc_nodes s), from', S k)
  else (mkSections (el_put (sc_els s) p (mkElement (el_cls e) (el_from e1) (Some from') (el_conn e)))
                   (sc_nodes s ++ [(from', ps)]), from', S k).

(** Lines 6541-6543 *)
Definition hang_step (to : string) (s : sections) (p : nat) : sections :=
  let e := el_at (sc_els s) p in
  mkSections (el_put (sc_els s) p (mkElement (el_cls e) (el_from e) (el_to e) (Some to))) (sc_nodes s).

(** Lines 6469-6543 for one section; photovoltaics are in none of the lists. *)
Definition fix_section (s : sections) (sec : list nat) : sections * option exn :=
  let l := sc_els s in
  let pick c := filter (of_class l c) sec in
  match ends l sec with
  | (Some orig, Some to) =>
    match positions orig with
    | Err x => (s, Some x)
    | Ok ps =>
      let connectors := pick "Regulator" ++ pick "PowerTransformer" ++ pick "Line" in
      let '(s1, _, _) := fold_left (chain_step orig ps (length connectors)) connectors (s, orig, 0) in
      (fold_left (hang_step to) (pick "Load" ++ pick "Storage" ++ pick "Capacitor") s1, None)
    end
  | _ => (s, None)
  end.

(** Lines 6463-6543; [secs]: the values of section_duplicates *)
Fixpoint fix_all (s : sections) (secs : list (list nat)) : sections * option exn :=
  match secs with
  | [] => (s, None)
  | sec :: r => match fix_section s sec with
                | (s', None) => fix_all s' r
                | x => x
                end
  end.
Definition fix_section_overlaps (s : sections) (secs : list (list nat)) : sections * option exn :=
  fix_all s (filter (fun j => Nat.ltb 1 (length j)) secs).
End Overlaps.
