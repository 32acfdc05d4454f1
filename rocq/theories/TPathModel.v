From Coq Require Import List String Bool Arith.
From Verif Require Import Base.
Import ListNotations.
Local Open Scope string_scope.
Local Open Scope nat_scope.
Local Open Scope list_scope.

(** Transformers between the loads and the source.
    Models ditto/consistency/fix_transformer_phase_path.py 25-110 (fix_transformer_phase_path).

    Simplifications:
    - The network of a source is its edges with the attributes read here, and the shortest paths from the source (a
      dictionary by node); NetworkModel.v has the construction of networks.
    - [model[name]] of the name of a transformer edge is a transformer; the transformers are a dictionary by name.
    - The loads are their connecting elements, in the order in which the set of loads is walked; loads have names.
      The printed messages and the unused dictionary load_transformer_map are left out. *)
Record transformer := mkT {
  t_from : option string; t_to : option string;
  t_windings : list (list (option string)) }.   (* the phases of the phase windings of each winding *)
Record element := mkE { e_equipment : string; e_substation : bool; e_name : string; e_wires : list (option string) }.
Record net := mkNet { n_edge : string -> string -> option element; n_paths : list (string * list string) }.

Definition is_transformer (e : element) : bool := String.eqb (e_equipment e) "PowerTransformer".
Definition counted (e : element) : bool := is_transformer e && negb (e_substation e).
Definition phase_eqb (a b : option string) : bool :=
  match a, b with Some x, Some y => String.eqb x y | None, None => true | _, _ => false end.
Definition subset (a b : list (option string)) : bool := forallb (fun x => existsb (phase_eqb x) b) a.
(** [len(set(l)) == 1] *)
Definition single (l : list (option string)) : bool := match l with [] => false | x :: t => forallb (phase_eqb x) t end.

Fixpoint pairs (p : list string) : list (string * string) :=
  match p with
  | a :: t => match t with b :: _ => (a, b) :: pairs t | [] => [] end
  | [] => []
  end.

Section Net.
Variable n : net.

(** Lines 66-72: from the load to the source; the names of the transformers and the variable transformer_low_side. *)
Definition climb (st : list string * option string) (e : string * string) : res (list string * option string) :=
  do el <- of_opt EKey (n_edge n (fst e) (snd e));
  let names := if counted el then fst st ++ [e_name el] else fst st in
  Ok (names, match names with [] => if is_transformer el then snd st else Some (snd e) | _ => snd st end).

(** Lines 77-86 *)
Definition end_eqb (a b : option string) : bool := phase_eqb a b.
Definition rotate (t : transformer) (low : option string) : transformer :=
  if end_eqb (t_to t) low then t
  else if end_eqb (t_from t) low then mkT (t_to t) (t_from t) (t_windings t)
  else t.

(** [model[...].windings[0].phase_windings[0].phase = p] *)
Definition set_phase (t : transformer) (p : option string) : transformer :=
  mkT (t_from t) (t_to t) (match t_windings t with (_ :: r) :: w => (p :: r) :: w | w => w end).
Definition high_of (t : transformer) : res (list (option string)) := of_opt EIndex (nth_error (t_windings t) 0).
(** Lines 94-107: from the source to the transformer; [high] is the variable high_phases. *)
Fixpoint descend (es : list (string * string)) (t : transformer) (high : list (option string)) : res transformer :=
  match es with
  | [] => Ok t
  | e :: r =>
    do el <- of_opt EKey (n_edge n (fst e) (snd e));
    if counted el then Ok t
    else if String.eqb (e_equipment el) "Line" then
      let lp := filter (fun p => negb (phase_eqb p (Some "N"))) (e_wires el) in
      if negb (subset high lp) && single high && single lp then
        do high' <- high_of t;
        do p <- of_opt EIndex (nth_error lp 0);
        descend r (set_phase t p) high'
      else descend r t high
    else descend r t high
  end.

(** Lines 56-107 for one load *)
Definition one_load (ts : list (string * transformer)) (c : option string) : res (list (string * transformer)) :=
  match c with
  | None => Ok ts
  | Some c =>
    match dget (n_paths n) c with
    | None => Ok ts
    | Some path =>
      do '(names, low) <- foldM climb (pairs (rev path)) ([], None);
      match names with
      | [x] =>
        do t <- of_opt EKey (dget ts x);
        let t1 := rotate t low in
        do high <- high_of t1;
        do t2 <- descend (pairs path) t1 high;
        Ok (dset ts x t2)
      | _ => Ok ts
      end
    end
  end.
End Net.

(** Lines 48-110: one network for each source. *)
Definition fix_transformer_phase_path (nets : list net) (loads : list (option string)) (ts : list (string * transformer)) : res (list (string * transformer)) :=
  foldM (fun ts n => foldM (one_load n) loads ts) nets ts.
