(** Objects, the model store, and the Modifier.
    Models ditto/store.py (model list, names), ditto/models/base.py 21-35 and
    ditto/modify/modify.py.

    Simplifications:
    - Object identity is a position in a heap; the heap only grows.
    - An attribute value other than a list is an immutable scalar; numbers, booleans and
      complex numbers are opaque tokens [SVal z] because the modelled code only copies
      them and tests them against None.
    - An attribute list is a value owned by its object: traitlets stores a new list on
      assignment, so two objects never share one list (they may share elements).
    - [attrs] lists the traits in the order of [obj.traits()]; an attribute declared with
      the List trait uses [Lst], any other trait uses [Scal]; [None] inside is Python's None.
    - Exceptions abort the operation; the state at that moment is not returned. *)
From Verif Require Import Base.
Local Open Scope string_scope.
Local Open Scope nat_scope.
Local Open Scope list_scope.

Definition oid := nat.

Inductive scalar := SStr (s : string) | SVal (z : Z).
Inductive elt := EObj (o : oid) | ERaw (v : scalar).
Inductive attr := Scal (v : option scalar) | Lst (v : option (list elt)).
Record obj := mkObj { cls : string; attrs : list (string * attr) }.
Definition heap := list obj.

Definition scalar_eqb (a b : scalar) : bool :=
  match a, b with
  | SStr s, SStr t => String.eqb s t
  | SVal x, SVal y => Z.eqb x y
  | _, _ => false
  end.

(** A dictionary key for a name: the value of the [name] attribute, possibly None. *)
Definition key := option scalar.
Definition key_eqb (a b : key) : bool :=
  match a, b with
  | None, None => true
  | Some x, Some y => scalar_eqb x y
  | _, _ => false
  end.

Fixpoint kget (d : list (key * oid)) (k : key) : option oid :=
  match d with
  | [] => None
  | (k', o) :: t => if key_eqb k' k then Some o else kget t k
  end.

Fixpoint kset (d : list (key * oid)) (k : key) (o : oid) : list (key * oid) :=
  match d with
  | [] => [(k, o)]
  | (k', o') :: t => if key_eqb k' k then (k', o) :: t else (k', o') :: kset t k o
  end.

(** store.py 53-58: [_model_store] and [_model_names] ([_cim_store] and [_network] are
    not part of this model). *)
Record store := mkStore { elems : list oid; names : list (key * oid) }.
Definition empty_store : store := mkStore [] [].

(** [getattr(obj, a)]: AttributeError if the class has no such trait. *)
Definition get_attr (h : heap) (o : oid) (a : string) : option attr :=
  match nth_error h o with Some ob => dget (attrs ob) a | None => None end.

(** The heap with object [o] replaced. *)
Fixpoint upd (h : heap) (o : oid) (ob : obj) : heap :=
  match h, o with
  | [], _ => []
  | _ :: t, O => ob :: t
  | x :: t, S o' => x :: upd t o' ob
  end.

(** [setattr(obj, a, v)]. *)
Definition set_attr (h : heap) (o : oid) (a : string) (v : attr) : heap :=
  match nth_error h o with
  | Some ob => upd h o (mkObj (cls ob) (dset (attrs ob) a v))
  | None => h
  end.

(** [self.name]: None if the class has no [name] trait (AttributeError), else the value.
    A [name] declared as a list does not exist in /repo/ditto/models. *)
Definition name_of (h : heap) (o : oid) : option key :=
  match get_attr h o "name" with
  | Some (Scal v) => Some v
  | _ => None
  end.

(** base.py 26-35 [DiTToHasTraits.set_name]; the duplicate warning is not modelled. *)
Definition set_name (h : heap) (d : list (key * oid)) (o : oid) : list (key * oid) :=
  match name_of h o with Some k => kset d k o | None => d end.

(** store.py 116-120 [Store.set_names]: resets the dictionary, then every object in
    registration order sets its name. *)
Definition set_names (h : heap) (s : store) : store :=
  mkStore (elems s) (fold_left (set_name h) (elems s) []).

(** store.py 69-70 [Store.__getitem__]. *)
Definition getitem (s : store) (k : key) : res oid := of_opt EKey (kget (names s) k).

(** store.py 72-73 [Store.__setitem__]. *)
Definition setitem (s : store) (k : key) (o : oid) : store :=
  mkStore (elems s) (kset (names s) k o).

(** store.py 100-102 [Store.models]: a snapshot. *)
Definition models (s : store) : list oid := elems s.

(** base.py 21-24 [DiTToHasTraits.__init__]: the object registers itself at the end of
    the model list. *)
Definition create (h : heap) (s : store) (ob : obj) : heap * store * oid :=
  (h ++ [ob], mkStore (elems s ++ [length h]) (names s), length h).

(** [list.remove(x)]: first occurrence, ValueError if there is none (objects compare by
    identity). *)
Fixpoint list_remove (o : oid) (l : list oid) : res (list oid) :=
  match l with
  | [] => Err EValue
  | x :: t => if Nat.eqb x o then Ok t
              else match list_remove o t with Ok t' => Ok (x :: t') | Err e => Err e end
  end.

(** store.py 104-105 [Store.remove_element]. *)
Definition remove_element (s : store) (o : oid) : res store :=
  match list_remove o (elems s) with
  | Ok l => Ok (mkStore l (names s))
  | Err e => Err e
  end.

(** modify.py 35-38 and 58-61: the list attributes whose elements are not objects. *)
Definition special_attr (a : string) : bool :=
  smem a ["reactances"; "phases"; "impedance_matrix"; "capacitance_matrix"].

(** modify.py 26-47 [Modifier.delete_element].  [fuel] bounds the nesting depth (Python's
    recursion limit); running out is the explicit error [EFuel]. *)
Fixpoint delete_element (fuel : nat) (h : heap) (s : store) (o : oid) : res store :=
  match fuel with
  | O => Err EFuel
  | S fuel' =>
    match nth_error h o with
    | None => Err EAttr
    | Some ob =>
      do s' <- foldM (fun s (p : string * attr) =>                     (* 28 *)
                 match snd p with
                 | Scal _ => Ok s                                      (* 30 *)
                 | Lst None => Ok s                                    (* 32 *)
                 | Lst (Some l) =>
                   if special_attr (fst p) then Ok s                   (* 35-38 *)
                   else foldM (fun s e =>                              (* 41-43 *)
                          match e with
                          | EObj o' => delete_element fuel' h s o'
                          | ERaw _ => Err EAttr
                          end) l s
                 end) (attrs ob) s;
      remove_element s' o                                              (* 44 *)
    end
  end.

(** The freshly constructed object before its traits are copied (51): scalars at their
    default, lists empty.  It is overwritten before anyone can observe it. *)
Definition blank (ob : obj) : obj :=
  mkObj (cls ob) (map (fun p => (fst p, match snd p with Scal _ => Scal None | Lst _ => Lst (Some []) end))
                      (attrs ob)).

(** Sequential copy of the elements of one list (66-68). *)
Fixpoint copy_elts (cp : heap -> store -> oid -> res (heap * store * oid))
         (h : heap) (s : store) (l : list elt) : res (heap * store * list elt) :=
  match l with
  | [] => Ok (h, s, [])
  | EObj o :: t =>
    match cp h s o with
    | Ok (h1, s1, o') =>
      match copy_elts cp h1 s1 t with
      | Ok (h2, s2, t') => Ok (h2, s2, EObj o' :: t')
      | Err e => Err e
      end
    | Err e => Err e
    end
  | ERaw v :: _ =>             (* on a non-object [x.traits()] or already [type(x)(model)] fails *)
    Err (match v with SStr _ => EAttr | SVal _ => EType end)
  end.

(** modify.py 52-72: the loop over the traits of the copied object. *)
Fixpoint copy_attrs (cp : heap -> store -> oid -> res (heap * store * oid))
         (h : heap) (s : store) (l : list (string * attr))
  : res (heap * store * list (string * attr)) :=
  match l with
  | [] => Ok (h, s, [])
  | (a, v) :: t =>
    match (match v with
           | Scal x => Ok (h, s, Scal x)                               (* 71-72 *)
           | Lst None => Ok (h, s, Lst None)                           (* 56, 63-65 *)
           | Lst (Some l) =>
             match l with
             | [] => Ok (h, s, Lst (Some []))                          (* 57 *)
             | _ => if special_attr a then Ok (h, s, Lst (Some l))     (* 58-61 *)
                    else match copy_elts cp h s l with                 (* 66-68 *)
                         | Ok (h1, s1, l') => Ok (h1, s1, Lst (Some l'))
                         | Err e => Err e
                         end
             end
           end) with
    | Ok (h1, s1, v') =>
      match copy_attrs cp h1 s1 t with
      | Ok (h2, s2, t') => Ok (h2, s2, (a, v') :: t')
      | Err e => Err e
      end
    | Err e => Err e
    end
  end.

(** modify.py 49-73 [Modifier.copy].  The new object is created (and registered) first,
    then its traits are filled; the model writes them in one step at the end. *)
Fixpoint copy (fuel : nat) (h : heap) (s : store) (o : oid) : res (heap * store * oid) :=
  match fuel with
  | O => Err EFuel
  | S fuel' =>
    match nth_error h o with
    | None => Err EAttr
    | Some ob =>
      let '(h0, s0, new) := create h s (blank ob) in                   (* 51 *)
      match copy_attrs (copy fuel') h0 s0 (attrs ob) with              (* 52-72 *)
      | Ok (h1, s1, at') => Ok (upd h1 new (mkObj (cls ob) at'), s1, new)
      | Err e => Err e
      end
    end
  end.

(** modify.py 89-94 [phase_order]. *)
Definition phase_order (v : option scalar) : res nat :=
  match v with
  | Some (SStr s) =>
    if String.eqb s "A" then Ok 0
    else if String.eqb s "B" then Ok 1
    else if String.eqb s "C" then Ok 2
    else if String.eqb s "N" then Ok 3
    else Err EKey
  | _ => Err EKey
  end.

(** [phase_order[x.phase]] for a list element. *)
Definition elt_phase (h : heap) (e : elt) : res nat :=
  match e with
  | EObj o => match get_attr h o "phase" with
              | Some (Scal v) => phase_order v
              | Some (Lst _) => Err EType     (* unhashable key *)
              | None => Err EAttr
              end
  | ERaw _ => Err EAttr
  end.

(** modify.py 120-122: [hasattr(x, "phase") and x.phase is not None]. *)
Definition elt_has_phase (h : heap) (e : elt) : bool :=
  match e with
  | EObj o => match get_attr h o "phase" with
              | Some (Scal (Some _)) => true
              | Some (Lst (Some _)) => true
              | _ => false
              end
  | ERaw _ => false
  end.

(** Stable insertion by key, as [list.sort(key=...)]. *)
Fixpoint insert_by (p : nat) (e : elt) (l : list (nat * elt)) : list (nat * elt) :=
  match l with
  | [] => [(p, e)]
  | (q, x) :: t => if p <=? q then (p, e) :: (q, x) :: t else (q, x) :: insert_by p e t
  end.
Definition sort_keyed (l : list (nat * elt)) : list (nat * elt) :=
  fold_right (fun pe acc => insert_by (fst pe) (snd pe) acc) [] l.

(** modify.py 131-132 [l.sort(key=lambda x: phase_order[x.phase])]. *)
Definition sort_phases (h : heap) (l : list elt) : res (list elt) :=
  do ks <- mapM (elt_phase h) l;
  Ok (map snd (sort_keyed (combine ks l))).

(** modify.py 163, 181 [getattr(obj_1, attr).append(x)]. *)
Definition append_attr (h : heap) (o : oid) (a : string) (e : elt) : heap :=
  match get_attr h o a with
  | Some (Lst (Some l)) => set_attr h o a (Lst (Some (l ++ [e])))
  | _ => h
  end.

Definition pair_state := (heap * store)%type.

(** modify.py 137-164: the while loop over two phase-sorted lists.  [rest1] is the part of
    list_1 from list_1_idx on (it grows when an element is appended, because list_1 is
    the attribute's own list), [rest2] the part of list_2 from list_2_idx on. *)
Fixpoint phase_walk (rec : pair_state -> elt -> elt -> res pair_state)
         (o1 : oid) (a : string) (rest2 : list elt) :=
  fix inner (rest1 : list elt) (st : pair_state) {struct rest1} : res pair_state :=
    match rest2 with
    | [] => Ok st
    | y :: r2 =>
      match rest1 with
      | [] => Ok st
      | x :: r1 =>
        match elt_phase (fst st) x with                                (* 139 *)
        | Err e => Err e
        | Ok px =>
          match elt_phase (fst st) y with                              (* 143 *)
          | Err e => Err e
          | Ok py =>
            if px =? py then                                           (* 148-156 *)
              match rec st x y with
              | Err e => Err e
              | Ok st' => phase_walk rec o1 a r2 r1 st'
              end
            else if px <? py then inner r1 st                          (* 157-160 *)
            else phase_walk rec o1 a r2 (rest1 ++ [y])                 (* 162-164 *)
                            (append_attr (fst st) o1 a y, snd st)
          end
        end
      end
    end.

(** modify.py 166-181: lists without phases are paired by position; surplus elements of
    list_2 are appended. *)
Fixpoint zip_walk (rec : pair_state -> elt -> elt -> res pair_state)
         (o1 : oid) (a : string) (l1 l2 : list elt) (st : pair_state) : res pair_state :=
  match l2 with
  | [] => Ok st
  | y :: r2 =>
    match l1 with
    | x :: r1 =>
      match rec st x y with
      | Err e => Err e
      | Ok st' => zip_walk rec o1 a r1 r2 st'
      end
    | [] => zip_walk rec o1 a [] r2 (append_attr (fst st) o1 a y, snd st)
    end
  end.

Definition is_nil {A} (l : list A) : bool := match l with [] => true | _ => false end.

(** modify.py 88-188: the treatment of one attribute. [list_attr] is the kind of the trait
    in obj_2 (85, 88). *)
Definition merge_attr (fuel_copy : nat)
           (rec : pair_state -> elt -> elt -> res pair_state)
           (overwrite : bool) (o1 o2 : oid) (a : string) (list_attr : bool)
           (st : pair_state) : res pair_state :=
  let (h, s) := st in
  if list_attr then
    match get_attr h o1 a, get_attr h o2 a with                        (* 105-106 *)
    | Some (Lst v1), Some (Lst v2) =>
      match v1 with
      | None | Some [] =>                                              (* 107-112 *)
        match v2 with
        | None => Err EType
        | Some l2 =>
          match copy_elts (copy fuel_copy) h s l2 with
          | Ok (h1, s1, l') => Ok (set_attr h1 o1 a (Lst (Some l')), s1)
          | Err e => Err e
          end
        end
      | Some ((x1 :: _) as l1) =>
        match v2 with
        | None | Some [] => Ok (h, s)                                  (* 113-114 *)
        | Some ((x2 :: _) as l2) =>
          if elt_has_phase h x1 && elt_has_phase h x2 then             (* 118-129 *)
            do l1' <- sort_phases h l1;                                (* 131 *)
            do l2' <- sort_phases h l2;                                (* 132 *)
            let h1 := set_attr h o1 a (Lst (Some l1')) in
            let h2 := set_attr h1 o2 a (Lst (Some l2')) in
            phase_walk rec o1 a l2' l1' (h2, s)                        (* 133-164 *)
          else zip_walk rec o1 a l1 l2 (h, s)                          (* 166-181 *)
        end
      end
    | _, _ => Err EAttr
    end
  else
    match get_attr h o2 a with                                         (* 184 *)
    | Some (Scal (Some v)) =>                                          (* 185 *)
      match get_attr h o1 a with                                       (* 186 *)
      | None => Err EAttr
      | Some cur =>
        if (match cur with Scal None | Lst None => false | _ => true end) && negb overwrite
        then Ok (h, s)                                                 (* 187 *)
        else Ok (set_attr h o1 a (Scal (Some v)), s)                   (* 188 *)
      end
    | Some _ => Ok (h, s)
    | None => Err EAttr
    end.

Definition is_list_attr (v : attr) : bool := match v with Lst _ => true | Scal _ => false end.

(** modify.py 75-188 [Modifier.set_attributes]. *)
Fixpoint set_attributes (fuel : nat) (overwrite : bool) (st : pair_state) (o1 o2 : oid)
  : res pair_state :=
  match fuel with
  | O => Err EFuel
  | S fuel' =>
    match nth_error (fst st) o2 with
    | None => Err EAttr
    | Some ob2 =>
      foldM (fun st (p : string * attr) =>
               merge_attr fuel'
                 (fun st x y => match x, y with
                                | EObj x', EObj y' => set_attributes fuel' overwrite st x' y'
                                | _, _ => Err EAttr     (* [obj_2.traits()] on a non-object *)
                                end)
                 overwrite o1 o2 (fst p) (is_list_attr (snd p)) st)
            (attrs ob2) st
    end
  end.

(** The world of a two-model operation: one heap, two stores. *)
Record world := mkWorld { hp : heap; m1 : store; m2 : store }.

Definition cls_of (h : heap) (o : oid) : option string := option_map cls (nth_error h o).

Definition same_class (h : heap) (o1 o2 : oid) : bool :=
  match cls_of h o1, cls_of h o2 with
  | Some a, Some b => String.eqb a b
  | _, _ => false
  end.

(** modify.py 190-221 [Modifier.merge].  The generic [Exception] of line 212 is [EType]. *)
Definition merge (fuel : nat) (overwrite : bool) (w : world) : res world :=
  let s1 := set_names (hp w) (m1 w) in                                 (* 194 *)
  let s2 := set_names (hp w) (m2 w) in                                 (* 195 *)
  do '(h', s1') <- foldM (fun (st : pair_state) (p : key * oid) =>     (* 196-218 *)
       match kget (names (snd st)) (fst p) with
       | None => Ok st
       | Some o1 =>
         if same_class (fst st) o1 (snd p)
         then set_attributes fuel overwrite st o1 (snd p)
         else Err EType
       end) (names s2) (hp w, s1);
  Ok (mkWorld h' (set_names h' s1') s2).                               (* 220 *)

(** modify.py 223-233 [Modifier.add]. *)
Definition add (fuel : nat) (w : world) : res world :=
  let s1 := set_names (hp w) (m1 w) in                                 (* 227 *)
  let s2 := set_names (hp w) (m2 w) in                                 (* 228 *)
  do '(h', s1') <- foldM (fun (st : pair_state) (p : key * oid) =>     (* 229-230 *)
       match copy fuel (fst st) (snd st) (snd p) with
       | Ok (h', s', _) => Ok (h', s')
       | Err e => Err e
       end) (names s2) (hp w, s1);
  Ok (mkWorld h' (set_names h' s1') s2).                               (* 232 *)

(** modify.py 235-258 [Modifier.delete].  The generic [Exception] of line 249 is [EType]. *)
Definition delete (fuel : nat) (w : world) : res world :=
  let s1 := set_names (hp w) (m1 w) in                                 (* 240 *)
  let s2 := set_names (hp w) (m2 w) in                                 (* 241 *)
  do s1' <- foldM (fun (s : store) (p : key * oid) =>                  (* 242-256 *)
       match kget (names s) (fst p) with
       | None => Ok s
       | Some o1 =>
         if same_class (hp w) o1 (snd p)
         then delete_element fuel (hp w) s o1
         else Err EType
       end) (names s2) s1;
  Ok (mkWorld (hp w) (set_names (hp w) s1') s2).                       (* 257 *)

(** ** Histories: one step of a client program on a single store.  An operation that
    raises leaves heap and store as they were (base.py 21-35, store.py 69-73, 104-105,
    116-120; assignment to [name] is a plain attribute write). *)
Inductive op :=
| OCreate (ob : obj)            (* X(model) *)
| ORemove (o : oid)             (* model.remove_element(x) *)
| ORename (o : oid) (k : key)   (* x.name = k *)
| OSetNames                     (* model.set_names() *)
| OSetItem (k : key) (o : oid). (* model[k] = x *)

Definition step (st : heap * store) (c : op) : (heap * store) * option exn :=
  let (h, s) := st in
  match c with
  | OCreate ob => let '(h', s', _) := create h s ob in ((h', s'), None)
  | ORemove o => match remove_element s o with
                 | Ok s' => ((h, s'), None)
                 | Err e => ((h, s), Some e)
                 end
  | ORename o k => ((set_attr h o "name" (Scal k), s), None)
  | OSetNames => ((h, set_names h s), None)
  | OSetItem k o => ((h, setitem s k o), None)
  end.

Definition run (ops : list op) : heap * store :=
  fold_left (fun st c => fst (step st c)) ops ([], empty_store).
