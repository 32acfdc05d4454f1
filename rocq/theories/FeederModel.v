(** Cutting a network into feeders.
    Models ditto/modify/system_structure.py 343-433 (feeder_preprocessing).

    Simplifications:
    - The attributes is_substation, substation_name and feeder_name of the objects are a list beside
      the objects of the network ([elem], NetworkModel.v), by position.
    - get_all_elements_downstream iterates over a set: the order of its result is a parameter
      [arrange].
    - An exception leaves the changes made before it: the result is the state and the exception.
    - The log messages are left out. *)
From Verif Require Import Base StoreModel NetworkModel.
Local Open Scope string_scope.
Local Open Scope nat_scope.
Local Open Scope list_scope.

(** The three attributes; the outer None: the class has no such attribute. *)
Record tags := mkTags { t_issub : option (option bool); t_sub : option (option string); t_feeder : option (option string) }.

(** [x is not None and len(x) != 0] *)
Definition is_set (x : option string) : bool := match x with Some s => negb (String.eqb s "") | None => false end.
(** [hasattr(x, "is_substation") and x.is_substation == 1] *)
Definition is_substation (ts : list tags) (p : nat) : bool :=
  match nth_error ts p with Some t => match t_issub t with Some (Some true) => true | _ => false end | None => false end.

Fixpoint set_tags (ts : list tags) (p : nat) (t : tags) : list tags :=
  match ts, p with
  | [], _ => []
  | _ :: r, O => t :: r
  | x :: r, S k => x :: set_tags r k t
  end.

(** Objects, list_of_feeder_objects, and the exception that ended the run. *)
Definition outcome := (list tags * list (list nat) * option exn)%type.

(** Lines 399-433 for one object [p] below the substation named [name]. *)
Definition tag_one (name : option string) (ts : list tags) (p : nat) : list tags * option exn :=
  match nth_error ts p with
  | None => (ts, Some EKey)
  | Some t =>
    match t_sub t with
    | None => (ts, Some EAttr)
    | Some s =>
      if is_set s then (ts, Some EValue)                                  (* 400-410 *)
      else
        let t1 := mkTags (t_issub t) (Some name) (t_feeder t) in          (* 412 *)
        let ts1 := set_tags ts p t1 in
        match t_feeder t with
        | None => (ts1, Some EAttr)
        | Some f =>
          if is_set f then
            (ts1, Some match name with Some _ => EValue | None => EType end)   (* 414-427, the message adds to the name *)
          else
            match name with
            | None => (ts1, Some EType)
            | Some nm => (set_tags ts1 p (mkTags (t_issub t) (Some name) (Some (Some ("Feeder_" ++ nm)%string))), None)   (* 429-431 *)
            end
        end
    end
  end.
Fixpoint tag_all (name : option string) (ts : list tags) (l : list nat) : list tags * option exn :=
  match l with
  | [] => (ts, None)
  | p :: r => match tag_one name ts p with
              | (ts', None) => tag_all name ts' r
              | x => x
              end
  end.

Section Feeders.
Variable arrange : list nat -> list nat.
Variable es : list elem.
Variable n : network.

(** Lines 370-375 *)
Definition is_head (ts : list tags) (i : nat) (e : elem) : bool :=
  String.eqb (e_cls e) "PowerTransformer" && is_substation ts i && match e_name e with Some _ => true | None => false end.

(** Lines 378-380; no node is called None, and get_all_elements_downstream turns that into ValueError. *)
Definition below (e : elem) : res (list nat) :=
  match e_to e with
  | Some t => do l <- get_all_elements_downstream es n t; Ok (arrange l)
  | None => Err EValue
  end.

(** Lines 368-433 for one object. *)
Definition cut_one (ts : list tags) (feeders : list (list nat)) (i : nat) (e : elem) : outcome :=
  if is_head ts i e then
    match below e with
    | Err x => (ts, feeders, Some x)
    | Ok l =>
      if existsb (is_substation ts) l then (ts, feeders, None)            (* 387-397 *)
      else let '(ts', x) := tag_all match e_name e with Some nm => nm | None => None end ts l in
           (ts', feeders ++ [l], x)
    end
  else (ts, feeders, None).
Fixpoint cut (ts : list tags) (feeders : list (list nat)) (i : nat) (l : list elem) : outcome :=
  match l with
  | [] => (ts, feeders, None)
  | e :: r => match cut_one ts feeders i e with
              | (ts', feeders', None) => cut ts' feeders' (S i) r
              | x => x
              end
  end.
Definition feeder_preprocessing (ts : list tags) : outcome := cut ts [] 0 es.
End Feeders.
