(** The feeder and substation of every object.
    Models ditto/metrics/network_analysis.py 405-543 (tag_objects).

    Simplifications:
    - feeder_name, substation_name and those of the time series are a list beside the objects of the network
      ([elem], NetworkModel.v), by position; [kind] reads from /repo/ditto/models which classes have which
      attributes.
    - [x is not ""] compares with the empty string (CPython has one empty string).
    - No two objects share a time series.
    - The climb has [fuel]. *)
From Verif Require Import Base StoreModel NetworkModel SplitModel.
Local Open Scope string_scope.
Local Open Scope nat_scope.
Local Open Scope list_scope.

(** Classes with the attributes feeder_name and name: nodes, those with connecting_element, those with from_element. *)
Inductive kind := KNode | KConn | KFrom.
Definition kind_of (cls : string) : option kind :=
  if String.eqb cls "Node" then Some KNode
  else if smem cls ["Capacitor"; "Generator"; "Load"; "Photovoltaic"; "Storage"] then Some KConn
  else if smem cls ["Line"; "PowerTransformer"; "Reactor"; "Regulator"] then Some KFrom
  else None.

(** feeder_name, substation_name, and both of each time series *)
Record tag := mkTag { t_feeder : option string; t_sub : option string; t_series : list (option string * option string) }.

Section Tags.
Variable es : list elem.
Variable n : network.
Variable mapping : dict string.        (* node_feeder_mapping *)
Variable subs : dict string.           (* substations *)

Definition anchor (k : kind) (e : elem) : option string :=
  match k with
  | KNode => match e_name e with Some x => x | None => None end
  | KConn => e_conn e
  | KFrom => e_from e
  end.
Definition feeder_at (a : option string) : option string := match a with Some x => dget mapping x | None => None end.

(** Lines 409-444 for the object at position [i]. *)
Definition tag_direct (ts : list tag) (ie : nat * elem) : list tag :=
  let '(i, e) := ie in
  match kind_of (e_cls e), nth_error ts i with
  | Some k, Some t =>
    let t1 := match feeder_at (anchor k e) with
              | Some f => mkTag (Some f) (match dget subs f with Some x => Some x | None => t_sub t end) (t_series t)
              | None => t
              end in
    let t2 := match k with
              | KConn => mkTag (t_feeder t1) (t_sub t1) (map (fun _ => (t_feeder t1, t_sub t1)) (t_series t1))   (* 425-431 *)
              | _ => t1
              end in
    put ts i t2
  | _, _ => ts
  end.

(** Lines 455-472: climb to the first predecessor with a feeder; its tag. *)
Fixpoint look_up (ts : list tag) (fuel : nat) (a : string) : res (option tag) :=
  match fuel with
  | O => Err EFuel
  | S fuel' =>
    match predecessors (net_di n) a with
    | Err e => Err e                                                          (* only StopIteration is caught *)
    | Ok [] => Ok None
    | Ok ((p, _, _) :: _) =>
      do q <- of_opt EKey (lookup es (Some p));                               (* model[predecessor] *)
      match nth_error es q, nth_error ts q with
      | Some e, Some t =>
        match kind_of (e_cls e), t_feeder t with
        | Some _, Some f => if negb (String.eqb f "") && dmem mapping p then Ok (Some t) else look_up ts fuel' p
        | _, _ => look_up ts fuel' p
        end
      | _, _ => look_up ts fuel' p
      end
    end
  end.

(** Lines 446-543 for the object at position [i]. *)
Definition tag_upstream (fuel : nat) (ts : list tag) (ie : nat * elem) : res (list tag) :=
  let '(i, e) := ie in
  match kind_of (e_cls e), nth_error ts i with
  | Some k, Some t =>
    match feeder_at (anchor k e) with
    | Some _ => Ok ts
    | None =>
      match anchor k e with
      | None => Err ENetworkX                                                 (* predecessors(None) *)
      | Some a =>
        do r <- look_up ts fuel a;
        match r with
        | Some u => Ok (put ts i (mkTag (t_feeder u) (t_sub u) (t_series t)))
        | None => Ok ts
        end
      end
    end
  | _, _ => Ok ts
  end.

Definition tag_objects (fuel : nat) (ts : list tag) : res (list tag) :=
  let objs := combine (seq 0 (length es)) es in
  foldM (tag_upstream fuel) objs (fold_left tag_direct objs ts).
End Tags.
