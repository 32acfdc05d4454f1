(** Specification vocabulary for loads behind transformers. *)
From Verif Require Import Base StoreModel NetworkModel NetworkSpec CenterTapModel.
From Coq Require Import QArith.
Local Open Scope string_scope.
Local Open Scope nat_scope.
Local Open Scope list_scope.

(** From [x] one climbs to [z] against the arcs, over no transformer. *)
Inductive ascends (es : list elem) (d : digraph) : string -> string -> Prop :=
| asc_here x : ascends es d x x
| asc_up x y z : arc d y x -> (forall i, last_span es y x i -> e_cls i <> "PowerTransformer") ->
    ascends es d y z -> ascends es d x z.

(** The first transformer above [x]. *)
Definition feeds (es : list elem) (d : digraph) (x : string) (t : elem) : Prop :=
  exists z y, ascends es d x z /\ arc d y z /\ last_span es y z t /\ e_cls t = "PowerTransformer".

(** A line between [x] and the first transformer above. *)
Definition on_the_way (es : list elem) (d : digraph) (x : string) (l : elem) : Prop :=
  exists z y, ascends es d x z /\ arc d y z /\ last_span es y z l /\ e_cls l = "Line".

(** [x] is the phase of one of the windings. *)
Definition has_phase (ws : list (list (option string))) (x : option string) : Prop := exists w, In w ws /\ In x w.

(** The object [t] is a transformer whose windings have the phases [phs]. *)
Definition phases_of (es : list elem) (windings : nat -> res (list (list (option string)))) (t : elem) (phs : option string -> Prop) : Prop :=
  exists m p ws, e_name t = Some (Some m) /\ bears es m p /\ windings p = Ok ws /\ forall x, phs x <-> has_phase ws x.

Definition neutral (x : option string) : Prop := x = Some "N" \/ x = Some "N1" \/ x = Some "N2".

(** All entries of [l] are numbers, and [q] is their sum. *)
Definition adds_up (l : list (option Q)) (q : Q) : Prop :=
  exists qs, l = map Some qs /\ (q == fold_right Qplus 0 qs)%Q.

Definition active (pls : list pload) : list pload := filter (fun x => negb (pl_drop x)) pls.

(** The phase loads [new] stand for [old] behind a transformer with the phases [phs]: those of other phases are
    dropped, missing ones are added, and the active ones share the total evenly. *)
Definition settled (phs : option string -> Prop) (old new : list pload) : Prop :=
  exists kept added, new = kept ++ added /\
    Forall2 (fun x x' => pl_phase x' = pl_phase x /\ (pl_drop x' = false <-> pl_drop x = false /\ phs (pl_phase x))) old kept /\
    Forall (fun x => pl_drop x = false) added /\
    NoDup (map pl_phase added) /\
    (forall x, In x (map pl_phase added) <-> phs x /\ ~ In x (map pl_phase old)) /\
    (forall x y, In x new -> In y new -> pl_p x = pl_p y /\ pl_q x = pl_q y) /\
    (exists p, adds_up (map pl_p old) p /\ adds_up (map pl_p (active new)) p) /\
    (exists q, adds_up (map pl_q old) q /\ adds_up (map pl_q (active new)) q).

(** The wires of a line in between. *)
Definition rewired (phs : option string -> Prop) (old new : list wire) : Prop :=
  exists kept added, new = kept ++ added /\
    Forall2 (fun x x' => w_phase x' = w_phase x /\ (w_drop x' = false <-> w_drop x = false /\ (neutral (w_phase x) \/ phs (w_phase x)))) old kept /\
    Forall (fun x => w_drop x = false) added /\
    NoDup (map w_phase added) /\
    (forall x, In x (map w_phase added) <-> phs x /\ ~ In x (map w_phase old)).

(** The load [l] became [l'] behind the transformer named [m] with the phases [phs]; [tap]: it is a center tap. *)
Definition served (tap : bool) (m : string) (phs : option string -> Prop) (l l' : load) : Prop :=
  (exists old new, l_phases l = Some old /\ l_phases l' = Some new /\ settled phs old new) /\
  (if tap then l_center l' = Some true /\ l_1N l' = Some (1 # 2)%Q /\ l_N2 l' = Some (1 # 2)%Q /\ l_12 l' = Some 0%Q
   else l_center l' = l_center l /\ l_1N l' = l_1N l /\ l_N2 l' = l_N2 l /\ l_12 l' = l_12 l) /\
  l_up l' = Some m.

(** [l] is a line between some load connected to [c] and its transformer. *)
Definition carries (es : list elem) (d : digraph) (l : elem) (c : string) : Prop :=
  exists e, In e es /\ e_cls e = "Load" /\ e_conn e = Some c /\ on_the_way es d c l.

(** The transformer's windings have the same number of phases, all known, and at least one. *)
Definition phased (wd : list (list (option string))) : Prop :=
  (forall w w', In w wd -> In w' wd -> length w = length w') /\ (forall x, has_phase wd x -> x <> None) /\ exists x, has_phase wd x.

(** The load at position [i] can be processed. *)
Definition ready (es : list elem) (d : digraph) (windings : nat -> res (list (list (option string)))) (ls : loads) (ws : wiring) (i : nat) (e : elem) : Prop :=
  exists c t m p wd l x pls, e_conn e = Some c /\ feeds es d c t /\ e_name t = Some (Some m) /\ bears es m p /\ windings p = Ok wd /\ phased wd /\
    nth_error ls i = Some (Some l) /\ l_phases l = Some (x :: pls) /\
    Forall (fun y => pl_p y <> None /\ pl_q y <> None /\ pl_drop y = false) (x :: pls) /\
    (forall k q, on_the_way es d c k -> nth_error es q = Some k -> exists w r, nth_error ws q = Some (Some (Some (w :: r)))).
