From Coq Require Import List String Bool Arith ZArith.
From Verif Require Import Base.
Import ListNotations.
Local Open Scope nat_scope.
Local Open Scope list_scope.

(** The edge that is cut in a loop.
    Models ditto/network/network.py 487-540 (middle_single_phase).

    - The attributes of the nodes are the number of their phases: None for a name that is no node, [Some None] for a node
      without phases.
    - Line 499 refers to [rand], which is not imported: a NameError.
    - [pos_max_cnt - max_cnt / 2] is a float (the module imports division from __future__), which is no index: a
      TypeError.  No edge is looked up. *)
Section Middle.
Variable phases : string -> option (option nat).

(** Lines 493-511: the least number of phases, from 1000 on *)
Definition least (nodes : list string) : res nat :=
  foldM (fun m n => do p <- of_opt EKey (phases n);
                    match p with None => Err EName | Some k => Ok (if k <? m then k else m) end) nodes 1000.
(** The variables at_1p_section, cnt, max_cnt and pos_max_cnt. *)
Record scan := mkScan { x_at : bool; x_cnt : nat; x_max : nat; x_pos : Z }.
Definition count (p : string) : nat := match phases p with Some (Some k) => k | _ => 0 end.
(** Lines 513-523 for the node at position [i] *)
Definition scan_node (m : nat) (st : scan) (i : nat) (n : string) : scan :=
  let st := if x_at st && (m <? count n) then
              if x_max st <? x_cnt st then mkScan false 0 (x_cnt st) (Z.of_nat i - 1) else mkScan false 0 (x_max st) (x_pos st)
            else st in
  if count n =? m then mkScan true (S (x_cnt st)) (x_max st) (x_pos st) else st.
Fixpoint scan_from (m i : nat) (nodes : list string) (st : scan) : scan :=
  match nodes with
  | [] => st
  | n :: r => scan_from m (S i) r (scan_node m st i n)
  end.
(** Lines 487-540; [Ok None] is the empty tuple. *)
Definition middle_single_phase (nodes : list string) : res (option string) :=
  do m <- least nodes;
  let st := scan_from m 0 nodes (mkScan false 0 0 (-1)) in
  let pos := if (0 <? x_cnt st) && (x_max st <? x_cnt st) then (Z.of_nat (length nodes) - 2)%Z else x_pos st in
  if (-1 <? pos)%Z then Err EType else Ok None.
End Middle.
