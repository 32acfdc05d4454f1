(** Loads behind transformers: the phases of the loads and of the lines in between.
    Models ditto/modify/system_structure.py 722-953 (center_tap_load_preprocessing).

    Simplifications:
    - The attributes of the loads and the wires of the lines are lists beside the objects of the network
      ([elem], NetworkModel.v), by position; the phases of the windings and is_center_tap of the transformers
      are functions of the position.
    - Of a phase load only phase, p, q and drop are kept, of a wire phase and drop: [Modifier.copy]
      (CopyProofs.v) copies the other attributes.
    - No two objects share a list of phase loads or wires, or an element of one.
    - p and q are rational numbers: the rounding of floats is left out.
    - [np.array] of windings with different numbers of phases raises ValueError (numpy 1.24 and later);
      either way no such transformer is accepted.
    - The walk has [fuel]. *)
From Verif Require Import Base StoreModel NetworkModel VoltModel.
From Coq Require Import QArith.
Local Open Scope string_scope.
Local Open Scope nat_scope.
Local Open Scope list_scope.

Record pload := mkPload { pl_phase : option string; pl_p : option Q; pl_q : option Q; pl_drop : bool }.
Record wire := mkWire { w_phase : option string; w_drop : bool }.
Record load := mkLoad {
  l_phases : option (list pload);
  l_center : option bool;
  l_1N : option Q; l_N2 : option Q; l_12 : option Q;
  l_up : option string }.

(** The loads and the wires by position; None: the object is of another class. *)
Definition loads := list (option load).
Definition wiring := list (option (option (list wire))).

Fixpoint put {A} (l : list A) (i : nat) (x : A) : list A :=
  match l, i with
  | [], _ => []
  | _ :: t, O => x :: t
  | y :: t, S k => y :: put t k x
  end.

Definition is_in (x : option string) (l : list (option string)) : bool := existsb (okey_eqb x) l.

(** Python's [sum]; None is no summand. *)
Definition py_sum (l : list (option Q)) : res Q :=
  foldM (fun acc x => match x with Some q => Ok (acc + q)%Q | None => Err EType end) l 0%Q.

Section CenterTap.
Variable es : list elem.
Variable n : network.
(** [[pw.phase for pw in w.phase_windings] for w in model[...].windings]; anything that fails is an Err. *)
Variable windings : nat -> res (list (list (option string))).
(** [model[...].is_center_tap == 1] *)
Variable center : nat -> bool.

(** Lines 765-830: the name of the transformer and the names of the lines on the way to it. *)
Fixpoint walk (fuel : nat) (node : string) (lines : list (option string)) : res (option string * list (option string)) :=
  match fuel with
  | O => Err EFuel
  | S fuel' =>
    match predecessors (net_di n) node with
    | Err e => Err e
    | Ok [] => Err EStop                                                      (* 768 *)
    | Ok ((p, _, _) :: _) =>
      match edge_attr (net_graph n) p node with
      | Some a =>
        if String.eqb (ea_cls a) "PowerTransformer" then Ok (ea_name a, lines)
        else if String.eqb (ea_cls a) "Line" then walk fuel' p (lines ++ [ea_name a])
        else walk fuel' p lines
      | None => walk fuel' p lines
      end
    end
  end.

Definition key (e : elem) : option string := match e_name e with Some x => x | None => None end.

(** One load in the loop 759-830. *)
Definition find_step (fuel : nat) (st : loads * list (nat * (option string * list (option string)))) (ie : nat * elem) :=
  let '(ls, found) := st in
  let '(i, e) := ie in
  if String.eqb (e_cls e) "Load" then
    do node <- of_opt ENetworkX (e_conn e);
    do '(t, lines) <- walk fuel node [];
    do p <- of_opt EKey (lookup es (key e));                                  (* 789-803 *)
    let ls' := match nth_error ls p with
               | Some (Some l) => put ls p (Some (mkLoad (l_phases l) (l_center l) (l_1N l) (l_N2 l) (l_12 l) t))
               | _ => ls
               end in
    Ok (ls', found ++ [(i, (t, lines))])
  else Ok st.

(** Lines 839-860 *)
Definition transformer_phases (t : option string) : res (nat * list (option string)) :=
  match lookup es t with
  | None => Err EValue
  | Some p =>
    match windings p with
    | Err _ => Err EValue
    | Ok ws =>
      if forallb (fun w => Nat.eqb (length w) (length (nth 0 ws []))) ws then
        match np_unique (concat ws) with
        | Ok u => Ok (p, u)
        | Err _ => Err EValue
        end
      else Err EValue
    end
  end.

(** Lines 893-897 *)
Definition drop_load (ph : list (option string)) (x : pload) : pload :=
  if is_in (pl_phase x) ph then x else mkPload (pl_phase x) (pl_p x) (pl_q x) true.

(** Lines 910-916 *)
Definition drop_wire (ph : list (option string)) (w : wire) : wire :=
  if is_in (w_phase w) [Some "N"; Some "N1"; Some "N2"] || is_in (w_phase w) ph then w else mkWire (w_phase w) true.

(** [self.model[line].wires] *)
Definition wires_of (ws : wiring) (line : option string) : res (nat * list wire) :=
  do p <- of_opt EValue (lookup es line);
  do w <- match nth_error ws p with Some (Some w) => Ok w | _ => Err EAttr end;
  do w <- of_opt EType w;
  Ok (p, w).

(** Lines 901-916 for one line. *)
Definition drop_wires (ph : list (option string)) (ws : wiring) (line : option string) : res wiring :=
  do '(p, w) <- wires_of ws line;
  Ok (put ws p (Some (Some (map (drop_wire ph) w)))).

(** Lines 927-934 *)
Definition add_load (x : option string) (pls : list pload) : res (list pload) :=
  if is_in x (map pl_phase pls) then Ok pls
  else match pls with
       | [] => Err EIndex
       | y :: _ => Ok (pls ++ [mkPload x (pl_p y) (pl_q y) false])
       end.

(** Lines 937-948 for one line. *)
Definition add_wire (x : option string) (ws : wiring) (line : option string) : res wiring :=
  do '(p, w) <- wires_of ws line;
  if is_in x (map w_phase w) then Ok ws
  else match w with
       | [] => Err EIndex
       | _ :: _ => Ok (put ws p (Some (Some (w ++ [mkWire x false]))))
       end.

(** Lines 924-948 for one phase. *)
Definition add_phase (lines : list (option string)) (st : list pload * wiring) (x : option string) : res (list pload * wiring) :=
  let '(pls, ws) := st in
  do pls' <- add_load x pls;
  do ws' <- foldM (add_wire x) lines ws;
  Ok (pls', ws').

(** Lines 950-953 *)
Definition share (total_p total_q : Q) (pls : list pload) : res (list pload) :=
  let k := length (filter (fun x => negb (pl_drop x)) pls) in
  mapM (fun x => match k with
                 | O => Err EZeroDiv
                 | _ => let m := inject_Z (Z.of_nat k) in
                        Ok (mkPload (pl_phase x) (Some (total_p / m)%Q) (Some (total_q / m)%Q) (pl_drop x))
                 end) pls.

(** Lines 872-953 for one load. *)
Definition one_load (st : loads * wiring) (job : nat * list (option string) * (nat * list (option string))) : res (loads * wiring) :=
  let '(ls, ws) := st in
  let '(i, lines, (t, ph)) := job in
  match nth_error ls i with
  | Some (Some l) =>
    let l1 := if center t
              then mkLoad (l_phases l) (Some true) (Some (1 # 2)%Q) (Some (1 # 2)%Q) (Some 0%Q) (l_up l)
              else l in
    do pls <- of_opt EType (l_phases l);
    do tp <- py_sum (map pl_p pls);
    do tq <- py_sum (map pl_q pls);
    let pls1 := map (drop_load ph) pls in
    do ws1 <- foldM (drop_wires ph) lines ws;
    do '(pls2, ws2) <- foldM (add_phase lines) ph (pls1, ws1);
    do pls3 <- share tp tq pls2;
    Ok (put ls i (Some (mkLoad (Some pls3) (l_center l1) (l_1N l1) (l_N2 l1) (l_12 l1) (l_up l1))), ws2)
  | _ => Err EAttr
  end.

Definition center_tap_load_preprocessing (fuel : nat) (ls : loads) (ws : wiring) : res (loads * wiring) :=
  do '(ls1, found) <- foldM (find_step fuel) (combine (seq 0 (length es)) es) (ls, []);
  do phases <- mapM (fun f => transformer_phases (fst (snd f))) found;
  foldM one_load (combine (map (fun f => (fst f, snd (snd f))) found) phases) (ls1, ws).
End CenterTap.
