From Coq Require Import List String Ascii Bool Arith ZArith Reals.
From Verif Require Import Base TextModel CymeMapModel ReaderModel CymeParseModel CymeNodeModel.
Import ListNotations.
Local Open Scope string_scope.
Local Open Scope nat_scope.
Local Open Scope list_scope.

(** The loads of a CYME load file.
    Models ditto/readers/cyme/read.py 5563-5899 (parse_loads), on top of the model of parser_helper.

    Simplifications:
    - Real numbers instead of floats; [num] is [float] of a text and never yields NaN or an infinity, [int_] is [int].
    - [Load(model)] adds a load to the model: the loads are the list of those made, in order, and the dictionary
      [self._loads] maps sections to places in this list; so does [self.section_duplicates], which is given its
      entries for loads only.
    - The shares of the ZIP model are the list of those that were assigned, in the order of lines 5864-5881: current,
      power and impedance, of the active and of the reactive power each. *)

(** [s.strip("*")] *)
Definition is_star (c : ascii) : bool := Ascii.eqb c "*".
Fixpoint lstrip_star (s : string) : string := match s with String c t => if is_star c then lstrip_star t else s | EmptyString => "" end.
Fixpoint rstrip_star (s : string) : string :=
  match s with
  | EmptyString => ""
  | String c t => match rstrip_star t with EmptyString => if is_star c then "" else String c "" | r => String c r end
  end.
Definition strip_star (s : string) : string := rstrip_star (lstrip_star s).
(** [s.endswith("*")] *)
Fixpoint ends_star (s : string) : bool := match s with EmptyString => false | String c "" => is_star c | String _ t => ends_star t end.
(** [reduce(lambda x, y: x + "_" + y, s)], which fails for an empty text *)
Definition letters (s : string) : list string := map (fun c => String c "") (list_ascii_of_string s).
Definition joined (ps : list string) : option string := match ps with [] => None | _ => Some (String.concat "_" ps) end.

Record phase_load := mkPhaseLoad { pl_phase : string; pl_power : option (R * R); pl_shares : list R }.
Record load := mkLoad {
  l_name : string; l_kva : option R; l_connection : option string; l_element : option string;
  l_feeder : string; l_users : R; l_phases : list phase_load
}.

(** The variables that survive from one round of the loop of line 5683 to the next: [value_type], [p], [q] and
    [load_type_data]; None is unbound. *)
Record vars := mkVars { v_type : option Z; v_p : option R; v_q : option R; v_class : option record }.
Record state := mkState { st_loads : list load; st_index : list (string * nat); st_dup : list (string * list nat); st_vars : vars }.

Section Loads.
Variable num : string -> option R.
Variable int_ : string -> option Z.
(** self.loads, self.customer_class, section_phase_mapping and section_feeder_mapping *)
Variable loads : list (string * record).
Variable classes : list (string * record).
Variable section_phase : list (string * record).
Variable section_feeder : list (string * string).

(** math.sqrt; None is a ValueError *)
Definition msqrt (x : R) : option R := if Rlt_dec x 0 then None else Some (sqrt x).

(** What becomes of the values: line 5699 is not entered or the load is skipped, or the load goes on. *)
Inductive outcome := Skip (v : vars) | Goes (v : vars).
Definition with_p (v : vars) (p : R) : vars := mkVars (v_type v) (Some p) (v_q v) (v_class v).
Definition with_pq (v : vars) (p q : R) : vars := mkVars (v_type v) (Some p) (Some q) (v_class v).

(** Lines 5739-5743: the reactive power from the power factor; a division by zero or a negative root is an exception. *)
Definition from_factor (v : vars) (p pf : R) : outcome :=
  if Req_EM_T pf 0 then Skip (with_p v p)
  else match msqrt ((1 - pf * pf) / (pf * pf)) with
       | Some r => Goes (with_pq v p (p * r)%R)
       | None => Skip (with_p v p)
       end.

(** Lines 5699-5763, when both values are there; [kva] is the cell connectedkva as a number, if it is there. *)
Definition power_of (v : vars) (kva : option R) (t1 t2 : string) : res outcome :=
  do v1 <- of_opt EValue (num t1);
  do zero <- (if Req_EM_T v1 0 then do v2 <- of_opt EValue (num t2); Ok (if Req_EM_T v2 0 then true else false) else Ok false);
  if zero : bool then Ok (Goes (with_pq v 0 0))
  else
    do vt <- of_opt EName (v_type v);
    if Z.eqb vt 0 then
      Ok (match num t2 with Some v2 => Goes (with_pq v v1 v2) | None => Skip v end)
    else if Z.eqb vt 1 then
      Ok (match num t2 with
          | Some v2 =>
            let s := if Req_EM_T v1 0 then match kva with Some k => k | None => v1 end else v1 in
            let p := (s * (v2 * (1 / 100)))%R in
            match msqrt (s * s - p * p) with Some q => Goes (with_pq v p q) | None => Skip (with_p v p) end
          | None => Skip v
          end)
    else if Z.eqb vt 2 then
      Ok (match num t2 with
          | Some pf =>
            if Rle_dec 0 pf then
              if Rle_dec pf 1 then from_factor v v1 pf
              else if Rle_dec pf 100 then from_factor v v1 (pf / 100)%R
              else Goes (with_p v v1)
            else Goes (with_p v v1)
          | None => Skip v
          end)
    else if Z.eqb vt 3 then Ok (Skip v)
    else Ok (Goes v).

(** Lines 5864-5881: the shares that are assigned before something is missing. *)
Definition share_keys : list string :=
  ["constantcurrentip"; "constantcurrentiq"; "constantpowerpp"; "constantpowerpq"; "constantimpedancezp"; "constantimpedancezq"].
Fixpoint shares_from (d : record) (ks : list string) : list R :=
  match ks with
  | [] => []
  | k :: r => match dget d k with
              | Some t => match num t with Some x => (x / 100)%R :: shares_from d r | None => [] end
              | None => []
              end
  end.
Definition shares (c : option record) : list R := match c with Some d => shares_from d share_keys | None => [] end.

(** Lines 5844-5889 *)
Definition phase_loads (p : R) (q : option R) (c : option record) (ps : list string) : list phase_load :=
  map (fun ph => mkPhaseLoad ph (match q with Some q => Some (1000 * p / INR (length ps), 1000 * q / INR (length ps))%R | None => None end) (shares c)) ps.

(** [self._loads[sectionID]] changed *)
Fixpoint put {A} (l : list A) (i : nat) (x : A) : list A :=
  match l, i with [], _ => [] | _ :: t, O => x :: t | y :: t, S j => y :: put t j x end.
Definition add_dup (d : list (string * list nat)) (s : string) (i : nat) : list (string * list nat) :=
  dset d s ((match dget d s with Some l => l | None => [] end) ++ [i]).

(** Lines 5683-5897 for one customer load. *)
Definition one_load (doubled : list string) (st : state) (x : string * record) : res state :=
  let sid := lower (strip_star (fst x)) in
  let settings := snd x in
  let load_data := match dget loads sid with Some d => d | None => [] end in
  do kva <- (match dget settings "connectedkva" with Some t => do k <- of_opt EValue (num t); Ok (Some k) | None => Ok None end);
  do v <- (match dget settings "valuetype" with
           | Some t => do z <- of_opt EValue (int_ t); Ok (mkVars (Some z) (v_p (st_vars st)) (v_q (st_vars st)) (v_class (st_vars st)))
           | None => Ok (st_vars st)
           end);
  match dget settings "value1", dget settings "value2" with
  | Some t1, Some t2 =>
    do o <- power_of v kva t1 t2;
    match o with
    | Skip v' => Ok (mkState (st_loads st) (st_index st) (st_dup st) v')
    | Goes v' =>
      do p <- of_opt EName (v_p v');
      do flows <- (if Rle_dec 0 p then Ok true else do q <- of_opt EName (v_q v'); Ok (if Rle_dec 0 q then true else false));
      if flows : bool then
        let ps := match dget settings "loadphase" with Some s => letters s | None => [] end in
        let fusion := smem sid doubled in
        if fusion && (if Req_EM_T p 0 then true else false) then Ok (mkState (st_loads st) (st_index st) (st_dup st) v')
        else
          do feeder <- of_opt EKey (dget section_feeder sid);
          do nt <- of_opt EKey (dget settings "numberofcustomer");
          do users <- of_opt EValue (num nt);
          match (if fusion then match dget (st_index st) sid with Some i => match nth_error (st_loads st) i with Some l => Some (i, l) | None => None end | None => None end else None) with
          | Some (i, l) =>
            let l' := mkLoad (match joined ps with Some j => l_name l ++ "_" ++ j | None => l_name l end)%string
                        (match kva with Some k => match l_kva l with Some k0 => Some (k0 + k * 1000)%R | None => Some (k * 1000)%R end | None => l_kva l end)
                        (l_connection l) (l_element l) feeder users (l_phases l ++ phase_loads p (v_q v') (v_class v') ps) in
            Ok (mkState (put (st_loads st) i l') (st_index st) (st_dup st) v')
          | None =>
            let class := match dget settings "loadtype" with
                         | Some t => match dget classes t with Some d => d | None => [] end
                         | None => []
                         end in
            let conn := match dget load_data "connection" with
                        | Some t => match connection_configuration_mapping (VStr t) with Ok (Some c) => Some c | _ => None end
                        | None => None
                        end in
            let element := match dget section_phase sid with Some d => dget d "fromnodeid" | None => None end in
            let l := mkLoad (match joined ps with Some j => "Load_" ++ sid ++ "_" ++ j | None => "" end)%string
                       (option_map (fun k => k * 1000)%R kva) conn element feeder users (phase_loads p (v_q v') (Some class) ps) in
            let i := length (st_loads st) in
            Ok (mkState (st_loads st ++ [l]) (dset (st_index st) sid i) (add_dup (st_dup st) sid i)
                  (mkVars (v_type v') (v_p v') (v_q v') (Some class)))
          end
      else Ok (mkState (st_loads st) (st_index st) (st_dup st) v')
    end
  | _, _ => Ok (mkState (st_loads st) (st_index st) (st_dup st) v)
  end.

(** Lines 5679-5682 *)
Definition doubled_of (customers : list (string * record)) : list string :=
  map (fun x => strip_star (lower (fst x))) (filter (fun x => ends_star (fst x)) customers).
(** Lines 5679-5899 *)
Definition make_loads (customers : list (string * record)) : res state :=
  foldM (one_load (doubled_of customers)) customers (mkState [] [] [] (mkVars None None None None)).
End Loads.

(** Lines 5601-5677: the three parts of the load file, read in one pass. *)
Definition load_columns : columns := [("sectionid", 0); ("devicenumber", 1); ("loadtype", 4); ("connection", 5)].
Definition load_attrs := ["sectionid"; "devicenumber"; "loadtype"; "connection"].
Definition customer_columns : columns :=
  [("sectionid", 0); ("devicenumber", 1); ("loadtype", 2); ("customernumber", 3); ("customertype", 4); ("loadmodelid", 8); ("valuetype", 11);
   ("loadphase", 12); ("value1", 13); ("value2", 14); ("connectedkva", 15); ("numberofcustomer", 17)].
Definition customer_attrs := map fst customer_columns.
Definition class_columns : columns :=
  [("id", 0); ("constantpower", 4); ("constantcurrent", 5); ("constantimpedance", 6); ("powerfactor", 8); ("constantimpedancezp", 17);
   ("constantimpedancezq", 18); ("constantcurrentip", 19); ("constantcurrentiq", 20); ("constantpowerpp", 21); ("constantpowerpq", 22)].
Definition class_attrs := map fst class_columns.
Definition three := (list (string * record) * list (string * record) * list (string * record))%type.
Fixpoint read_load_file (fuel : nat) (d : three) (content : list string) : res three :=
  match fuel with
  | O => Err EFuel
  | S k =>
    match content with
    | [] => Ok d
    | line :: rest =>
      let '(l, c, g) := d in
      do '(l', rest) <- parser_helper cyme_headers ["loads"] load_attrs load_columns [] [] line rest;
      do '(c', rest) <- parser_helper cyme_headers ["customer_loads"] customer_attrs customer_columns [] [] line rest;
      do '(g', rest) <- parser_helper cyme_headers ["customer_class"] class_attrs class_columns [] [] line rest;
      read_load_file k (dict_update l l', dict_update c c', dict_update g g') rest
    end
  end.
(** Lines 5563-5899 *)
Definition parse_loads (num : string -> option R) (int_ : string -> option Z) (section_phase : list (string * record))
  (section_feeder : list (string * string)) (content : list string) : res state :=
  do '(l, c, g) <- read_load_file (S (length content)) ([], [], []) content;
  make_loads num int_ l g section_phase section_feeder c.
