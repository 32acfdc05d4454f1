From Coq Require Import List String Ascii Bool Arith ZArith Reals.
From Verif Require Import Base TextModel.
Import ListNotations.
Local Open Scope string_scope.
Local Open Scope nat_scope.
Local Open Scope list_scope.

(** The CYME load file that is written.
    Models ditto/writers/cyme/write.py 52-76 (connection_configuration_mapping) and 4872-5138 (write_load_file).

    Simplifications:
    - Real numbers instead of floats; [str_of] is the text of a number, [hash] is hashlib.sha1(...).hexdigest();
      the empty sums of lines 4963-4964 are the real number 0.
    - A timeseries is its data label; a position is its longitude and latitude.
    - [datetime.now()] is a text. *)

Record wphase := mkWPhase { wp_phase : option string; wp_p : option R; wp_q : option R; wp_drop : bool }.
Record wload := mkWLoad {
  w_name : option string; w_element : option string; w_feeder : option string; w_substation : option string;
  w_position : option (R * R);            (* the first of the positions, if there is one *)
  w_connection : option string; w_center : bool; w_phases : option (list wphase);
  w_label : option string;                (* of the first timeseries; None if there is none *)
  w_1n : option R; w_n2 : option R; w_12 : option R
}.
(** What stays in the writer from one load to the next, and the lines of the file. *)
Record wstate := mkW {
  x_feeders : list (string * list string); x_heads : list (string * string);
  x_node_ids : list string; x_nodes : list string;
  x_sections : list string; x_feeder_sections : list (string * list string);
  x_pq : option (R * R);                  (* the variables P and Q *)
  x_loads : list string; x_customers : list string
}.

Section Writer.
Variable str_of : R -> string.
Variable hash : string -> string.

(** Lines 52-76 *)
Definition connection_code (c : string) : res string :=
  if String.eqb c "Y" then Ok "0" else if String.eqb c "D" then Ok "2" else if String.eqb c "Z" then Ok "5" else Err EValue.

(** [d[k].append(x)] or [d[k] = [x]] *)
Definition append_to (d : list (string * list string)) (k x : string) : list (string * list string) :=
  dset d k ((match dget d k with Some l => l | None => [] end) ++ [x]).

(** Lines 4895-4901 *)
Definition section_id (f t : string) : string :=
  let s := (f ++ "_" ++ t)%string in
  if Nat.ltb 64 (String.length s) then hash s else s.

(** Lines 4962-4991: the loads that are not dropped and have a phase. *)
Definition kept (l : list wphase) : list wphase := filter (fun p => negb (wp_drop p)) l.
Definition phase_names (l : list wphase) : string :=
  String.concat "" (map (fun p => match wp_phase p with Some s => s | None => "" end) l).
Definition sum_of (get : wphase -> option R) (l : list wphase) : R :=
  fold_left (fun a p => match wp_phase p, get p with Some _, Some x => a + x * (1 / 1000) | _, _ => a end)%R l 0%R.

(** Lines 4993-5016: [new_section] with its last character replaced by two in order. *)
Definition before (a b : ascii) : string := if Nat.leb (nat_of_ascii a) (nat_of_ascii b) then String a (String b "") else String b (String a "").
Fixpoint with_last (s : string) (f : ascii -> string) : string :=
  match s with
  | EmptyString => ""
  | String c "" => f c
  | String c t => String c (with_last t f)
  end.
Definition next_phase (s : string) : option ascii :=
  if String.eqb s "A" then Some "B"%char else if String.eqb s "B" then Some "C"%char else if String.eqb s "C" then Some "A"%char else None.
Definition delta_section (l : list wphase) (conn : option string) (section : string) : string :=
  match l, conn with
  | [p], Some c =>
    if String.eqb c "D" then
      match wp_phase p with
      | Some ph => match next_phase ph with Some n => with_last section (fun c => before c n) | None => section end
      | None => section
      end
    else section
  | _, _ => section
  end.

(** Lines 4883-5121 for one load. *)
Definition write_load (st : wstate) (i : wload) : res wstate :=
  let named := match w_name i, w_element i with Some n, Some e => Some (n, e) | _, _ => None end in
  (* 4886-4948 *)
  let sid := match named with Some (n, e) => section_id e n | None => "" end in
  let feeders := match named, w_feeder i with Some _, Some f => append_to (x_feeders st) f sid | _, _ => x_feeders st end in
  let heads := match named, w_feeder i, w_substation i with Some _, Some f, Some s => dset (x_heads st) f s | _, _, _ => x_heads st end in
  let start := match named with Some _ => (sid ++ "," ++ sid)%string | None => "" end in
  let fresh := match named with Some (n, _) => if smem n (x_node_ids st) then None else Some n | None => None end in
  let node_ids := match fresh with Some n => x_node_ids st ++ [n] | None => x_node_ids st end in
  let nodes := match fresh with
               | Some n => x_nodes st ++ [match w_position i with
                                          | Some (x, y) => (n ++ "," ++ str_of x ++ "," ++ str_of y)%string
                                          | None => (n ++ ",0,0")%string
                                          end]
               | None => x_nodes st
               end in
  let section := match named with Some (n, e) => Some (sid ++ "," ++ e ++ ",0," ++ n ++ ",0,")%string | None => None end in
  (* 4950-4959 *)
  let conn := match w_connection i with
              | Some c => if w_center i then ",6" else match connection_code c with Ok k => ("," ++ k)%string | Err _ => "," end
              | None => ","
              end in
  (* 4960-5049 *)
  let '(section, pq, middle) :=
    match w_phases i with
    | Some l =>
      let l := kept l in
      let p := sum_of wp_p l in
      let q := sum_of wp_q l in
      (option_map (fun s => delta_section l (w_connection i) (s ++ phase_names l)%string) section,
       Some (p, q),
       (",0," ++ phase_names l ++ (if w_center i then ",," else "," ++ str_of p ++ "," ++ str_of q))%string)
    | None => (section, x_pq st, "")
    end in
  (* 5051-5074 *)
  let label := match w_label i with Some s => if Nat.eqb (String.length s) 0 then "PQ" else s | None => "PQ" end in
  (* 5076-5104 *)
  do taps <- (match w_center i, w_1n i, w_n2 i, w_12 i with
              | true, Some a, Some b, Some _ =>
                do '(p, q) <- of_opt EName pq;
                Ok ("," ++ str_of (a * 100)%R ++ "," ++ str_of (b * 100)%R ++ "," ++ str_of (p * a)%R ++ "," ++ str_of (q * a)%R ++ "," ++
                    str_of (p * b)%R ++ "," ++ str_of (q * b)%R)%string
              | _, _, _, _ => Ok ",,,,,,"
              end);
  let load_line := (start ++ ",SPOT" ++ conn ++ ",0")%string in
  let customer_line := (start ++ ",SPOT" ++ middle ++ ",0," ++ label ++ taps ++ ",0")%string in
  Ok (mkW feeders heads node_ids nodes
        (match section with Some s => x_sections st ++ [s] | None => x_sections st end)
        (match section, w_feeder i with Some s, Some f => append_to (x_feeder_sections st) f s | _, _ => x_feeder_sections st end)
        pq (x_loads st ++ [load_line]) (x_customers st ++ [customer_line])).

(** Lines 5122-5138 *)
Definition eol : string := String (ascii_of_nat 10) "".
Definition load_lines (date : string) (st : wstate) : list string :=
  map (fun s => s ++ eol)%string
    (["[GENERAL]"; "DATE=" ++ date; "CYME_VERSION=8.02"; ""; "[SI]"; ""; "[LOADS]"; "FORMAT_LOADS=SectionID,DeviceNumber,LoadType,Connection,Location"]%string ++
     x_loads st ++
     [""; "[CUSTOMER LOADS]";
      "FORMAT_CUSTOMERLOADS=SectionID,DeviceNumber,LoadType,ValueType,LoadPhase,Value1,Value2,CustomerNumber,CustomerType,CenterTapPercent,CenterTapPercent2,LoadValue1N1,LoadValue1N2,LoadValue2N1,LoadValue2N2,ConnectionStatus"] ++
     x_customers st).
(** Lines 4872-5138, from the writer as lines 233-247 leave it. *)
Definition start : wstate := mkW [] [] [] [] [] [] None [] [].
Definition write_load_file (date : string) (loads : list wload) : res (wstate * list string) :=
  do st <- foldM write_load loads start;
  Ok (st, load_lines date st).
End Writer.
