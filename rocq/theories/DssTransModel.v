(** The texts of the transformers of the OpenDSS writer.
    Models ditto/writers/opendss/write.py 449-942 (write_transformers).

    Simplifications:
    - Floats are rationals, products with a power of ten are exact, and [show] is what [format] writes for a float.
    - windings and phase_windings are lists (the default of these attributes); reactances is a list or None.
    - The base voltages (603-645, 830-860) are left out.
    - A Python set of compensator settings is the list of its elements without repetition. *)
From Verif Require Import Base CsvModel DssNameModel DssTextModel.
From Coq Require Import QArith.
Local Open Scope string_scope.
Local Open Scope nat_scope.
Local Open Scope list_scope.

Record phase_winding := mkPW { pw_phase : option string; pw_tap : option Q; pw_r : option Q; pw_x : option Q }.
Record winding := mkWd {
  wd_conn : option string; wd_v : option Q; wd_va : option Q; wd_emerg : option Q; wd_res : option Q; wd_ground : bool; wd_phases : list phase_winding }.
Record transformer := mkTr {
  tr_name : option string; tr_from : option string; tr_to : option string; tr_loss : option Q; tr_noload : option Q; tr_norm : option Q;
  tr_windings : list winding; tr_reac : option (list Q); tr_center : bool }.

(** [phase_mapping] of a phase that may be None *)
Definition map_phase (p : option string) : option Z := match p with Some x => w_phase x | None => None end.
(** Lines 702-707, 806-811 *)
Definition next_text (p : option string) : string :=
  match map_phase p with Some 1%Z => ".2" | Some 2%Z => ".3" | Some 3%Z => ".1" | _ => "" end.

(** *** The settings of line drop compensators (lines 527-569)
    self.compensator: for the name of each transformer the sets R and X. *)
Definition set_add (q : Q) (l : list Q) : list Q := if existsb (Qeq_bool q) l then l else l ++ [q].
Definition settings (f : phase_winding -> option Q) (t : transformer) : list Q :=
  fold_left (fun s w => fold_left (fun s p => match f p with Some q => set_add q s | None => s end) (wd_phases w) s) (tr_windings t) [].

Section Trans.
Variable show : Q -> string.
Variable write_taps : bool.

Definition conn_words (c : option string) : string := match c with Some "Y" => " conn=wye" | Some "D" => " conn=delta" | _ => "" end.
Definition rating_words (w : winding) : string :=
  (opt_text (fun v => " Kv=" ++ show (milli v)) (wd_v w) ++
   opt_text (fun v => " kva=" ++ show (milli v)) (wd_va w) ++
   opt_text (fun v => " EmergHKVA=" ++ show (milli v)) (wd_emerg w))%string.
(** phase_windings[0] of no phase windings is an IndexError *)
Definition tap_words (w : winding) : res string :=
  if write_taps then
    match wd_phases w with
    | [] => Err EIndex
    | p :: _ => Ok (opt_text (fun t => " Tap=" ++ show t)%string (pw_tap p))
    end
  else Ok "".

(** Lines 571-729, one winding of two *)
Definition two_nodes (w : winding) : string :=
  (if Nat.eqb (List.length (wd_phases w)) 3 then ""
   else
     texts (map (fun p => opt_text (fun x => "." ++ show_phase x)%string (pw_phase p)) (wd_phases w)) ++
     match wd_conn w, wd_phases w with Some "D", [p] => next_text (pw_phase p) | _, _ => "" end)%string.
Definition two_winding (cnt : nat) (bus : string) (w : winding) : res string :=
  do tap <- tap_words w;
  Ok (" wdg=" ++ str_of (S cnt) ++ conn_words (wd_conn w) ++ rating_words w ++
      opt_text (fun r => " %R=" ++ show r) (wd_res w) ++
      " bus=" ++ re_sub bus ++ two_nodes w ++ (if wd_ground w then ".0" else "") ++ tap)%string.

(** Lines 759-905, one winding of a center tap transformer; [last_pw] is the loop variable left by lines 527-569. *)
Definition default_r : list Q := [6 # 10; 12 # 10; 12 # 10].
Definition primary_nodes (last_pw : option phase_winding) (w : winding) : res string :=
  match wd_phases w with
  | [] => Err EIndex
  | p :: r =>
    Ok ("." ++ show_opt (option_map show_int (map_phase (pw_phase p))) ++
        match wd_conn w, r with
        | Some "D", p2 :: _ => "." ++ show_opt (option_map show_int (map_phase (pw_phase p2)))
        | Some "D", [] => match last_pw with Some q => next_text (pw_phase q) | None => "" end
        | _, _ => ""
        end)%string
  end.
(** default_r[cnt - 1]: of winding 0 the last one *)
Definition center_r (cnt : nat) : Q := nth (match cnt with 0 => 2 | S k => k end) default_r 0%Q.
Definition center_winding (last_pw : option phase_winding) (cnt : nat) (bus : string) (w : winding) : res string :=
  do nodes <- (match cnt with 0 => primary_nodes last_pw w | 1 => Ok ".1.0" | _ => Ok ".0.2" end);
  do tap <- tap_words w;
  Ok (" wdg=" ++ str_of (S cnt) ++ conn_words (wd_conn w) ++ " bus=" ++ re_sub bus ++ nodes ++ rating_words w ++ tap ++
      " %R=" ++ show (match wd_res w with Some r => r | None => center_r cnt end))%string.

(** Lines 449-487; without windings N_phases[0] is an IndexError that is only logged. *)
Definition phases_words (t : transformer) : string :=
  match tr_windings t with
  | [] => ""
  | w :: _ =>
    let n := Z.of_nat (List.length (wd_phases w)) in
    let np := if Nat.eqb (List.length (tr_windings t)) 3 then match wd_conn w with Some "D" => (n - 1)%Z | _ => n end else n in
    (" phases=" ++ show_int np ++ " windings=" ++ str_of (List.length (tr_windings t)))%string
  end.

(** Lines 449-942.  A transformer without a name is logged and written all the same; without from_element or to_element
    the name [loggger] is unknown. *)
Definition trans_text (t : transformer) : res string :=
  do b1 <- of_opt EName (tr_from t);
  do b2 <- of_opt EName (tr_to t);
  do body <- (match tr_windings t with
    | [w1; w2] =>
      do x1 <- two_winding 0 b1 w1;
      do x2 <- two_winding 1 b2 w2;
      Ok (x1 ++ x2 ++ match tr_reac t with Some [x] => " XHL=" ++ show x | _ => "" end)%string
    | [w1; w2; w3] =>
      if tr_center t then
        let last_pw := last (map Some (concat (map wd_phases (tr_windings t)))) None in
        do x1 <- center_winding last_pw 0 b1 w1;
        do x2 <- center_winding last_pw 1 b2 w2;
        do x3 <- center_winding last_pw 2 b2 w3;
        Ok (x1 ++ x2 ++ x3 ++
            match tr_reac t with
            | Some [a; b; c] => " XHL=" ++ show a ++ " XLT=" ++ show b ++ " XHT=" ++ show c
            | Some _ => ""
            | None => " XHL=2.040000 XHT=2.040000 XLT=1.360000"
            end)%string
      else Ok ""
    | _ => Ok ""
    end);
  Ok (opt_text (fun n => "New Transformer." ++ n)%string (tr_name t) ++
      phases_words t ++
      opt_text (fun v => " %loadloss=" ++ show v) (tr_loss t) ++
      opt_text (fun v => " %Noloadloss=" ++ show v) (tr_noload t) ++
      opt_text (fun v => " normhkva=" ++ show v) (tr_norm t) ++
      body ++ String "010" (String "010" ""))%string.
End Trans.
