(** The capacitors of the OpenDSS reader.
    Models ditto/readers/opendss/read.py 2159-2366 (parse_capacitors).

    Simplifications: those of DssRdLoadModel (dictionaries of texts and lists of texts, floats are reals, no warnings).
    A list is no value for a text attribute (TraitError). *)
From Verif Require Import Base CsvModel TextModel DssNameModel DssRdLoadModel.
From Coq Require Import Reals.
Local Open Scope string_scope.
Local Open Scope nat_scope.
Local Open Scope list_scope.

Record rcap := mkRcap {
  rc_name : string; rc_feeder : string; rc_kv : option R; rc_conn : option string; rc_delay : option R; rc_element : option string; rc_mode : option string;
  rc_low : option R; rc_high : option R; rc_r : option R; rc_x : option R; rc_pt : option R; rc_ct : option R; rc_ptphase : option string;
  rc_bus : option string; rc_phases : option (list (option string * option R)) }.

Section Caps.
Variable int_ : string -> option Z.
Variable num : string -> option R.
Variable source_name : string.

(** 2210-2215: the first control of the capacitor *)
Fixpoint find_control (name : string) (controls : list (string * data)) : res (option data) :=
  match controls with
  | [] => Ok None
  | (_, c) :: t =>
    do v <- of_opt EKey (c "capacitor");
    match v with
    | PText s => if String.eqb (lower s) name then Ok (Some c) else find_control name t
    | PList _ => Err EAttr
    end
  end.
(** 2230-2242 *)
Definition mode_of (t : string) : option string :=
  if String.eqb t "Voltage" then Some "voltage"
  else if String.eqb t "Current" then Some "currentFlow"
  else if String.eqb t "kvar" then Some "reactivePower"
  else if String.eqb t "PF" then None
  else if String.eqb t "time" then Some "timeScheduled"
  else None.
(** 2259-2268: the sum over the items of a list or the characters of a text *)
Fixpoint chars (s : string) : list string := match s with "" => [] | String c t => String c "" :: chars t end.
Definition sum_of (d : data) (k : string) : option R :=
  let items := match d k with Some (PList l) => Some l | Some (PText s) => Some (chars s) | None => None end in
  match items with
  | Some l => match mapM (fun x => of_opt EValue (num x)) l with Ok rs => Some (fold_left Rplus rs 0%R) | Err _ => None end
  | None => None
  end.
(** 2294-2307 *)
Definition cap_at (d : data) : option (string * list string) :=
  match text_of d "bus1" with
  | None => None
  | Some s => match split_on "." s with b :: n :: ns => Some (b, n :: ns) | _ => Some (s, ["1"; "2"; "3"]) end
  end.
(** 2341-2361 *)
Definition over (x : option R) (n : Z) : option R :=
  match x with Some r => if Z.eqb n 0 then None else Some (r / IZR n * 1000)%R | None => None end.
Definition var_of (v : pval) (count : nat) (n : Z) (p : nat) : option R :=
  match v with
  | PList l =>
    if length l =? count then match nth_error l p with Some s => option_map (fun r => r * 1000)%R (num s) | None => None end
    else over (match l with s :: _ => num s | [] => None end) n
  | PText s => over (num s) n
  end.
Fixpoint phase_caps (d : data) (pt : option string) (count : nat) (n : Z) (p : nat) (phases : list string) : res (list (option string * option R)) :=
  match phases with
  | [] => Ok []
  | ph :: t =>
    do v <- of_opt EKey (d "kvar");
    do r <- phase_caps d pt count n (S p) t;
    let m := r_phase_str ph in
    Ok ((match pt, m with Some a, Some b => if String.eqb a b then Some a else m | _, _ => m end, var_of v count n p) :: r)
  end.
(** 2171-2366 for one capacitor; None when it is disabled *)
Definition parse_cap (controls : list (string * data)) (full : string) (d : data) : res (option rcap) :=
  do en <- of_opt EKey (d "enabled");
  if match en with PText s => String.eqb s "Yes" | PList _ => false end then
    let name := match second_piece "apacitor." full with Some x => lower x | None => "" end in
    do control <- find_control name controls;
    let ctl (k : string) : option R := match control with Some c => float_of num c k | None => None end in
    let pt := match control with Some c => match int_of int_ c "PTPhase" with Some z => r_phase_int z | None => None end | None => None end in
    let at_ := cap_at d in
    let n := match int_of int_ d "phases" with Some z => Some z | None => match pt with Some _ => Some 1%Z | None => None end end in
    let phases := match at_, int_of int_ d "phases" with
                  | Some (_, ns), _ => Some ns
                  | None, Some z => if Z.eqb z 3 then Some ["1"; "2"; "3"] else None
                  | None, None => None
                  end in
    do pcs <- match phases, n with
              | Some ns, Some z => do l <- phase_caps d pt (length ns) z 0 ns; Ok (Some l)
              | _, _ => Ok None
              end;
    Ok (Some (mkRcap name source_name (option_map (fun v => v * 1000)%R (float_of num d "kv")) (conn_of d) (ctl "Delay")
      (match control with Some c => text_of c "element" | None => None end)
      (match control with Some c => match text_of c "type" with Some t => mode_of t | None => None end | None => None end)
      (ctl "Vmin") (ctl "Vmax") (sum_of d "R") (sum_of d "XL") (ctl "PTratio") (ctl "CTratio") pt
      (match at_ with Some (b, _) => Some b | None => None end) pcs))
  else Ok None.
Fixpoint kept_caps (l : list (option rcap)) : list rcap := match l with [] => [] | Some x :: r => x :: kept_caps r | None :: r => kept_caps r end.
(** 2167-2366 *)
Definition parse_caps (controls caps : list (string * data)) : res (list rcap) :=
  do l <- mapM (fun x => parse_cap controls (fst x) (snd x)) caps; Ok (kept_caps l).
End Caps.
