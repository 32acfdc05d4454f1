(** The text parser of the GridLAB-D reader.
    Models ditto/readers/gridlabd/read.py 495-619 (first part of Reader.parse) and ditto/formats/gridlabd/base.py.

    Simplifications:
    - The classes of ditto/formats/gridlabd/schema.json are a table [schema]: the names of the properties of a class,
      including the inherited ones (base.py 10-20). A name that is no class raises AttributeError.
    - Files are lists of rows; [files] tells the rows of an included file, or the error of [open].
    - [cron] stands for croniter: whether the next time after [origin - 1 minute] of a cron expression is the origin.
    - Text is ASCII. *)
From Verif Require Import Base CsvModel TextModel.
Local Open Scope string_scope.
Local Open Scope list_scope.

(** [s.split()] *)
Fixpoint split_ws (s : string) : list string :=
  match s with
  | "" => []
  | String c t =>
    if is_space c then split_ws t
    else match t with
         | "" => [String c ""]
         | String d _ => if is_space d then String c "" :: split_ws t
                         else match split_ws t with w :: r => String c w :: r | [] => [String c ""] end
         end
  end.
(** [s[-1] == c] and [s[:-1]] *)
Fixpoint last_is (c : ascii) (s : string) : bool :=
  match s with "" => false | String d "" => Ascii.eqb c d | String _ t => last_is c t end.
Fixpoint drop_last (s : string) : string := match s with "" => "" | String _ "" => "" | String d t => String d (drop_last t) end.
(** [s[-2:] == "};"] *)
Definition ends_close (s : string) : bool := (last_is ";" s && last_is "}" (drop_last s))%bool.
Definition begins (p s : string) : bool := String.prefix p s.
(** [s.strip(c)] for one character *)
Fixpoint lstrip_c (c : ascii) (s : string) : string := match s with "" => "" | String d t => if Ascii.eqb c d then lstrip_c c t else s end.
Fixpoint rstrip_c (c : ascii) (s : string) : string :=
  match s with "" => "" | String d t => match rstrip_c c t with "" => if Ascii.eqb c d then "" else String d "" | r => String d r end end.
Definition strip_c (c : ascii) (s : string) : string := rstrip_c c (lstrip_c c s).

(** base.py: an object of a class with the properties that are set *)
Record obj := mkObj { o_cls : string; o_props : dict string }.
Definition getitem (o : obj) (k : string) : res string := of_opt EAttr (dget (o_props o) k).
Definition setitem (schema : string -> option (list string)) (o : obj) (k v : string) : res obj :=
  match schema (o_cls o) with
  | Some l => if smem k l then Ok (mkObj (o_cls o) (dset (o_props o) k v)) else Err EAttr
  | None => Err EAttr
  end.

(** read.py 501-507 *)
Record pst := mkPst { p_curr : option obj; p_nest : bool; p_sched : option string; p_cnt : Z; p_found : bool; p_objs : dict obj; p_scheds : dict string }.
Definition pst0 (objs : dict obj) : pst := mkPst None false None 0 false objs [].

(** 526-536 *)
Definition ignored : list string := ["house"; "solar"; "inverter"; "waterheater"; "climate"; "ZIPload"; "tape.recorder"; "player"; "tape.collector"; "tape.group_recorder"; "recorder"].

Section Rows.
Variable schema : string -> option (list string).
Variable cron : string -> res bool.

(** 522-543 *)
Definition header (st : pst) (entries : list string) : res pst :=
  match p_curr st with
  | Some _ => Ok (mkPst (p_curr st) true (p_sched st) (p_cnt st) (p_found st) (p_objs st) (p_scheds st))
  | None =>
    do e1 <- of_opt EIndex (nth_error entries 1);
    let ob := split_on ":" e1 in
    let cls := hd "" ob in
    if smem cls ignored then Ok st
    else match schema cls with
         | None => Err EAttr
         | Some _ =>
           do o <- match nth_error ob 1 with
                   | Some i => setitem schema (mkObj cls []) "name" (cls ++ ":" ++ i)
                   | None => Ok (mkObj cls [])
                   end;
           Ok (mkPst (Some o) (p_nest st) (p_sched st) (p_cnt st) (p_found st) (p_objs st) (p_scheds st))
         end
  end.

(** 555-568 *)
Definition property (o : obj) (entries : list string) : res obj :=
  match entries with
  | element :: value :: _ => setitem schema o element (if last_is ";" value then drop_last value else value)
  | _ => Ok o
  end.
(** 574-597 *)
Definition close (objs : dict obj) (o : obj) : res (dict obj) :=
  match getitem o "name" with
  | Ok n => Ok (dset objs n o)
  | Err _ =>
    do f <- getitem o "from";
    do t <- getitem o "to";
    do o' <- setitem schema o "name" (f ++ "-" ++ t);
    Ok (dset objs (f ++ "-" ++ t) o')
  end.
(** 553-597 *)
Definition in_object (st : pst) (o : obj) (row : string) (entries : list string) : res pst :=
  do o <- property o entries;
  let st := mkPst (Some o) (p_nest st) (p_sched st) (p_cnt st) (p_found st) (p_objs st) (p_scheds st) in
  if (last_is "}" row || ends_close row)%bool then
    if p_nest st then Ok (mkPst (Some o) false (p_sched st) (p_cnt st) (p_found st) (p_objs st) (p_scheds st))
    else do objs <- close (p_objs st) o;
         Ok (mkPst None false (p_sched st) (p_cnt st) (p_found st) objs (p_scheds st))
  else Ok st.

(** 598-617 *)
Definition in_schedule (st : pst) (name row : string) : res pst :=
  let row := strip_c ";" row in
  let entries := split_ws row in
  do st <- (if (Nat.ltb 5 (length entries) && negb (p_found st))%bool then
      do hit <- cron (String.concat " " (removelast entries));
      if hit then Ok (mkPst (p_curr st) (p_nest st) (p_sched st) (p_cnt st) true (p_objs st) (dset (p_scheds st) name (last entries "")))
      else Ok st
    else Ok st);
  match row with
  | "" => Ok st
  | String c _ =>
    let cnt := (p_cnt st - (if last_is "}" row then 1 else 0) + (if Ascii.eqb c "{" then 1 else 0))%Z in
    if Z.eqb cnt 0 then Ok (mkPst (p_curr st) (p_nest st) None cnt false (p_objs st) (p_scheds st))
    else Ok (mkPst (p_curr st) (p_nest st) (p_sched st) cnt (p_found st) (p_objs st) (p_scheds st))
  end.

(** 516-617 *)
Definition step (st : pst) (row : string) : res pst :=
  let row := strip row in
  if begins "//" row then Ok st
  else
    let entries := split_ws row in
    if String.eqb (hd "" entries) "object" then header st entries
    else if String.eqb (hd "" entries) "schedule" then
      match p_sched st with
      | None => do n <- of_opt EIndex (nth_error entries 1); Ok (mkPst (p_curr st) (p_nest st) (Some n) 1 (p_found st) (p_objs st) (p_scheds st))
      | Some _ => Ok st
      end
    else
      do st <- match p_curr st with Some o => in_object st o row entries | None => Ok st end;
      match p_sched st with Some n => in_schedule st n row | None => Ok st end.
End Rows.

(** 508-514 *)
Definition includes (files : string -> res (list string)) (rows : list string) : res (list string) :=
  foldM (fun acc row =>
    if begins "#include" row then
      do loc <- of_opt EIndex (nth_error (split_ws row) 1);
      do r <- files (strip_c """" loc);
      Ok (acc ++ r)
    else Ok acc) rows [].

(** 498-617: the rows of the input file, then those of the included files. [objs] is the class attribute
    [all_gld_objects] (53), which keeps the objects of earlier readers. *)
Definition parse_glm schema cron (files : string -> res (list string)) (objs : dict obj) (rows : list string) : res (dict obj * dict string) :=
  do inc <- includes files rows;
  do st <- foldM (step schema cron) (rows ++ inc) (pst0 objs);
  Ok (p_objs st, p_scheds st).
