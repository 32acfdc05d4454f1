(** What a GLM file says, independent of the parser: rows are words between blanks, blocks are rows. *)
From Verif Require Import Base CsvModel TextModel GlmModel.
Local Open Scope list_scope.
Local Open Scope string_scope.

Fixpoint every (p : ascii -> bool) (s : string) : Prop := match s with "" => True | String c t => p c = true /\ every p t end.
Definition blank (s : string) : Prop := every is_space s.
Definition word (s : string) : Prop := s <> "" /\ every (fun c => negb (is_space c)) s.
Definition breaks (s : string) : Prop := match s with "" => True | String c _ => is_space c = true end.
(** [spells row ws]: the row consists of the words [ws], with blanks between and around them *)
Inductive spells : string -> list string -> Prop :=
| spells_nil : forall a, blank a -> spells a []
| spells_cons : forall a w r ws, blank a -> word w -> breaks r -> spells r ws -> spells (a ++ w ++ r) (w :: ws).

Definition comment (ws : list string) : Prop := ws = [] \/ exists s r, ws = ("//" ++ s) :: r.
Definition keyword (w : string) : Prop := w = "object" \/ w = "schedule".
Definition no_comment (w : string) : Prop := forall s, w <> "//" ++ s.
(** the last word closes a block *)
Definition closing (w : string) : Prop := exists s, w = s ++ "}" \/ w = s ++ "};".
Definition without_colon (s : string) : Prop := every (fun c => negb (Ascii.eqb c ":")) s.

(** classes of objects that are not read *)
Definition not_read : list string := ["house"; "solar"; "inverter"; "waterheater"; "climate"; "ZIPload"; "tape.recorder"; "player"; "tape.collector"; "tape.group_recorder"; "recorder"].

(** ** Rows *)
Definition header_row (r cls : string) (id : option string) : Prop :=
  exists tag rest, spells r ("object" :: tag :: rest) /\ without_colon cls /\
    match id with None => tag = cls | Some i => without_colon i /\ tag = cls ++ ":" ++ i end.
Definition property_row (r k v : string) : Prop :=
  exists v' rest, spells r (k :: v' :: rest) /\ ~ keyword k /\ no_comment k /\ (v' = v ++ ";" \/ v' = v /\ forall s, v <> s ++ ";") /\ ~ closing (last (v' :: rest) "").
Definition quiet_row (r : string) : Prop := exists ws, spells r ws /\ (comment ws \/ exists w, ws = [w] /\ ~ keyword w /\ ~ closing w).
Definition close_row (r : string) : Prop := spells r ["}"] \/ spells r ["};"].
Definition outside_row (r : string) : Prop :=
  exists ws, spells r ws /\ (comment ws \/ (exists w rest, ws = w :: rest /\ ~ keyword w) \/ exists cls rest tag, ws = "object" :: tag :: rest /\ In cls not_read /\ (tag = cls \/ exists i, tag = cls ++ ":" ++ i)).

(** ** Objects *)
Record block := mkBlock { b_cls : string; b_id : option string; b_props : list (string * string) }.
Inductive body : list string -> list (string * string) -> Prop :=
| body_nil : body [] []
| body_quiet : forall r rows ps, quiet_row r -> body rows ps -> body (r :: rows) ps
| body_prop : forall r k v rows ps, property_row r k v -> body rows ps -> body (r :: rows) ((k, v) :: ps).
Definition object_rows (rows : list string) (b : block) : Prop :=
  exists h l c, rows = h :: (l ++ [c])%list /\ header_row h (b_cls b) (b_id b) /\ body l (b_props b) /\ close_row c.

(** the last value that is given for a property *)
Fixpoint last_value (k : string) (l : list (string * string)) : option string :=
  match l with
  | [] => None
  | (k', v) :: r => match last_value k r with Some x => Some x | None => if String.eqb k' k then Some v else None end
  end.
(** the properties that a block gives, the name in its header first *)
Definition given (b : block) : list (string * string) :=
  match b_id b with None => b_props b | Some i => ("name", b_cls b ++ ":" ++ i) :: b_props b end.
Definition block_name (b : block) : option string :=
  match last_value "name" (given b) with
  | Some n => Some n
  | None => match last_value "from" (given b), last_value "to" (given b) with Some f, Some t => Some (f ++ "-" ++ t) | _, _ => None end
  end.
(** the object that is expected *)
Definition expected (b : block) (n : string) (o : obj) : Prop :=
  o_cls o = b_cls b /\ forall k, dget (o_props o) k = if String.eqb k "name" then Some n else last_value k (given b).
(** a block that can be read: its class and its properties are in the schema, and it has a name *)
Definition readable (schema : string -> option (list string)) (b : block) : Prop :=
  exists l, schema (b_cls b) = Some l /\ In "name" l /\ (forall k v, In (k, v) (b_props b) -> In k l) /\ block_name b <> None /\ ~ In (b_cls b) not_read.

(** ** Schedules *)
Definition quiet_in_schedule (r : string) : Prop :=
  exists ws, spells r ws /\ (comment ws \/ (0 < length ws <= 5 /\ ~ keyword (hd "" ws) /\ (forall s, hd "" ws <> "{" ++ s) /\ (forall s, hd "" ws <> ";" ++ s) /\
    forall s, last ws "" <> s ++ "}" /\ last ws "" <> s ++ ";")).
(** a row with a cron expression and a value *)
Definition cron_row (r : string) (times : list string) (v : string) : Prop :=
  5 <= length times /\ ~ keyword (hd "" times) /\ no_comment (hd "" times) /\ (forall s, hd "" times <> "{" ++ s) /\ (forall s, hd "" times <> ";" ++ s) /\
  v <> "" /\ (forall s, v <> s ++ ";" /\ v <> s ++ "}") /\ (spells r (times ++ [v])%list \/ spells r (times ++ [(v ++ ";")%string])%list).
Inductive sched_body : list string -> list (list string * string) -> Prop :=
| sb_nil : sched_body [] []
| sb_quiet : forall r rows l, quiet_in_schedule r -> sched_body rows l -> sched_body (r :: rows) l
| sb_cron : forall r ts v rows l, cron_row r ts v -> sched_body rows l -> sched_body (r :: rows) ((ts, v) :: l).
Definition schedule_rows (rows : list string) (n : string) (l : list (list string * string)) : Prop :=
  exists h b c rest, rows = h :: (b ++ [c])%list /\ spells h ("schedule" :: n :: rest) /\ sched_body b l /\ close_row c.
(** the value of the first cron expression that fits the origin *)
Fixpoint first_hit (fits : list string -> bool) (l : list (list string * string)) : option string :=
  match l with [] => None | (ts, v) :: r => if fits ts then Some v else first_hit fits r end.

(** ** Files *)
Inductive item := Obj (b : block) | Sched (n : string) (l : list (list string * string)).
Inductive glm : list string -> list item -> Prop :=
| glm_nil : glm [] []
| glm_outside : forall r rows l, outside_row r -> glm rows l -> glm (r :: rows) l
| glm_object : forall a b rows l, object_rows a b -> glm rows l -> glm (a ++ rows)%list (Obj b :: l)
| glm_schedule : forall a n es rows l, schedule_rows a n es -> glm rows l -> glm (a ++ rows)%list (Sched n es :: l).

(** the last block of a name *)
Fixpoint last_block (n : string) (l : list item) : option block :=
  match l with
  | [] => None
  | Obj b :: r => match last_block n r with Some x => Some x | None => if (match block_name b with Some m => String.eqb n m | None => false end) then Some b else None end
  | Sched _ _ :: r => last_block n r
  end.
Fixpoint last_sched (fits : list string -> bool) (n : string) (l : list item) : option string :=
  match l with
  | [] => None
  | Obj _ :: r => last_sched fits n r
  | Sched m es :: r => match last_sched fits n r with Some x => Some x | None => if String.eqb n m then first_hit fits es else None end
  end.

(** ** Includes: rows that begin with #include add the rows of a file at the end. *)
Inductive included (files : string -> res (list string)) : list string -> list string -> Prop :=
| inc_nil : included files [] []
| inc_no : forall r rows inc, (forall s, r <> "#include" ++ s) -> included files rows inc -> included files (r :: rows) inc
| inc_yes : forall r q rest l rows inc, spells r ("#include" :: ("""" ++ q ++ """") :: rest) -> (exists s, r = "#include" ++ s) ->
    every (fun c => negb (Ascii.eqb c """")) q -> files q = Ok l -> included files rows inc -> included files (r :: rows) (l ++ inc)%list.
