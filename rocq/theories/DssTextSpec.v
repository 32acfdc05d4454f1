(** Reading an OpenDSS script: the part of the syntax that the written sections use.  One command per line; words are
    separated by blanks that are not in parentheses; a word that begins with "!" starts a comment; "New Class.name" is
    followed by properties "key=value", also with blanks around or after "=", or by a value alone, whose key is then empty.  Keys are not case sensitive and the last value of a
    property counts. *)
From Verif Require Import Base.
From Coq Require Import QArith.
Local Open Scope string_scope.
Local Open Scope nat_scope.
Local Open Scope list_scope.

Fixpoint pieces (sep : ascii -> bool) (s : string) : list string :=
  match s with
  | "" => [""]
  | String c t =>
    if sep c then "" :: pieces sep t
    else match pieces sep t with [] => [String c ""] | h :: r => String c h :: r end
  end.
Definition newline (c : ascii) : bool := (nat_of_ascii c =? 10)%nat.
Definition gap (c : ascii) : bool := Ascii.eqb c " " || (nat_of_ascii c =? 9)%nat.
Definition nonempty (s : string) : bool := negb (String.eqb s "").
Definition depth (d : nat) (c : ascii) : nat := if Ascii.eqb c "(" then S d else if Ascii.eqb c ")" then Nat.pred d else d.
Fixpoint cuts (d : nat) (s : string) : list string :=
  match s with
  | "" => [""]
  | String c t =>
    if (d =? 0) && gap c then "" :: cuts 0 t
    else match cuts (depth d c) t with [] => [String c ""] | h :: r => String c h :: r end
  end.
Definition words (row : string) : list string := filter nonempty (cuts 0 row).
Fixpoint uncommented (ws : list string) : list string :=
  match ws with
  | [] => []
  | w :: r => match w with String "!" _ => [] | _ => w :: uncommented r end
  end.
Fixpoint first_at (c : ascii) (s : string) : option (string * string) :=
  match s with
  | "" => None
  | String d t => if Ascii.eqb c d then Some ("", t) else match first_at c t with Some (a, b) => Some (String d a, b) | None => None end
  end.

Record element := mkElement { e_class : string; e_name : string; e_props : list (string * string) }.

Definition prop_word (w : string) : option (string * string) :=
  match first_at "=" w with
  | None => Some ("", w)
  | Some (k, v) => if nonempty k && nonempty v then Some (k, v) else None
  end.
Fixpoint prop_words (ws : list string) : option (list (string * string)) :=
  match ws with
  | [] => Some []
  | w :: r => match prop_word w, prop_words r with Some p, Some l => Some (p :: l) | _, _ => None end
  end.
(** "key = value" and "key= value" *)
Fixpoint ends_eq (s : string) : bool := match s with "" => false | String c t => match t with "" => Ascii.eqb c "=" | _ => ends_eq t end end.
Fixpoint joined (ws : list string) : list string :=
  match ws with
  | [] => []
  | a :: r =>
    match r with
    | [] => [a]
    | b :: r' =>
      if ends_eq a then (a ++ b)%string :: joined r'
      else match b, r' with "=", c :: r'' => (a ++ "=" ++ c)%string :: joined r'' | _, _ => a :: joined r end
    end
  end.
Definition command (ws : list string) : option element :=
  match ws with
  | "New" :: cn :: r =>
    match first_at "." cn, prop_words (joined r) with
    | Some (c, n), Some ps => if nonempty c && nonempty n then Some (mkElement c n ps) else None
    | _, _ => None
    end
  | _ => None
  end.
Fixpoint commands (rows : list string) : option (list element) :=
  match rows with
  | [] => Some []
  | r :: rs =>
    match uncommented (words r) with
    | [] => commands rs
    | ws => match command ws, commands rs with Some e, Some l => Some (e :: l) | _, _ => None end
    end
  end.
Definition read_dss (text : string) : option (list element) := commands (pieces newline text).

(** The value of a property of an element. *)
Definition prop (e : element) (k : string) : option string :=
  fold_left (fun acc kv => if String.eqb (lower (fst kv)) (lower k) then Some (snd kv) else acc) (e_props e) None.

(** A terminal "bus.1.2": the bus and its nodes. *)
Definition terminal (v : string) : string * list string :=
  match pieces (Ascii.eqb ".") v with [] => ("", []) | b :: ns => (b, ns) end.

(** What may stand as a name or a value without quotes. *)
Definition ordinary (c : ascii) : bool :=
  negb (newline c || gap c || existsb (Ascii.eqb c) ["="; ","; "!"; "("; ")"; "["; "]"; "{"; "}"; "'"; """"; "|"; "~"]%char).
Fixpoint all_chars (p : ascii -> bool) (s : string) : bool := match s with "" => true | String c t => p c && all_chars p t end.
Definition token (s : string) : Prop := s <> "" /\ all_chars ordinary s = true.
Definition dotfree (s : string) : Prop := all_chars (fun c => negb (Ascii.eqb "." c)) s = true.

(** The items of "(a, b)". *)
Definition unwrapped (v : string) : string := substring 1 (String.length v - 2) v.
Definition items (v : string) : list string := map (fun p => String.concat "" (pieces gap p)) (pieces (Ascii.eqb ",") (unwrapped v)).

(** Numbers: [show] writes them, [num] reads them. *)
Definition faithful (show : Q -> string) (num : string -> option Q) : Prop :=
  (forall q, token (show q)) /\ forall q, num (show q) = Some q.
Definition value (num : string -> option Q) (e : element) (k : string) : option Q :=
  match prop e k with Some s => num s | None => None end.
(** The property is [q], or is not given when there is none. *)
Definition gives (num : string -> option Q) (e : element) (k : string) (q : option Q) : Prop :=
  match q with Some x => exists y, value num e k = Some y /\ y == x | None => prop e k = None end.
