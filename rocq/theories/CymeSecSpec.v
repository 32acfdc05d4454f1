From Coq Require Import List String Ascii Bool Arith.
From Verif Require Import Base TextModel CsvSpec GlmSpec CymeParseSpec.
Import ListNotations.
Local Open Scope string_scope.
Local Open Scope nat_scope.
Local Open Scope list_scope.

(** ** What the lines of the section part of a network file say *)

(** The text [w] without the blanks around it. *)
Definition trimmed (w : string) : Prop :=
  (forall c t, w = String c t -> is_space c = false) /\ (forall c t, w = (t ++ String c "")%string -> is_space c = false).
Definition padded (t w : string) : Prop := exists a b, t = (a ++ w ++ b)%string /\ blank a /\ blank b /\ trimmed w.

(** A format for sections, a format for networks, a network of a kind with its cells as they are, or a section with
    its trimmed cells. *)
Inductive item :=
| SecFormat (names : list string)
| NetFormat (names : list string)
| Network (kind : string) (cs : list string)
| Section (vs : list string).

Definition kinds : list string := ["feeder"; "substation"; "generalnetwork"].
Definition names_section (line : string) : bool := substr_in "format_section" (lower line).
Definition names_network (line : string) : bool := existsb (fun k => substr_in ("format_" ++ k) (lower line)) kinds.

(** [line] is [key=cells] *)
Definition assigns (line key : string) (cs : list string) : Prop :=
  exists text, line = (key ++ String "=" text)%string /\ free "=" key /\ free "=" text /\ cells text cs.

Definition says (line : string) (i : item) : Prop :=
  match i with
  | SecFormat names => names_section line = true /\ exists key cs ws, assigns line key cs /\ Forall2 padded cs ws /\ names = map lower ws
  | NetFormat names => names_section line = false /\ names_network line = true /\
      exists key cs ws, assigns line key cs /\ Forall2 padded cs ws /\ names = map lower ws
  | Network k cs => names_section line = false /\ names_network line = false /\ In k kinds /\
      exists key, lower key = k /\ assigns line key cs
  | Section vs => names_section line = false /\ names_network line = false /\
      (forall k, In k kinds -> String.prefix (k ++ "=") (lower line) = false) /\ 2 < String.length line /\
      exists cs, cells line cs /\ Forall2 padded cs vs
  end.

(** ** What the items mean, each given those before it *)

(** The last item that is picked, by what was before it and itself. *)
Definition latest {A} (pick : list item -> item -> A -> Prop) (l : list item) (x : A) : Prop :=
  exists a i b, l = a ++ i :: b /\ pick a i x /\
    forall b1 j b2, b = b1 ++ j :: b2 -> forall y, ~ pick (a ++ i :: b1) j y.

(** The cell in the column [c]. *)
Definition value (names cs : list string) (c v : string) : Prop :=
  exists n, nth_error names n = Some c /\ nth_error cs n = Some v.

Definition sec_format (_ : list item) (i : item) (names : list string) : Prop := i = SecFormat names.
Definition net_format (_ : list item) (i : item) (names : list string) : Prop := i = NetFormat names.
(** A network: its id (without regard to case), kind, columns and cells. *)
Record network := mkNetwork { w_id : string; w_kind : string; w_names : list string; w_cells : list string }.
Definition a_network (before : list item) (i : item) (w : network) : Prop :=
  i = Network (w_kind w) (w_cells w) /\ latest net_format before (w_names w) /\
  exists c, value (w_names w) (w_cells w) "networkid" c /\ w_id w = lower c.
(** A section: its id (without regard to case), the network it is in, its columns and cells. *)
Record section := mkSection { x_id : string; x_net : string; x_names : list string; x_cells : list string }.
Definition a_section (before : list item) (i : item) (x : section) : Prop :=
  i = Section (x_cells x) /\ latest sec_format before (x_names x) /\
  (exists c, value (x_names x) (x_cells x) "sectionid" c /\ x_id x = lower c) /\
  exists w, latest a_network before w /\ x_net x = w_id w.

(** An item that may come after the items [before]. *)
Definition good (before : list item) (i : item) : Prop :=
  match i with
  | SecFormat _ | NetFormat _ => True
  | Network _ cs => exists fs ff, latest sec_format before fs /\ latest net_format before ff /\
      In "sectionid" fs /\ In "networkid" ff /\ length cs = length ff
  | Section vs => (exists w, latest a_network before w) /\
      exists fs, latest sec_format before fs /\ In "sectionid" fs /\ length vs = length fs
  end.
Definition goods (items : list item) : Prop := forall a i b, items = a ++ i :: b -> good a i.
(** No format names a column twice. *)
Definition distinct (i : item) : Prop := match i with SecFormat n | NetFormat n => NoDup n | _ => True end.

Definition with_id {A} (id : A -> string) (s : string) (pick : list item -> item -> A -> Prop) : list item -> item -> A -> Prop :=
  fun before i x => pick before i x /\ id x = s.

(** The file: lines without the header, the header, the lines of the section part, a line of at most two characters,
    and anything. *)
Definition network_file (content : list string) (items : list item) : Prop :=
  exists pre header lines close rest, content = pre ++ header :: lines ++ close :: rest /\
    Forall (fun l => substr_in "[SECTION]" l = false) pre /\ substr_in "[SECTION]" header = true /\
    Forall2 says lines items /\ String.length close <= 2.
