From Coq Require Import List String Ascii Bool Arith Lia.
From Verif Require Import Base BaseFacts TextModel CsvModel CsvSpec CymeMapModel ReaderModel CymeParseModel CymeParseSpec CymeParseProofs.
Import ListNotations.
Local Open Scope string_scope.
Local Open Scope nat_scope.
Local Open Scope list_scope.

(** C41: below a header with a format line, parser_helper returns one record for every row up to the blank line, in order and
    under different keys; each requested attribute is the cell in its announced column; the lines after the blank line are
    left for the caller. *)
Theorem C41_section : forall headers objs attrs mapping info line f names lines body rest,
  plain_headers headers objs -> heads headers objs line -> NoDup attrs -> NoDup (map fst info) ->
  substr_in "format" (lower f) = true -> format_line f names -> lines <> [] -> section_of lines body rest ->
  exists recs, parser_helper headers objs attrs mapping info [] line (f :: lines) = Ok (recs, rest) /\
    records_of info (map (pair (Announced attrs names)) (filter is_row body)) recs /\ NoDup (map fst recs).
Proof. exact section_format. Qed.
Print Assumptions C41_section.

(** Without a format line the attributes are at their default places. *)
Theorem C41_default_layout : forall headers objs attrs mapping info line first lines body rest,
  plain_headers headers objs -> heads headers objs line -> NoDup (map fst info) ->
  substr_in "format" (lower first) = false -> section_of (first :: lines) body rest ->
  exists recs, parser_helper headers objs attrs mapping info [] line (first :: lines) = Ok (recs, rest) /\
    records_of info (map (pair (Default attrs mapping)) (filter is_row body)) recs /\ NoDup (map fst recs).
Proof. exact section_default. Qed.
Print Assumptions C41_default_layout.

(** A second format line switches to the additional attributes and its own columns. *)
Theorem C41_second_format : forall headers objs attrs mapping info add line f names lines b1 f2 names2 b2 rest,
  plain_headers headers objs -> heads headers objs line -> NoDup attrs -> NoDup add -> add <> [] -> NoDup (map fst info) ->
  substr_in "format" (lower f) = true -> format_line f names -> format_line f2 names2 ->
  section_of lines (b1 ++ f2 :: b2) rest -> Forall (fun l => substr_in "=" l = false) b1 ->
  exists recs, parser_helper headers objs attrs mapping info add line (f :: lines) = Ok (recs, rest) /\
    records_of info (map (pair (Announced attrs names)) (filter is_row b1) ++
                     map (pair (Announced add names2)) (filter is_row b2)) recs /\ NoDup (map fst recs).
Proof. exact section_second. Qed.
Print Assumptions C41_second_format.

(** A line that is no header of the objects is left alone: nothing is returned and no line is taken. *)
Theorem C41_other_lines : forall headers objs attrs mapping info add line content,
  plain_headers headers objs -> ~ heads headers objs line ->
  parser_helper headers objs attrs mapping info add line content = Ok ([], content).
Proof. exact helper_other. Qed.
Print Assumptions C41_other_lines.

(** The loop over a whole file with one such section, ended by a blank line, reads exactly its rows. *)
Theorem C41_file : forall headers objs attrs mapping info pre line f names body b post,
  plain_headers headers objs -> Forall (fun l => ~ heads headers objs l) pre -> heads headers objs line ->
  Forall (fun l => ~ heads headers objs l) post -> NoDup attrs -> NoDup (map fst info) ->
  substr_in "format" (lower f) = true -> format_line f names -> Forall (fun l => 2 < String.length l) body -> String.length b <= 2 ->
  let file := pre ++ line :: f :: body ++ b :: post in
  exists recs, read_all (S (length file)) headers objs attrs mapping info [] [] file = Ok recs /\
    records_of info (map (pair (Announced attrs names)) (filter is_row body)) recs.
Proof. exact file_section. Qed.
Print Assumptions C41_file.

(** C60: parse_header finds the units of the file (the last line that names them) and fails without. *)
Theorem C60_units : forall lines v si, parse_header lines = Ok (v, si) -> units lines si.
Proof.
  intros lines v si H. unfold parse_header in H.
  destruct (foldM header_line lines (None, None, false)) as [[[w s] bd]|e] eqn:E; cbn [bind] in H; [|discriminate].
  pose proof (header_units _ _ E) as U. destruct s as [b|]; [injection H as <- <-; exact U|discriminate].
Qed.
Print Assumptions C60_units.

Theorem C60_decides : forall lines, Forall plain_version lines ->
  (exists v si, parse_header lines = Ok (v, si)) \/
  (parse_header lines = Err EValue /\ forall l, In l lines -> says_si l = false /\ says_imperial l = false).
Proof.
  intros lines F. unfold parse_header. destruct (header_ok lines F (None, None, false)) as [[[v s] bd] E]. rewrite E. cbn [bind].
  pose proof (header_units _ _ E) as U. destruct s as [b|]; [left; eauto|right; split; [reflexivity|exact U]].
Qed.
Print Assumptions C60_decides.

(** A file with a section of three rows, two of them with the same identifier. *)
Definition nl (s : string) : string := (s ++ newline)%string.
Definition xheaders : list (string * list header) := [("line", [HStr "[LINE SETTING]"; HStr "[LINES]"]); ("node", [HStr "[NODE]"])].
Definition xbody := map nl ["s1,abc,12"; "s1 ,AB,13"; "comment"; "s2,A"].
Definition xfile := map nl ["[GENERAL]"; "[SI]"; ""] ++ nl "[LINES]" :: nl "FORMAT_LINES=SectionID,Phase,Length" :: xbody ++ nl "" :: map nl ["[NODE]"; "n1,0,0"].
Example C41_hypotheses_met :
  plain_headers xheaders ["line"] /\ heads xheaders ["line"] (nl "[LINES]") /\ NoDup ["length"; "sectionid"] /\
  format_line (nl "FORMAT_LINES=SectionID,Phase,Length") ["SectionID"; "Phase"; "Length"] /\
  Forall (fun l => 2 < String.length l) xbody /\
  Forall (fun l => ~ heads xheaders ["line"] l) (map nl ["[GENERAL]"; "[SI]"; ""]) /\
  read_all (S (length xfile)) xheaders ["line"] ["length"; "sectionid"] [] [("type", "line")] [] [] xfile =
    Ok [("s1", [("length", nl "12"); ("sectionid", "s1"); ("type", "line")]);
        ("s1*", [("length", nl "13"); ("sectionid", "s1 "); ("type", "line")]);
        ("s2", [("sectionid", "s2"); ("type", "line")])].
Proof.
  assert (PH : plain_headers xheaders ["line"]) by (intros obj [<-|[]]; exists ["[LINE SETTING]"; "[LINES]"]; reflexivity).
  split; [exact PH|]. split; [|split; [|split; [|split; [|split]]]].
  - exists "line", ["[LINE SETTING]"; "[LINES]"], "[LINES]". repeat split; cbn; auto.
  - repeat constructor; cbn; intuition congruence.
  - exists "FORMAT_LINES", newline. repeat split; cbn; try discriminate; auto.
    repeat constructor; cbn; repeat split; discriminate.
  - unfold xbody. repeat constructor; vm_compute; repeat constructor.
  - assert (NH : forall l, substr_in "[LINE SETTING]" l = false -> substr_in "[LINES]" l = false -> ~ heads xheaders ["line"] l).
    { intros l A B (obj & ss & s & [<-|[]] & E & I & S). cbn in E. injection E as E.
      destruct ss as [|s1 [|s2 [|]]]; try discriminate. injection E as E1 E2. subst s1 s2. destruct I as [<-|[<-|[]]]; congruence. }
    repeat constructor; apply NH; reflexivity.
  - vm_compute. reflexivity.
Qed.
Example C41_second_format_met :
  parser_helper xheaders ["line"] ["sectionid"] [] [] ["phase"; "sectionid"] (nl "[LINES]")
    (map nl ["FORMAT_A=SectionID,Length"; "a,1"; "FORMAT_B=SectionID,Length,Phase"; "b,2,ABC"; ""; "rest"]) =
  Ok ([("a", [("sectionid", "a")]); ("b", [("phase", nl "ABC"); ("sectionid", "b")])], [nl "rest"]) /\
  section_of (map nl ["a,1"; "FORMAT_B=SectionID,Length,Phase"; "b,2,ABC"; ""; "rest"])
    (map nl ["a,1"] ++ nl "FORMAT_B=SectionID,Length,Phase" :: map nl ["b,2,ABC"]) [nl "rest"].
Proof.
  split; [vm_compute; reflexivity|]. split; [repeat constructor; vm_compute; repeat constructor|].
  right. exists (nl ""). split; [reflexivity|]. vm_compute. repeat constructor.
Qed.
Example C60_hypotheses_met :
  parse_header (map nl ["[GENERAL]"; "CYME_VERSION=8.0"; "[SI]"]) = Ok (Some "8.0", true) /\
  Forall plain_version (map nl ["[GENERAL]"; "CYME_VERSION=8.0"; "[SI]"]).
Proof.
  split; [vm_compute; reflexivity|]. repeat constructor; intros H; try discriminate.
  exists "CYME_VERSION", "8.0", newline. repeat split; try (cbn; repeat split; discriminate).
  right. exists "8", "0". repeat split; cbn; repeat split; discriminate.
Qed.

(** A row with "=" in one of its cells is skipped without notice. *)
Theorem C41_equals_sign_refuted :
  parser_helper xheaders ["line"] ["sectionid"] [("sectionid", 0)] [] [] (nl "[LINES]") (map nl ["s1,a=b"; "s2,c"; ""]) =
  Ok ([("s2", [("sectionid", "s2")])], []).
Proof. vm_compute. reflexivity. Qed.

(** Without a blank line in between, the rows of the next section are taken for rows of this one and its header is lost. *)
Theorem C41_no_blank_line_refuted :
  parser_helper xheaders ["line"] ["sectionid"] [("sectionid", 0)] [] [] (nl "[LINES]") (map nl ["s1,a"; "[NODE]"; "n1,0"; ""]) =
  Ok ([("s1", [("sectionid", "s1")]); ("n1", [("sectionid", "n1")])], []).
Proof. vm_compute. reflexivity. Qed.

(** A repeated section: the keys are unique in one call only, and the later section replaces records of the earlier one. *)
Theorem C41_repeated_section_refuted :
  read_all 20 xheaders ["line"] ["phase"] [("phase", 1)] [] [] [] (map nl ["[LINES]"; "s1,a"; ""; "[LINES]"; "s1,b"; ""]) =
  Ok [("s1", [("phase", nl "b")])].
Proof. vm_compute. reflexivity. Qed.

(** A version number of three parts ends the reading with a NameError. *)
Theorem C60_three_part_version_refuted : parse_header (map nl ["CYME_VERSION=8.0.1"; "[SI]"]) = Err EName.
Proof. vm_compute. reflexivity. Qed.
