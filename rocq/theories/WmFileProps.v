(** C139: the files, nodes and sources of the Windmil reader. *)
From Coq Require Import QArith Lia Lqa.
From Verif Require Import Base BaseFacts TextModel ConvModel ConvProps WmFileModel.
Local Open Scope string_scope.
Local Open Scope list_scope.

(** ** Specification *)

(** The name ends with the extension, in any case. *)
Definition has_ext (ext f : string) : Prop := exists base, lower f = (base ++ ext)%string.
(** The last file of the folder with the extension. *)
Definition chosen (listing : list string) (ext f : string) : Prop :=
  exists pre post, listing = pre ++ f :: post /\ has_ext ext f /\ forall g, In g post -> ~ has_ext ext g.

(** Extension, table, rows to skip, and whether the first row is a header. *)
Definition layouts : list (string * string * nat * bool) :=
  [(".asm", "Assemblies", 0%nat, true); (".cld", "Archieved Load", 0%nat, false); (".lcp", "Load Control Points", 0%nat, true);
   (".sld", "Billing Load Data", 0%nat, false); (".csv", "External Tables", 0%nat, true); (".seq", "Equipment Data", 1%nat, false);
   (".std", "Circuit Elements", 1%nat, false); (".rsl", "Results", 0%nat, true); (".gps", "Structure Locations", 0%nat, true);
   (".mpt", "Map Points", 0%nat, false)].

(** The tables are what was read of the chosen files. *)
Definition tables_of {T} (read_csv : string -> nat -> bool -> option T) (listing : list string) (tables : dict T) : Prop :=
  (forall ext t skip header, In (ext, t, skip, header) layouts ->
     forall x, dget tables t = Some x <-> exists f, chosen listing ext f /\ read_csv f skip header = Some x).

(** ** Proofs *)

Lemma app4 (p q : string) : forall a b, String.length a = String.length b -> (p ++ a)%string = (q ++ b)%string -> a = b.
Proof.
  revert q. induction p as [|c p IH]; intros [|d q] a b L E; cbn in E.
  - exact E.
  - subst a. cbn in L. exfalso. assert (H : forall s, String.length (s ++ b)%string = (String.length s + String.length b)%nat) by (induction s; cbn; auto). rewrite H in L. lia.
  - subst b. cbn in L. exfalso. assert (H : forall s, String.length (s ++ a)%string = (String.length s + String.length a)%nat) by (induction s; cbn; auto). rewrite H in L. lia.
  - injection E as _ E. now apply (IH q).
Qed.

Lemma find_kind f ext t : In (ext, t) kinds -> (find (fun k => ends_with (fst k) (lower f)) kinds = Some (ext, t) <-> has_ext ext f).
Proof.
  intros I. split.
  - intros H. apply find_some in H. destruct H as [_ H]. now apply ends_with_spec in H.
  - intros [b E].
    assert (HE : forall k, In k kinds -> ends_with (fst k) (lower f) = true -> k = (ext, t)).
    { intros k K H. apply ends_with_spec in H. destruct H as [p H]. rewrite E in H.
      assert (LK : forall k, In k kinds -> String.length (fst k) = 4%nat) by (intros k' K'; cbn in K'; repeat (destruct K' as [<-|K']; [reflexivity|]); destruct K').
      assert (X : ext = fst k) by (apply (app4 b p); [rewrite (LK k K); exact (LK _ I) | exact H]).
      clear H E. cbn in I, K. subst ext.
      repeat (destruct K as [<-|K]; [cbn [fst] in I; repeat (destruct I as [I|I]; [try discriminate I; exact I|]); destruct I|]); destruct K. }
    destruct (find _ kinds) as [k|] eqn:F.
    + f_equal. apply find_some in F. destruct F as [K H]. now apply HE.
    + pose proof (find_none _ _ F (ext, t) I) as H. cbn [fst] in H.
      assert (ends_with ext (lower f) = true) by (apply ends_with_spec; now exists b). congruence.
Qed.

Lemma kind_table ext t ext' : In (ext, t) kinds -> In (ext', t) kinds -> ext = ext'.
Proof.
  intros I J. cbn in I, J.
  repeat (destruct I as [I|I]; [injection I as <- <-; repeat (destruct J as [J|J]; [try discriminate J; now injection J|]); destruct J|]); destruct I.
Qed.

Lemma selected ext t : In (ext, t) kinds -> forall listing f,
  dget (fold_left add_file listing []) t = Some f <-> chosen listing ext f.
Proof.
  intros I listing. induction listing as [|g l IH] using rev_ind; intros f.
  - cbn. split; [discriminate|]. intros ([|] & ? & E & _); discriminate E.
  - rewrite fold_left_app. cbn [fold_left]. set (d := fold_left add_file l []) in *. unfold add_file.
    assert (NEW : forall h pre post, l ++ [g] = pre ++ h :: post -> (post = [] /\ h = g /\ pre = l) \/ exists post', post = post' ++ [g] /\ l = pre ++ h :: post').
    { intros h pre post. induction post as [|z post _] using rev_ind; intros E.
      - left. apply app_inj_tail in E. destruct E; auto.
      - right. exists post. rewrite app_comm_cons, app_assoc in E. apply app_inj_tail in E. destruct E as [E ->]. auto. }
    destruct (find _ kinds) as [[e t']|] eqn:F.
    + pose proof (find_some _ _ F) as [K _]. pose proof F as F'. apply (find_kind g e t' K) in F'. cbn [snd].
      destruct (String.eqb_spec t' t) as [->|N].
      * assert (e = ext) by (eapply kind_table; eassumption). subst e. rewrite dget_dset_same. split.
        -- intros H. injection H as <-. exists l, []. split; [reflexivity|]. split; [exact F'|]. intros ? [].
        -- intros (pre & post & E & HX & NX). destruct (NEW _ _ _ E) as [(-> & -> & ->)|(post' & -> & EL)]; [reflexivity|].
           exfalso. apply (NX g); [apply in_app_iff; right; now left | exact F'].
      * rewrite dget_dset_other by exact N. rewrite IH.
        assert (NG : ~ has_ext ext g). { intros H. apply (find_kind g ext t I) in H. rewrite F in H. injection H as _ H. congruence. }
        split.
        -- intros (pre & post & -> & HX & NX). exists pre, (post ++ [g]). split; [now rewrite <- app_assoc|]. split; [exact HX|].
           intros h Hh. apply in_app_iff in Hh. destruct Hh as [Hh|[<-|[]]]; auto.
        -- intros (pre & post & E & HX & NX). destruct (NEW _ _ _ E) as [(-> & -> & ->)|(post' & -> & EL)]; [contradiction|].
           exists pre, post'. split; [exact EL|]. split; [exact HX|]. intros h Hh. apply NX. apply in_app_iff. now left.
    + rewrite IH.
      assert (NG : ~ has_ext ext g). { intros H. apply (find_kind g ext t I) in H. congruence. }
      split.
      -- intros (pre & post & -> & HX & NX). exists pre, (post ++ [g]). split; [now rewrite <- app_assoc|]. split; [exact HX|].
         intros h Hh. apply in_app_iff in Hh. destruct Hh as [Hh|[<-|[]]]; auto.
      -- intros (pre & post & E & HX & NX). destruct (NEW _ _ _ E) as [(-> & -> & ->)|(post' & -> & EL)]; [contradiction|].
         exists pre, post'. split; [exact EL|]. split; [exact HX|]. intros h Hh. apply NX. apply in_app_iff. now left.
Qed.

Lemma selected_keys listing : NoDup (map fst (fold_left add_file listing [])).
Proof.
  induction listing as [|g l IH] using rev_ind; [constructor|]. rewrite fold_left_app. cbn [fold_left]. unfold add_file at 1.
  destruct (find _ kinds) as [k|]; [|exact IH]. now apply dset_NoDup.
Qed.

Lemma dget_In {V} (d : dict V) k v : dget d k = Some v -> In (k, v) d.
Proof.
  induction d as [|[k' v'] d IH]; cbn; [discriminate|]. destruct (String.eqb_spec k' k) as [->|N].
  - intros H. injection H as ->. now left.
  - intros H. right. now apply IH.
Qed.

Lemma tables_value {T} (read_csv : string -> nat -> bool -> option T) files t x : NoDup (dkeys files) ->
  dget (read_tables read_csv files) t = Some x <->
  exists f, dget files t = Some f /\ read_csv f (if smem t skip_line then 1%nat else 0%nat) (negb (smem t no_header)) = Some x.
Proof.
  unfold read_tables.
  assert (G : forall files acc, NoDup (dkeys files) -> (forall f, In f (dkeys files) -> dget acc f = None) ->
    dget (fold_left (fun tables tf =>
      match read_csv (snd tf) (if smem (fst tf) skip_line then 1%nat else 0%nat) (negb (smem (fst tf) no_header)) with
      | Some x => dset tables (fst tf) x
      | None => tables
      end) files acc) t = Some x <->
    (dget acc t = Some x \/ exists f, dget files t = Some f /\ read_csv f (if smem t skip_line then 1%nat else 0%nat) (negb (smem t no_header)) = Some x)).
  { clear files. induction files as [|[k f] files IH]; intros acc ND FR.
    - cbn. split; [now left|]. intros [H|(f & H & _)]; [exact H | discriminate H].
    - cbn [dkeys map fst] in ND. inversion ND as [|? ? NI ND']; subst. cbn [fold_left fst snd].
      set (v := read_csv f _ _).
      assert (FR' : forall g, In g (dkeys files) -> dget (match v with Some y => dset acc k y | None => acc end) g = None).
      { intros g Hg. destruct v; [|apply FR; now right]. rewrite dget_dset_other; [apply FR; now right | intros ->; now apply NI]. }
      rewrite (IH _ ND' FR'). cbn [dget]. destruct (String.eqb_spec k t) as [->|N].
      + assert (NT : dget files t = None).
        { destruct (dget files t) eqn:E; [|reflexivity]. apply dget_In in E. exfalso. apply NI. change t with (fst (t, s)). now apply in_map. }
        pose proof (FR t (or_introl eq_refl)) as AT. rewrite NT. split.
        * intros [H|(g & H & _)]; [|discriminate H]. right. exists f. split; [reflexivity|]. fold v. destruct v; [rewrite dget_dset_same in H; exact H | congruence].
        * intros [H|(g & H & R)]; [congruence|]. injection H as <-. left. fold v in R. rewrite R. apply dget_dset_same.
      + destruct v; [rewrite dget_dset_other by exact N|]; reflexivity. }
  intros ND. rewrite (G files [] ND) by reflexivity. cbn. split; [intros [H|H]; [discriminate|exact H] | now right].
Qed.

Lemma layout_kind ext t skip header : In (ext, t, skip, header) layouts ->
  In (ext, t) kinds /\ (if smem t skip_line then 1%nat else 0%nat) = skip /\ negb (smem t no_header) = header.
Proof.
  intros I. cbn [layouts In] in I. unfold kinds.
  repeat (destruct I as [I|I]; [injection I as <- <- <- <-; split; [cbn; tauto | split; reflexivity]|]). destruct I.
Qed.

(** C139: the graph is built from the last file of each kind in the folder, read in the way of its kind; a file that cannot
    be read is left out; without a readable file of circuit elements, or when anything else fails, there is a ValueError. *)
Theorem C139_tables : forall T G (read_csv : string -> nat -> bool -> option T) (build : dict T -> res G) listing,
  exists tables, tables_of read_csv listing tables /\
  (forall g, get_file_content read_csv build (Some listing) = Ok g <->
     (exists f x, chosen listing ".std" f /\ read_csv f 1%nat false = Some x) /\ build tables = Ok g) /\
  (forall l e, get_file_content read_csv build l = Err e -> e = EValue) /\
  get_file_content read_csv build None = Err EValue.
Proof.
  intros T G read_csv build listing. set (files := fold_left add_file listing []). exists (read_tables read_csv files).
  assert (TO : tables_of read_csv listing (read_tables read_csv files)).
  { intros ext t skip header I x. destruct (layout_kind _ _ _ _ I) as (K & <- & <-).
    rewrite (tables_value read_csv files t x (selected_keys listing)).
    split; intros (f & H & R); exists f; (split; [|exact R]); now apply (selected ext t K listing f). }
  split; [exact TO|]. split; [|split].
  - intros g. unfold get_file_content, wm2graph, select. fold files.
    assert (STD : dmem (read_tables read_csv files) "Circuit Elements" = true <-> exists f x, chosen listing ".std" f /\ read_csv f 1%nat false = Some x).
    { unfold dmem. pose proof (TO ".std" "Circuit Elements" 1%nat false ltac:(cbn; tauto)) as H. split.
      - intros D. destruct (dget (read_tables read_csv files) "Circuit Elements") as [x|] eqn:E; [|discriminate]. destruct (proj1 (H x) eq_refl) as (f & A & B). eauto.
      - intros (f & x & A & B). assert (E : dget (read_tables read_csv files) "Circuit Elements" = Some x) by (apply H; eauto). now rewrite E. }
    destruct files as [|p fs] eqn:EF.
    + cbn [bind]. split; [discriminate|]. intros [H _]. apply STD in H. discriminate H.
    + rewrite <- EF in *. cbn [bind]. destruct (dmem _ "Circuit Elements").
      * destruct (build _) as [g'|]; split.
        -- intros H. injection H as ->. split; [now apply STD | reflexivity].
        -- intros [_ H]. now injection H as ->.
        -- discriminate.
        -- intros [_ H]. discriminate H.
      * split; [discriminate|]. intros [H _]. apply STD in H. discriminate H.
  - intros l e. unfold get_file_content. destruct (wm2graph read_csv build l); [discriminate|]. now intros [= <-].
  - reflexivity.
Qed.
Print Assumptions C139_tables.

(** ** Nodes and sources *)

Definition cell_num (num : string -> res Q) (d : dict string) (k : string) (v : Q) : Prop := exists t, dget d k = Some t /\ num t = Ok v.
Definition wmnode_of (num : string -> res Q) (n : string * dict string) (m : wmnode) : Prop :=
  wn_name m = fst n /\
  ((dget (snd n) "x" = None /\ wn_positions m = []) \/
   exists lon lat, cell_num num (snd n) "x" lon /\ cell_num num (snd n) "y" lat /\ wn_positions m = [(lon, lat)]).

(** Every node of the graph is one node of the model, in order, with its name, and its position if it has one; a node with
    half a position, or one that is not a number, ends the reading. *)
Theorem C139_nodes : forall num nodes ms, parse_wmnodes num nodes = Ok ms <-> Forall2 (wmnode_of num) nodes ms.
Proof.
  intros num nodes. unfold parse_wmnodes.
  assert (ONE : forall n m, make_wmnode num n = Ok m <-> wmnode_of num n m).
  { intros [name d] m. unfold make_wmnode, wmnode_of, cell_num, dmem. cbn [fst snd]. destruct (dget d "x") as [tx|] eqn:EX; cbn [of_opt bind].
    - split.
      + destruct (num tx) as [x|] eqn:NX; cbn [bind]; [|discriminate]. destruct (dget d "y") as [ty|] eqn:EY; cbn [of_opt bind]; [|discriminate].
        destruct (num ty) as [y|] eqn:NY; cbn [bind]; [|discriminate]. intros H. injection H as <-. split; [reflexivity|]. right. exists x, y.
        split; [eauto|]. split; [eauto | reflexivity].
      + intros [HN [[H _]|(x & y & (tx' & A & B) & (ty & C & D) & P)]]; [discriminate|]. injection A as <-. rewrite B. cbn [bind].
        rewrite C. cbn [of_opt bind]. rewrite D. cbn [bind]. destruct m as [n p]. cbn in *. now subst.
    - split.
      + intros H. injection H as <-. cbn. auto.
      + intros [HN [[_ P]|(x & y & (tx' & A & B) & _)]]; [|discriminate]. destruct m as [n p]. cbn in *. now subst. }
  induction nodes as [|n nodes IH]; intros ms; cbn [mapM].
  - split; [intros H; injection H as <-; constructor | intros H; inversion H; reflexivity].
  - destruct (make_wmnode num n) as [m|] eqn:E.
    + destruct (mapM (make_wmnode num) nodes) as [r|] eqn:ER.
      * split.
        -- intros H. injection H as <-. constructor; [now apply ONE | now apply IH].
        -- intros H. inversion H as [|? m' ? r' A B]; subst. apply ONE in A. apply IH in B. congruence.
      * split; [discriminate|]. intros H. inversion H as [|? m' ? r' A B]; subst. apply IH in B. discriminate.
    + split; [discriminate|]. intros H. inversion H as [|? m' ? r' A B]; subst. apply ONE in A. congruence.
Qed.
Print Assumptions C139_nodes.

Definition source_edge (e : edge) : bool := match dget (snd e) "class" with Some c => String.eqb c "substation" | None => false end.
(** The voltage of a source: 1.732 times that of its edge, in volts. *)
Definition source_of (num : string -> res Q) (e : edge) (s : wmsource) : Prop :=
  dget (snd e) "name" = Some (so_name s) /\ so_element s = fst (fst e) /\
  (exists kv, cell_num num (snd e) "kv" kv /\ so_nominal s == 1732 * kv) /\
  cell_num num (snd e) "Vpu" (so_operating s) /\
  exists c, dget (snd e) "conn" = Some c /\ ((c = "W" /\ so_conn s = "Y") \/ (c <> "W" /\ so_conn s = "D")).

(** Every substation of the graph is one source, in order, at the first node of its edge. *)
Theorem C139_sources : forall num edges ss, parse_sources num edges = Ok ss ->
  Forall2 (source_of num) (filter source_edge edges) ss.
Proof.
  intros num edges. induction edges as [|[[u v] d] es IH]; intros ss; cbn [parse_sources].
  - intros H. injection H as <-. constructor.
  - unfold edge_class. cbn [filter]. unfold source_edge at 1. cbn [snd fst]. destruct (dget d "class") as [c|]; cbn [of_opt bind]; [|discriminate].
    destruct (String.eqb c "substation"); [|apply IH].
    destruct (make_source num (u, v, d)) as [s|] eqn:E; cbn [bind]; [|discriminate].
    destruct (parse_sources num es) as [r|]; cbn [bind]; [|discriminate]. intros H. injection H as <-. constructor; [|now apply IH].
    unfold make_source in E. cbn [fst snd] in E. unfold source_of, cell_num. cbn [fst snd].
    destruct (dget d "name") as [n|]; cbn [of_opt bind] in E; [|discriminate].
    destruct (dget d "kv") as [tk|]; cbn [of_opt bind] in E; [|discriminate]. destruct (num tk) as [kv|] eqn:NK; cbn [bind] in E; [|discriminate].
    destruct (dget d "Vpu") as [tv|]; cbn [of_opt bind] in E; [|discriminate]. destruct (num tv) as [w|] eqn:NV; cbn [bind] in E; [|discriminate].
    destruct (dget d "conn") as [k|]; cbn [of_opt bind] in E; [|discriminate]. injection E as <-. cbn [so_name so_element so_nominal so_operating so_conn].
    split; [reflexivity|]. split; [reflexivity|]. split; [exists kv; split; [eauto | ring]|]. split; [eauto|]. exists k. split; [reflexivity|].
    destruct (String.eqb_spec k "W"); [left | right]; auto.
Qed.
Print Assumptions C139_sources.

(** They are read when all their values are there. *)
Theorem C139_sources_read : forall num edges,
  (forall e, In e edges -> dget (snd e) "class" <> None) ->
  (forall e, In e edges -> source_edge e = true -> dget (snd e) "name" <> None /\ dget (snd e) "conn" <> None /\
     (exists kv, cell_num num (snd e) "kv" kv) /\ exists v, cell_num num (snd e) "Vpu" v) ->
  exists ss, parse_sources num edges = Ok ss.
Proof.
  intros num edges. induction edges as [|[[u v] d] es IH]; intros HC HS; [now exists []|].
  destruct IH as [ss IH]; [intros e He; apply HC; now right | intros e He; apply HS; now right|].
  cbn [parse_sources]. unfold edge_class. pose proof (HC _ (or_introl eq_refl)) as C. pose proof (HS _ (or_introl eq_refl)) as S. unfold source_edge in S. cbn [snd] in *.
  destruct (dget d "class") as [c|]; [|congruence]. cbn [of_opt bind]. destruct (String.eqb c "substation"); [|eauto].
  destruct (S eq_refl) as (A & B & (kv & tk & K1 & K2) & (w & tw & V1 & V2)). unfold make_source. cbn [snd fst].
  destruct (dget d "name"); [|congruence]. destruct (dget d "conn"); [|congruence]. rewrite K1, V1. cbn [of_opt bind]. rewrite K2. cbn [bind]. rewrite V2. cbn [bind].
  rewrite IH. cbn [bind]. eauto.
Qed.
Print Assumptions C139_sources_read.

(** The nominal voltage is the voltage between the phases, to one part in ten thousand: its square is that close to three
    times the square of the voltage of the edge in volts. *)
Theorem C139_voltage : forall num e s, source_of num e s ->
  exists kv, cell_num num (snd e) "kv" kv /\
  (9999 # 10000) * (3 * ((1000 * kv) * (1000 * kv))) <= so_nominal s * so_nominal s /\
  so_nominal s * so_nominal s <= 3 * ((1000 * kv) * (1000 * kv)).
Proof.
  intros num e s (_ & _ & (kv & K & E) & _). exists kv. split; [exact K|]. rewrite E.
  assert (0 <= kv * kv). { destruct (Qlt_le_dec kv 0); [|nra]. nra. }
  split; nra.
Qed.
Print Assumptions C139_voltage.

(** Refutation of "the connection of a source is that of the file": everything but "W" becomes delta. *)
Theorem C139_connection_refuted : forall num e s, source_of num e s -> dget (snd e) "conn" = Some "Y" -> so_conn s = "D".
Proof. intros num e s (_ & _ & _ & _ & c & H & [[-> _]|[_ D]]) E; [congruence | exact D]. Qed.
Print Assumptions C139_connection_refuted.

(** The hypotheses are met. *)
Example C139_hypotheses_met :
  let num := fun t => if String.eqb t "7.2" then Ok (72 # 10) else if String.eqb t "1" then Ok 1 else Err EValue in
  chosen ["a.STD"; "b.std"; "c.mpt"] ".std" "b.std" /\
  get_file_content (fun f n h => Some f) (fun t => Ok t) (Some ["a.STD"; "b.std"; "c.mpt"]) = Ok [("Circuit Elements", "b.std"); ("Map Points", "c.mpt")] /\
  parse_wmnodes num [("n", [("x", "1"); ("y", "7.2")]); ("m", [])] = Ok [mkWmnode "n" [(1, 72 # 10)]; mkWmnode "m" []] /\
  exists s, parse_sources num [("u", "v", [("class", "line")]); ("p", "q", [("class", "substation"); ("name", "s"); ("kv", "7.2"); ("Vpu", "1"); ("conn", "W")])] = Ok [s] /\ so_conn s = "Y".
Proof.
  cbv zeta. split; [|split; [|split]].
  - exists ["a.STD"], ["c.mpt"]. split; [reflexivity|]. split; [exists "b"; reflexivity|]. intros g [<-|[]] [b E].
    assert (T : ends_with ".std" (lower "c.mpt") = true) by (apply ends_with_spec; now exists b). discriminate T.
  - vm_compute. reflexivity.
  - reflexivity.
  - eexists. split; reflexivity.
Qed.
