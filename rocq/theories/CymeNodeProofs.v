From Coq Require Import List String Ascii Bool Arith Lia.
From Verif Require Import Base BaseFacts TextModel CsvModel CsvSpec GlmSpec CymeMapModel CymeParseModel CymeParseSpec CymeParseProofs CymeSecModel CymeSecSpec CymeSecProofs CymeNodeModel CymeNodeSpec.
Import ListNotations.
Local Open Scope string_scope.
Local Open Scope nat_scope.
Local Open Scope list_scope.

Lemma plain_one obj h : dget cyme_headers obj = Some [HStr h] -> plain_headers cyme_headers [obj].
Proof. intros E o [<-|[]]. exists [h]. exact E. Qed.
Lemma heads_one obj h line : dget cyme_headers obj = Some [HStr h] -> (heads cyme_headers [obj] line <-> substr_in h line = true).
Proof.
  intros E. split.
  - intros (o & ss & s & [<-|[]] & F & I & S). rewrite E in F. destruct ss as [|s1 [|]]; try discriminate. injection F as ->. destruct I as [<-|[]]. exact S.
  - intros S. exists obj, [h], h. repeat split; [now left|exact E|now left|exact S].
Qed.
Lemma outside_heads obj h lines : dget cyme_headers obj = Some [HStr h] -> outside h lines -> Forall (fun l => ~ heads cyme_headers [obj] l) lines.
Proof.
  intros E O. apply Forall_forall. intros l I H. unfold outside in O. rewrite Forall_forall in O. rewrite (heads_one obj h l E) in H. rewrite (O l I) in H. discriminate.
Qed.

(** A file with one part. *)
Lemma part_read obj h attrs mapping names body content : dget cyme_headers obj = Some [HStr h] -> NoDup attrs -> has_part h names body content ->
  exists recs, read_object obj attrs mapping [] content = Ok recs /\ records_of [] (map (pair (Announced attrs names)) (filter is_row body)) recs.
Proof.
  intros E ND (pre & lines & post & -> & OP & (header & f & b & -> & H & FM & FL & FB & LB) & OQ). unfold read_object.
  replace (pre ++ (header :: f :: body ++ [b]) ++ post) with (pre ++ header :: f :: body ++ b :: post) by (cbn; now rewrite <- app_assoc).
  apply (file_section cyme_headers [obj] attrs mapping [] pre header f names body b post); try assumption.
  - now apply (plain_one obj h).
  - now apply (outside_heads obj h).
  - now apply (heads_one obj h).
  - now apply (outside_heads obj h).
  - constructor.
Qed.
Lemma outside_read obj h attrs mapping add content : dget cyme_headers obj = Some [HStr h] -> outside h content -> read_object obj attrs mapping add content = Ok [].
Proof.
  intros E O. unfold read_object. pose proof (read_all_skip cyme_headers [obj] attrs mapping [] add (plain_one obj h E) content [] [] 1 (outside_heads obj h content E O)) as K.
  rewrite app_nil_r, Nat.add_1_r in K. rewrite K. reflexivity.
Qed.
(** The same with additional attributes, for which there is no format or one. *)
Lemma part_read_add obj h attrs add mapping names body content : dget cyme_headers obj = Some [HStr h] -> NoDup attrs -> has_part h names body content ->
  Forall (fun l => substr_in "=" l = false) body ->
  exists recs, read_object obj attrs mapping add content = Ok recs /\ records_of [] (map (pair (Announced attrs names)) (filter is_row body)) recs.
Proof.
  intros E ND (pre & lines & post & -> & OP & (header & f & b & -> & H & FM & FL & FB & LB) & OQ) NE. unfold read_object.
  replace (pre ++ (header :: f :: body ++ [b]) ++ post) with (pre ++ header :: f :: body ++ b :: post) by (cbn; now rewrite <- app_assoc).
  destruct (body_until [] (NoDup_nil _) body (Announced attrs names) attrs (read_format attrs f) add [] [] (b :: post)) as (recs & A & B).
  { apply Forall_forall. intros l I. rewrite Forall_forall in FB, NE. split; [now apply FB|now apply NE]. }
  { now apply agrees_announced. }
  { apply records_nil. }
  exists recs. split; [|exact B].
  assert (HH : parser_helper cyme_headers [obj] attrs mapping [] add header (f :: body ++ b :: post) = Ok (recs, post)).
  { rewrite helper_head; [|now apply (plain_one obj h)|now apply (heads_one obj h)]. rewrite FM.
    destruct (body ++ b :: post) eqn:EB; [destruct body; discriminate|]. rewrite <- EB in *. rewrite A. cbn [body_loop].
    destruct (Nat.ltb_spec 2 (String.length b)); [lia|reflexivity]. }
  apply (read_all_more cyme_headers [obj] attrs mapping [] add (length pre + (1 + (length post + 1)))).
  { rewrite app_length. cbn [length]. rewrite app_length. cbn [length]. lia. }
  rewrite read_all_skip; [|now apply (plain_one obj h)|now apply (outside_heads obj h)]. cbn [Nat.add read_all]. rewrite HH. cbn [bind].
  rewrite update_fresh by (cbn; exact (records_keys _ _ _ B)). cbn [app].
  rewrite <- (app_nil_r post) at 2. rewrite read_all_skip; [reflexivity|now apply (plain_one obj h)|now apply (outside_heads obj h)].
Qed.
Lemma part_read_second obj h attrs add mapping names b1 f2 names2 b2 content : dget cyme_headers obj = Some [HStr h] -> NoDup attrs -> NoDup add -> add <> [] ->
  has_part h names (b1 ++ f2 :: b2) content -> Forall (fun l => substr_in "=" l = false) b1 -> format_line f2 names2 ->
  exists recs, read_object obj attrs mapping add content = Ok recs /\
    records_of [] (map (pair (Announced attrs names)) (filter is_row b1) ++ map (pair (Announced add names2)) (filter is_row b2)) recs.
Proof.
  intros E ND NDA AN (pre & lines & post & -> & OP & (header & f & b & -> & H & FM & FL & FB & LB) & OQ) NE F2. unfold read_object.
  replace (pre ++ (header :: f :: (b1 ++ f2 :: b2) ++ [b]) ++ post) with (pre ++ header :: f :: (b1 ++ f2 :: b2) ++ b :: post) by (cbn; now rewrite <- !app_assoc).
  destruct (section_second cyme_headers [obj] attrs mapping [] add header f names ((b1 ++ f2 :: b2) ++ b :: post) b1 f2 names2 b2 post) as (recs & A & B & C); try assumption.
  { now apply (plain_one obj h). } { now apply (heads_one obj h). } { constructor. } { split; [exact FB|]. right. eauto. }
  exists recs. split; [|exact B].
  apply (read_all_more cyme_headers [obj] attrs mapping [] add (length pre + (1 + (length post + 1)))).
  { rewrite app_length. cbn [length]. rewrite app_length. cbn [length]. lia. }
  rewrite read_all_skip; [|now apply (plain_one obj h)|now apply (outside_heads obj h)]. cbn [Nat.add read_all]. rewrite A. cbn [bind].
  rewrite update_fresh by (cbn; exact C). cbn [app].
  rewrite <- (app_nil_r post) at 2. rewrite read_all_skip; [reflexivity|now apply (plain_one obj h)|now apply (outside_heads obj h)].
Qed.

(** ** Nodes *)
Section Nodes.
Variable V : Type.
Variable num : string -> option V.

Lemma place_reads d x y a b : reads num d x a -> reads num d y b -> place V num d x y = Some (a, b).
Proof. intros (t & E & F) (u & G & H). unfold place. now rewrite E, F, G, H. Qed.
Lemma connected_reads conns : NoDup (map fst conns) -> forall l id k fuel, length conns < fuel + k -> k <= length conns ->
  (forall j, j < k -> dget conns (id ++ stars j) <> None) ->
  (forall j p, nth_error l j = Some p -> exists d, dget conns (id ++ stars (k + j)) = Some d /\ reads num d "coordx" (fst p) /\ reads num d "coordy" (snd p)) ->
  dget conns (id ++ stars (k + length l)) = None ->
  connected V num fuel conns (id ++ stars k) = (l, true).
Proof.
  intros ND. assert (LE : forall id k, (forall j, j < k -> dget conns (id ++ stars j) <> None) -> k <= length conns).
  { intros id k H.     assert (ND' : NoDup (map (fun j => (id ++ stars j)%string) (seq 0 k))).
    { apply FinFun.Injective_map_NoDup; [intros a b EQ; now apply star_inj in EQ|apply seq_NoDup]. }
    assert (I : incl (map (fun j => (id ++ stars j)%string) (seq 0 k)) (map fst conns)).
    { intros s Hs. apply in_map_iff in Hs. destruct Hs as (j & <- & Hj). apply in_seq in Hj. specialize (H j ltac:(lia)).
      destruct (dget conns (id ++ stars j)) as [r|] eqn:Er; [|congruence]. apply dget_Some_key in Er. exact Er. }
    pose proof (NoDup_incl_length ND' I) as L. rewrite !map_length, seq_length in L. rewrite ?map_length. lia. }
  induction l as [|p l IH]; intros id k fuel LF LK BE HE HN; (destruct fuel as [|fuel]; [lia|]); cbn [connected].
  - cbn in HN. rewrite Nat.add_0_r in HN. now rewrite HN.
  - destruct (HE 0 p eq_refl) as (d & E & RX & RY). rewrite Nat.add_0_r in E. rewrite E, (place_reads _ _ _ _ _ RX RY).
    assert (BE' : forall j, j < S k -> dget conns (id ++ stars j) <> None).
    { intros j Hj. destruct (Nat.eq_dec j k) as [->|N]; [congruence|apply BE; lia]. }
    assert (ES : ((id ++ stars k) ++ "*" = id ++ stars (S k))%string) by (rewrite app_assoc_s, star_snoc; reflexivity). rewrite ES.
    rewrite (IH id (S k) fuel); [destruct p; reflexivity|lia|now apply (LE id)|exact BE'| |].
    + intros j q Ej. destruct (HE (S j) q Ej) as (d' & E' & R). exists d'. replace (S k + j) with (k + S j) by lia. now split.
    + replace (S k + length l) with (k + length (p :: l)) by (cbn; lia). exact HN.
Qed.
Lemma make_node_of conns x : NoDup (map fst conns) -> node_of num conns x (make_node V num conns x).
Proof.
  intros ND. destruct x as [id d]. unfold node_of, make_node. cbn [fst snd nd_name nd_voltage nd_positions]. split; [reflexivity|]. split; [|split; [|split; [|split]]].
  - intros v. unfold reads. split.
    + destruct (dget d "ratedvoltage") as [t|]; [|discriminate]. intros H. now exists t.
    + intros (t & -> & H). exact H.
  - intros a b A B. unfold positions_of. rewrite (place_reads _ _ _ _ _ A B). destruct A as (t & E & _). unfold dmem. now rewrite E.
  - intros a b l c e L A B C X Y. unfold positions_of, dmem. rewrite L, (place_reads _ _ _ _ _ A B), (place_reads _ _ _ _ _ X Y).
    destruct A as (t & E & _). rewrite E. destruct C as [C1 C2].
    pose proof (connected_reads conns ND l id 0 (S (length conns)) ltac:(lia) ltac:(lia) ltac:(lia) C1 C2) as K. cbn [stars] in K. rewrite sapp_nil in K.
    rewrite K. reflexivity.
  - intros A B. unfold positions_of, dmem. rewrite A, B. reflexivity.
  - intros A N. unfold positions_of, dmem. unfold lacks in A. destruct (dget d "coordx") as [t|] eqn:E; [|congruence].
    unfold place. rewrite E. destruct (num t) as [a|] eqn:F; [|reflexivity]. destruct (dget d "coordy") as [u|] eqn:G; [|reflexivity].
    destruct (num u) as [b|] eqn:H; [|reflexivity]. exfalso. apply (N a b). split; [now exists t|now exists u].
Qed.
End Nodes.
