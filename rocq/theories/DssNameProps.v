(** Names and phases of the OpenDSS writer (C45, C46). *)
From Verif Require Import Base BaseFacts DssNameModel DssNameSpec DssNameProofs.
Local Open Scope string_scope.

(** ** C45: safe names *)

(** Every written bus name consists of lower-case letters, digits and single underscores. *)
Theorem C45_safe s : safe (bus_name s) /\ lower_case (bus_name s).
Proof. split; [apply re_sub_safe|apply sub_lower, lower_lower_case]. Qed.
Print Assumptions C45_safe.

(** Letters and digits survive in order; each stretch of other characters becomes one underscore. *)
Theorem C45_content s : kept (lower s) (bus_name s).
Proof. exact (proj1 (sub_kept (lower s))). Qed.
Print Assumptions C45_content.

(** Safe lower-case names are unchanged; hence the function is idempotent. *)
Theorem C45_unchanged s : safe s -> lower_case s -> bus_name s = s.
Proof. intros S L. unfold bus_name. rewrite (lower_fixed s L). apply re_sub_fixed. exact S. Qed.
Print Assumptions C45_unchanged.
Theorem C45_idempotent s : bus_name (bus_name s) = bus_name s.
Proof. apply C45_unchanged; apply C45_safe. Qed.
Print Assumptions C45_idempotent.

(** Names of letters and digits that differ in more than case stay distinct. *)
Theorem C45_distinct_partial s t : plain s -> plain t -> lower s <> lower t -> bus_name s <> bus_name t.
Proof. intros S T N. unfold bus_name. rewrite !re_sub_fixed by (apply plain_safe, lower_plain; assumption). exact N. Qed.
Print Assumptions C45_distinct_partial.

(** In general distinct nodes can get the same bus name. *)
Theorem C45_distinct_refuted : exists s t, lower s <> lower t /\ bus_name s = bus_name t.
Proof. exists "bus.1", "bus-1". split; [discriminate|reflexivity]. Qed.
Print Assumptions C45_distinct_refuted.

Example C45_hypotheses_met : bus_name "Sub A--12" = "sub_a_12" /\ safe "sub_a_12" /\ lower_case "sub_a_12" /\ plain "n12".
Proof.
  split; [reflexivity|]. split; [change "sub_a_12" with (bus_name "Sub A--12"); apply C45_safe|].
  split; [change "sub_a_12" with (bus_name "Sub A--12"); apply C45_safe|].
  intros a c b E. apply alnum_spec. destruct a as [|x [|y [|z [|u a]]]]; cbn in E; try discriminate; injection E; intros; subst; reflexivity.
Qed.

(** ** C46: phases *)

(** The phases A, B and C are read back from the number, as an int or as a str. *)
Theorem C46_round_trip_partial p : p = "A" \/ p = "B" \/ p = "C" ->
  exists z, w_phase p = Some z /\ r_phase_int z = Some p /\ r_phase_str (String (ascii_of_nat (48 + Z.to_nat z)) "") = Some p.
Proof. intros [->|[->| ->]]; eexists; (split; [reflexivity|split; reflexivity]). Qed.
Print Assumptions C46_round_trip_partial.

(** Two different phases never get the same number, and only A, B, C and N get one. *)
Theorem C46_writer_injective p q z : w_phase p = Some z -> w_phase q = Some z -> p = q.
Proof.
  unfold w_phase. destruct (String.eqb_spec p "A"), (String.eqb_spec p "B"), (String.eqb_spec p "C"), (String.eqb_spec p "N");
  destruct (String.eqb_spec q "A"), (String.eqb_spec q "B"), (String.eqb_spec q "C"), (String.eqb_spec q "N"); congruence.
Qed.
Print Assumptions C46_writer_injective.

(** The reader knows the numbers 1 to 3, the same as texts, and the phases themselves, and nothing else. *)
Theorem C46_reader : 
  (forall z p, r_phase_int z = Some p <-> In (z, p) [(1, "A"); (2, "B"); (3, "C")]%Z) /\
  (forall s p, r_phase_str s = Some p <-> In (s, p) [("1", "A"); ("2", "B"); ("3", "C")] \/ s = p /\ In p ["A"; "B"; "C"]).
Proof.
  split; [intros z p|intros s p].
  - unfold r_phase_int. destruct (Z.eqb_spec z 1) as [->|N1]; [|destruct (Z.eqb_spec z 2) as [->|N2]; [|destruct (Z.eqb_spec z 3) as [->|N3]]]; cbn [In]; (split; [intros E|intros [E|[E|[E|[]]]]]); inversion E; subst; auto; try congruence.
  - unfold r_phase_str. split.
    + destruct (String.eqb_spec s "1"), (String.eqb_spec s "A"), (String.eqb_spec s "2"), (String.eqb_spec s "B"), (String.eqb_spec s "3"), (String.eqb_spec s "C"); cbn; intros E; inversion E; subst; cbn; auto 10.
    + intros [H|[-> H]]; cbn in H; [destruct H as [E|[E|[E|[]]]]; injection E as <- <-|destruct H as [<-|[<-|[<-|[]]]]]; reflexivity.
Qed.
Print Assumptions C46_reader.

(** The neutral is written as 0, which the reader does not know. *)
Theorem C46_neutral_refuted : w_phase "N" = Some 0%Z /\ r_phase_int 0 = None.
Proof. split; reflexivity. Qed.
Print Assumptions C46_neutral_refuted.

Example C46_hypotheses_met : w_phase "B" = Some 2%Z /\ r_phase_str "2" = Some "B".
Proof. split; reflexivity. Qed.
