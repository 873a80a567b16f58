(** Properties of MQTT_MatchTopic: theorems only.  Vocabulary: TopicSpec.v. *)
From Verif Require Import Base SerModel TopicModel TopicSpec TopicProofs.

(** *** C24 *)
(** For any filter, even an invalid one. *)
Theorem topic_matching_sound : forall n f, valid_name n -> 0 < zlen f < 65536 ->
  matchTopic (Some n) (zlen n) (Some f) (zlen f) = Ok (Success, Some true) -> topic_matches n f.
Proof. exact topic_sound. Qed.
Print Assumptions topic_matching_sound.
(** The exact set of matches. *)
Theorem topic_matching_exact : forall n f, valid_name n -> 0 < zlen f < 65536 ->
  (matchTopic (Some n) (zlen n) (Some f) (zlen f) = Ok (Success, Some true) <->
   topic_matches n f /\ ~ plus_gap n f).
Proof. exact topic_iff'. Qed.
Print Assumptions topic_matching_exact.
(** "a/bc/d" matches "a/+/#", "a/b" does not match "a/+/c" *)
Example topic_case : valid_name [97; 47; 98; 99; 47; 100] /\
  matchTopic (Some [97; 47; 98; 99; 47; 100]) 6 (Some [97; 47; 43; 47; 35]) 5 = Ok (Success, Some true) /\
  matchTopic (Some [97; 47; 98]) 3 (Some [97; 47; 43; 47; 99]) 5 = Ok (Success, Some false).
Proof. repeat split; try (cbn; lia); intros K; cbn in K; lia. Qed.

(** *** C25 *)
(** Full statement: forall n f, valid_name n -> valid_filter f -> topic_matches n f ->
    matchTopic (Some n) (zlen n) (Some f) (zlen f) = Ok (Success, Some true).
    It is false: "a" is not matched by "+/#", nor "a/" by "+/+". *)
Theorem topic_matching_complete_refuted :
  exists n1 f1 n2 f2,
    (valid_name n1 /\ valid_filter f1 /\ topic_matches n1 f1 /\
     matchTopic (Some n1) (zlen n1) (Some f1) (zlen f1) = Ok (Success, Some false)) /\
    (valid_name n2 /\ valid_filter f2 /\ topic_matches n2 f2 /\
     matchTopic (Some n2) (zlen n2) (Some f2) (zlen f2) = Ok (Success, Some false)).
Proof. exact topic_incomplete. Qed.
Print Assumptions topic_matching_complete_refuted.
(** What is missing is exactly [plus_gap]. *)
Theorem topic_matching_complete_partial : forall n f, valid_name n -> valid_filter f -> topic_matches n f ->
  ~ plus_gap n f -> matchTopic (Some n) (zlen n) (Some f) (zlen f) = Ok (Success, Some true).
Proof. exact topic_complete. Qed.
Print Assumptions topic_matching_complete_partial.
Theorem topic_gap_never_matched : forall n f, valid_name n -> valid_filter f -> plus_gap n f ->
  matchTopic (Some n) (zlen n) (Some f) (zlen f) = Ok (Success, Some false).
Proof. exact topic_gap_missed. Qed.
Print Assumptions topic_gap_never_matched.
(** In particular filters without '+' are matched completely. *)
Theorem topic_no_plus_no_gap : forall n f, ~ In 43 f -> ~ plus_gap n f.
Proof. exact no_plus_no_gap. Qed.
Print Assumptions topic_no_plus_no_gap.
(** "a/b" and "a/+": not in the gap *)
Example topic_complete_case : topic_matches [97; 47; 98] [97; 47; 43] /\ ~ plus_gap [97; 47; 98] [97; 47; 43].
Proof.
  apply topic_iff'; [repeat split; try (cbn; lia); intros K; cbn in K; lia|cbn; lia|reflexivity].
Qed.

(** *** C26 *)
(** No read outside the given lengths, a definite answer, and no dependence on the
    memory behind. *)
Theorem topic_matching_safe : forall mn nl mf fl, 0 < nl < 65536 -> 0 < fl < 65536 -> nl <= zlen mn -> fl <= zlen mf ->
  exists b, matchTopic (Some mn) nl (Some mf) fl = Ok (Success, Some b) /\
    forall mn' mf', nl <= zlen mn' -> fl <= zlen mf' ->
      firstn (Z.to_nat nl) mn' = firstn (Z.to_nat nl) mn -> firstn (Z.to_nat fl) mf' = firstn (Z.to_nat fl) mf ->
      matchTopic (Some mn') nl (Some mf') fl = Ok (Success, Some b).
Proof. exact topic_safe. Qed.
Print Assumptions topic_matching_safe.
Theorem topic_matching_bad_parameters : forall n nl f fl, n = None \/ nl = 0 \/ f = None \/ fl = 0 ->
  matchTopic n nl f fl = Ok (BadParameter, None).
Proof. exact topic_refused. Qed.
Print Assumptions topic_matching_bad_parameters.
Example topic_safe_case : matchTopic (Some [47]) 1 (Some [35; 1; 2]) 1 = Ok (Success, Some true) /\
  matchTopic (Some []) 1 (Some [35; 1; 2]) 1 = Ub.
Proof. split; reflexivity. Qed.

(** *** C62 *)
(** Full statement: a name without wildcards is matched only by filters that match it by
    MQTT 4.7, whatever its bytes.  It is false for names with a NUL byte. *)
Theorem topic_nul_sound_refuted : exists n f,
  0 < zlen n < 65536 /\ ~ In 43 n /\ ~ In 35 n /\ 0 < zlen f < 65536 /\
  ~ topic_matches n f /\ matchTopic (Some n) (zlen n) (Some f) (zlen f) = Ok (Success, Some true).
Proof. exact topic_nul_false. Qed.
Print Assumptions topic_nul_sound_refuted.
(** The exact set of matches when NUL is allowed: beside those of C24, every pair of equal
    length that agrees up to a NUL. *)
Theorem topic_matching_exact_nul : forall n f,
  0 < zlen n < 65536 -> ~ In 43 n -> ~ In 35 n -> 0 < zlen f < 65536 ->
  (matchTopic (Some n) (zlen n) (Some f) (zlen f) = Ok (Success, Some true) <->
   (topic_matches n f /\ ~ plus_gap n f) \/ same_up_to_nul n f).
Proof. exact topic_nul. Qed.
Print Assumptions topic_matching_exact_nul.
(** "a", NUL, "b": a name the second theorem speaks of, and a filter of other length *)
Example topic_nul_case : In 0 [97; 0; 98] /\
  matchTopic (Some [97; 0; 98]) 3 (Some [97; 0; 99; 100]) 4 = Ok (Success, Some false).
Proof. split; [cbn; auto|reflexivity]. Qed.
