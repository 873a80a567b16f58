(** C86, C87, C88: setting up a context; names of codes. *)
From Coq Require Import ZArith List Bool String.
From Verif Require Import Base StateModel CoreModel InitModel InitProofs.
Import ListNotations.
Open Scope Z_scope.

(** C86 *)
Theorem init_all_or_nothing : forall ctx tr g cb b r ctx',
  mqtt_init ctx tr g cb b = (r, ctx') ->
  (r = Success <-> ctx <> None /\ init_given tr g cb b) /\ (r <> Success -> r = BadParameter /\ ctx' = ctx).
Proof. exact init_exact. Qed.
Print Assumptions init_all_or_nothing.

Theorem init_stateful_all_or_nothing : forall ctx po no pi ni r ctx',
  mqtt_init_stateful ctx po no pi ni = (r, ctx') ->
  (r = Success <-> exists k, ctx = Some k /\ k_cb k <> None /\ fits po no /\ fits pi ni) /\
  (r <> Success -> r = BadParameter /\ ctx' = ctx).
Proof. exact stateful_exact. Qed.
Print Assumptions init_stateful_all_or_nothing.

Theorem init_retransmits_all_or_nothing : forall ctx s t c r ctx',
  mqtt_init_retransmits ctx s t c = (r, ctx') ->
  (r = Success <-> ctx <> None /\ s <> None /\ t <> None /\ c <> None) /\
  (r <> Success -> r = BadParameter /\ ctx' = ctx).
Proof. exact retransmits_exact. Qed.
Print Assumptions init_retransmits_all_or_nothing.

Theorem init_starts_anew : forall k t g cb buf l rs k',
  t_recv t <> None -> t_send t <> None -> g <> None -> cb <> None ->
  Forall icall_sound l -> Forall (fun x => ~ is_init x) l ->
  icalls_run (IInit (Some t) g cb (Some (mkFb (Some buf) (zlen buf))) :: l) (Some k) = (rs, k') ->
  exists rs1 k2, rs = Success :: rs1 /\ k' = Some k2 /\
    stands k2 (init_context buf (last_arrays l rs1 (mkRecs None None)) (some_store l rs1 false)).
Proof. exact init_start. Qed.
Print Assumptions init_starts_anew.

Theorem every_start_is_reached : forall buf n m retr k, exists l rs k2,
  Forall icall_sound l /\ icalls_run l (Some k) = (rs, Some k2) /\ Forall (fun r => r = Success) rs /\
  stands k2 (init_context buf (fresh_recs n m) retr).
Proof. exact start_reached. Qed.
Print Assumptions every_start_is_reached.

(** memory with anything in it *)
Definition ex_raw : craw :=
  mkRaw (Some [mkRec 7 Q2 PubRelSend]) 1 None 3 (mkTr (Some 9) None None None) (mkFb None 77) 65535 (Some 4)
        11 12 true 2 None 5 60 13 true (Some 1) None (Some 2).
(** two failing calls between the ones that count: the arrays of the failed one are not
    taken, nor are the functions *)
Definition ex_calls : list icall :=
  [ IInit (Some (mkTr (Some 1) (Some 2) None None)) (Some 3) (Some 4) (Some (mkFb (Some [1; 2; 3]) 3));
    IStateful (Some [empty_rec; empty_rec]) 2 None 0;
    IStateful None 1 (Some [empty_rec]) 1;
    IRetransmits (Some 5) None (Some 6) ].
Example init_example :
  fst (icalls_run ex_calls (Some ex_raw)) = [Success; Success; BadParameter; BadParameter] /\
  Forall icall_sound (tl ex_calls) /\ Forall (fun x => ~ is_init x) (tl ex_calls) /\
  last_arrays (tl ex_calls) [Success; BadParameter; BadParameter] (mkRecs None None)
    = mkRecs (Some [empty_rec; empty_rec]) None /\
  some_store (tl ex_calls) [Success; BadParameter; BadParameter] false = false.
Proof.
  split; [reflexivity|]. split.
  { cbn [tl ex_calls]. repeat constructor; intros; try reflexivity; congruence. }
  split; [cbn [tl ex_calls]; repeat constructor; intros []|]. split; reflexivity.
Qed.
Example init_refused_example :
  mqtt_init (Some ex_raw) (Some (mkTr (Some 1) None None None)) (Some 3) (Some 4) (Some (mkFb None 0))
    = (BadParameter, Some ex_raw) /\
  mqtt_init_stateful (Some zero_raw) None 0 None 0 = (BadParameter, Some zero_raw).
Proof. split; reflexivity. Qed.

(** C87: wanted: what MQTT_Init accepts, the loops accept.
    [forall ctx tr g cb b k, mqtt_init ctx tr g cb b = (Success, Some k) -> loop_checks (Some k) = Success] *)
Theorem accepted_is_usable_refuted : exists ctx tr g cb b k,
  mqtt_init ctx tr g cb b = (Success, Some k) /\ loop_checks (Some k) = BadParameter /\
  forall l rs k', Forall (fun x => ~ is_init x) l -> icalls_run l (Some k) = (rs, k') ->
    loop_checks k' = BadParameter.
Proof.
  exists (Some zero_raw), (Some (mkTr (Some 1) (Some 2) None None)), (Some 3), (Some 4), (Some (mkFb None 100)).
  eexists. split; [reflexivity|]. split; [reflexivity|].
  match goal with |- forall l rs k', _ -> icalls_run l (Some ?k) = _ -> _ => 
    assert (G : forall l k0 rs k', fb_ptr (k_fb k0) = None -> Forall (fun x => ~ is_init x) l ->
                  icalls_run l (Some k0) = (rs, k') -> loop_checks k' = BadParameter) end.
  { induction l as [|x l IH]; intros k0 rs k' P N H; cbn [icalls_run] in H.
    - injection H as _ <-. cbn [loop_checks]. rewrite P. destruct (nul (k_time k0)); reflexivity.
    - destruct (icall_run x (Some k0)) as [r c1] eqn:E. destruct (icalls_run l c1) as [rs1 c2] eqn:E2.
      injection H as _ <-. inversion N as [|? ? N1 N2]. subst.
      assert (Q : exists k1, c1 = Some k1 /\ fb_ptr (k_fb k1) = None).
      { destruct x as [tr g cb b|po no pi ni|s t cl]; [exfalso; apply N1; exact I| |]; cbn [icall_run] in E.
        - unfold mqtt_init_stateful in E. destruct (negb _); [injection E as _ <-; eauto|].
          destruct (negb _); [injection E as _ <-; eauto|]. destruct (nul _); injection E as _ <-; eauto.
        - unfold mqtt_init_retransmits in E. destruct (nul s); [injection E as _ <-; eauto|].
          destruct (nul t); [injection E as _ <-; eauto|]. destruct (nul cl); injection E as _ <-; eauto. }
      destruct Q as (k1 & -> & P1). eapply IH; eassumption. }
  intros l rs k'. apply G. reflexivity.
Qed.
Print Assumptions accepted_is_usable_refuted.

(** with a buffer given, they do *)
Theorem accepted_is_usable_partial : forall ctx tr g cb b k,
  mqtt_init ctx tr g cb (Some b) = (Success, Some k) -> fb_ptr b <> None -> loop_checks (Some k) = Success.
Proof. exact init_usable. Qed.
Print Assumptions accepted_is_usable_partial.
Example usable_example : exists k,
  mqtt_init (Some ex_raw) (Some (mkTr (Some 1) (Some 2) None None)) (Some 3) (Some 4) (Some (mkFb (Some [0]) 1))
    = (Success, Some k) /\ loop_checks (Some k) = Success.
Proof. eexists. split; reflexivity. Qed.

(** C88 *)
Theorem status_names_distinct : forall v w,
  mqtt_status_strerror v = mqtt_status_strerror w ->
  v = w \/ (forall s, status_val s <> v /\ status_val s <> w).
Proof. exact status_names. Qed.
Print Assumptions status_names_distinct.

Theorem state_names_distinct : forall v w,
  mqtt_state_strerror v = mqtt_state_strerror w ->
  v = w \/ (forall s, pstate_val s <> v /\ pstate_val s <> w).
Proof. exact state_names. Qed.
Print Assumptions state_names_distinct.

Example names_example :
  mqtt_status_strerror (status_val KeepAliveTimeout) = "MQTTKeepAliveTimeout"%string /\
  mqtt_status_strerror 17 = mqtt_status_strerror (-1) /\
  mqtt_state_strerror (pstate_val PubRelPending) = "MQTTPubRelPending"%string /\
  mqtt_state_strerror 11 = "Invalid MQTT State"%string.
Proof. repeat split; reflexivity. Qed.
