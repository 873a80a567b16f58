(** Packet identifiers and the publishes in flight. *)
From Verif Require Import Base StateModel StateSpec StateHarness SerModel WireSpec SerHarness CoreModel CoreSpec CoreHarness CoreCases CoreProofs16 IdProofs.

(** *** C94 *)
(** The identifier MQTT_GetPacketId hands out is not among the 65534 handed out last.  So
    it is not in use (MQTT-2.3.1-2) if all publishes in flight got their identifiers
    from these. *)
Theorem fresh_identifier_partial : forall G n m l s0 rs s t st s' t' id, opened G n m s0 -> run_calls G l s0 = Ret rs s t ->
  run_call G (COp OGetId) s = Ret st s' t' -> given t' = [id] ->
  ~ In id (lastn recent (given t)) /\
  ((forall f, In f (outgoing s) -> In (f_id f) (lastn recent (given t))) -> in_flight (outgoing s) id = false).
Proof. exact fresh_unused. Qed.
Print Assumptions fresh_identifier_partial.
Definition fresh_env : env := mkEnv [32; 2; 0; 0] [1; 1; 2] (repeat 99 9) (repeat 0 20) [] [] [].
Definition fresh_calls : list call := [CConnect con1 None 1000; COp OGetId; COp (OPublish (pub1 Q1) 1); COp OGetId; COp (OPublish (pub1 Q2) 2)].
Example fresh_identifier_case : opened cfg1 3 2 (client1 fresh_env) /\ results fresh_calls (client1 fresh_env) = repeat Success 5 /\
  ids (outgoing (after_calls fresh_calls (client1 fresh_env))) = [1; 2] /\ given (trace fresh_calls (client1 fresh_env)) = [1; 2] /\
  given (trace [COp OGetId] (after_calls fresh_calls (client1 fresh_env))) = [3].
Proof.
  split; [exists (repeat 0 32), true, fresh_env; repeat split; try (vm_compute; congruence); apply bytes_dec; reflexivity|]. vm_compute. auto.
Qed.

(** Refuted in general: MQTT_GetPacketId does not look at the publishes in flight.  A
    publish that is not acknowledged keeps its identifier; after 65534 more calls the
    same identifier is handed out again while in use, and MQTT_Publish refuses it with
    MQTTStateCollision. *)
Definition again_calls : list call := [CConnect con1 None 1000; COp OGetId; COp (OPublish (pub1 Q1) 1)] ++ repeat (COp OGetId) (Z.to_nat 65534).
Theorem fresh_identifier_refuted : exists s0 s rs t s' t', opened cfg1 3 2 s0 /\ run_calls cfg1 again_calls s0 = Ret rs s t /\
  Forall (fun r => r = Success) rs /\
  run_calls cfg1 [COp OGetId; COp (OPublish (pub1 Q1) 1)] s = Ret [Success; StateCollision] s' t' /\
  given t' = [1] /\ in_flight (outgoing s) 1 = true /\ outs t' = [].
Proof.
  set (a := firstn 3 fresh_calls). set (s1 := after_calls a (client1 fresh_env)).
  assert (E1 : run_calls cfg1 a (client1 fresh_env) = Ret (repeat Success 3) s1 (trace a (client1 fresh_env))) by (vm_compute; reflexivity).
  destruct (get_ids cfg1 (Z.to_nat 65534) s1) as (x & t2 & E2 & Ex); [vm_compute; split; discriminate|].
  assert (x = 1) as ->.
  { assert (En : x_nextId (s_ctx s1) = 2) by (vm_compute; reflexivity). rewrite Ex, En, Z2Nat.id by lia. reflexivity. }
  set (s := mkSt (set_nextId (s_ctx s1) 1) (s_env s1)) in *.
  assert (E3 : exists s' t', run_calls cfg1 [COp OGetId; COp (OPublish (pub1 Q1) 1)] s = Ret [Success; StateCollision] s' t' /\ given t' = [1] /\ in_flight (outgoing s) 1 = true /\ outs t' = []).
  { eexists. eexists. split; [vm_compute; reflexivity|]. vm_compute. auto. }
  destruct E3 as (s' & t' & E3 & E4). exists (client1 fresh_env), s. do 2 eexists. exists s', t'.
  split; [exists (repeat 0 32), true, fresh_env; repeat split; try (vm_compute; congruence); apply bytes_dec; reflexivity|].
  split; [exact (run_calls_app cfg1 a _ _ _ _ _ _ _ _ E1 E2)|]. split; [|split; [exact E3|exact E4]].
  apply Forall_forall. intros r Hr. apply in_app_iff in Hr. destruct Hr as [Hr|Hr]; now apply repeat_spec in Hr.
Qed.
Print Assumptions fresh_identifier_refuted.
