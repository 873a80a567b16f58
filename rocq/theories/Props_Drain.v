(** A server that acknowledges completes the publishes of a session. *)
From Verif Require Import Base StateModel StateSpec StateHarness SerModel WireSpec SerHarness CoreModel CoreSpec CoreHarness CoreCases CoreFinal CoreFinal3 Props_Findings DrainSpec DrainProofs.

(** *** C92 *)
(** Calls of MQTT_ProcessLoop and MQTT_ReceiveLoop that go well, while the application's
    callback makes no calls: if among the packets handled are, in their order for each
    publish in flight and in any order between different ones, the acknowledgements it
    waits for, then afterwards no publish is in flight. *)
Theorem acknowledged_session_drains : forall G n m l s rs s' t, Begun G n m s -> Forall loops l -> run_calls G l s = Ret rs s' t ->
  Forall (fun o => o = []) (e_cbs (s_env s)) -> Forall went_well rs ->
  (forall f, In f (outgoing s) -> 1 <= f_id f <= 65535 /\ owed f <> [] /\ Within (owed f) (handled t)) -> outgoing s' = [].
Proof. exact drained. Qed.
Print Assumptions acknowledged_session_drains.
(** publishes of QoS 1 and 2 acknowledged by turns, with a publish of the server between *)
Definition drain_env : env := mkEnv ([32; 2; 0; 0] ++ [80; 2; 0; 9] ++ [48; 3; 0; 1; 97] ++ [64; 2; 0; 8] ++ [112; 2; 0; 9]) [1; 1; 2; 4; 5; 3; 5; 0]
  (repeat 100 20) (repeat 0 99) [] (repeat true 9) [].
Definition drain_from : st := after_calls [conn1; COp (OPublish (pub1 Q1) 8); COp (OPublish (pub1 Q2) 9)] (client1 drain_env).
Definition drain_calls : list call := [CProcess; CReceive; CProcess; CReceive; CProcess].
Example acknowledged_session_drains_case : Begun cfg1 3 2 drain_from /\ Forall loops drain_calls /\
  (exists s' t, run_calls cfg1 drain_calls drain_from = Ret [Success; Success; NeedMoreBytes; Success; Success] s' t /\
   (forall f, In f (outgoing drain_from) -> 1 <= f_id f <= 65535 /\ owed f <> [] /\ Within (owed f) (handled t))) /\
  Forall (fun o => o = []) (e_cbs (s_env drain_from)) /\ outgoing drain_from = [F 8 Q1 PubAckPending; F 9 Q2 PubRecPending].
Proof.
  assert (O : outgoing drain_from = [F 8 Q1 PubAckPending; F 9 Q2 PubRecPending]) by (vm_compute; reflexivity).
  split; [apply begun_after; [apply bytes_dec| |]; vm_compute; reflexivity|]. split; [unfold drain_calls, loops; auto 10|]. split; [|split; [vm_compute; auto|exact O]].
  assert (E : match run_calls cfg1 drain_calls drain_from with Ret r _ t => r = [Success; Success; NeedMoreBytes; Success; Success] /\
    handled t = [(80, [0; 9]); (48, [0; 1; 97]); (64, [0; 8]); (112, [0; 9])] | _ => False end) by (vm_compute; auto).
  destruct (run_calls cfg1 drain_calls drain_from) as [r s' t| |]; try contradiction. destruct E as (-> & E). exists s', t. split; [reflexivity|].
  rewrite O, E. cbn. intros f [<-|[<-|[]]]; (split; [cbn; lia|]); (split; [discriminate|]); cbn.
  - apply within_skip, within_skip, within_take. constructor.
  - apply within_take, within_skip, within_skip, within_take. constructor.
Qed.
