(** Messages and connections: C54. *)
From Verif Require Import Base StateModel StateSpec StateHarness SerModel WireSpec SerHarness CoreModel CoreSpec CoreHarness CoreCases CoreProofs13 CoreProofs14 CoreProofs16 CoreFinal CoreFinal3 Props_Findings Props_Core Props_Loop FreshProofs UpProofs.

(** *** C54 *)
(** When the loops are called only while connected, a client that is not connected hands nothing
    to the application before an MQTT_Connect that returned MQTTSuccess; and this is the only call
    that makes it connected. *)
Theorem nothing_before_connect_partial : forall G n m l s rs s' t, Begun G n m s -> x_status (s_ctx s) <> Connected -> loops_up G l s ->
  run_calls G l s = Ret rs s' t -> callbacks t <> [] \/ x_status (s_ctx s') = Connected ->
  exists ci will tmo, In (CConnect ci will tmo, Success) (combine l rs).
Proof.
  intros G n m l s rs s' t HB Hd Hl H K.
  assert (D : (exists ci will tmo, In (CConnect ci will tmo, Success) (combine l rs)) \/ (forall c r, In (c, r) (combine l rs) -> call_conn c = true -> r <> Success)).
  { generalize (combine l rs). clear. induction l as [|(c, r) l IH]; [right; intros c r []|].
    destruct IH as [(ci & will & tmo & IH)|IH]; [left; exists ci, will, tmo; now right|].
    destruct c as [o|ci will tmo| |]; [right; intros c' r' [E|Hi] Hc; [injection E as <- <-; discriminate|eauto]| |right; intros c' r' [E|Hi] Hc; [injection E as <- <-; discriminate|eauto]..].
    destruct (status_beq r Success) eqn:E; [left; exists ci, will, tmo; left; destruct r; discriminate || reflexivity|].
    right. intros c' r' [E'|Hi] Hc; [injection E' as <- <-; intros ->; discriminate|eauto]. }
  destruct D as [D|D]; [exact D|]. destruct (calls_down G n m l s rs s' t HB Hd Hl H D) as (E1 & E2). destruct K; contradiction.
Qed.
Print Assumptions nothing_before_connect_partial.
(** a publish arrives after the CONNACK *)
Definition up_calls : list call := [COp OPing; CConnect con1 None 1000; CProcess].
Definition up_env : env := env1 [32; 2; 0; 0; 48; 3; 0; 1; 97] [1; 1; 2; 5] (repeat 100 5).
Example nothing_before_connect_case : Begun cfg1 3 2 (client1 up_env) /\ x_status (s_ctx (client1 up_env)) = NotConnected /\ loops_up cfg1 up_calls (client1 up_env) /\
  results up_calls (client1 up_env) = [StNotConnected; Success; Success] /\ map (fun e => match e with ECb ty b _ _ _ => (ty, b) | _ => (0, []) end) (callbacks (trace up_calls (client1 up_env))) = [(48, [0; 1; 97])].
Proof.
  split; [apply (begun_after [] up_env); [apply bytes_dec| |]; vm_compute; reflexivity|]. split; [reflexivity|]. split; [vm_compute; repeat split; intros; discriminate || reflexivity|].
  split; vm_compute; reflexivity.
Qed.
