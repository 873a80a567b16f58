(** Concrete clients used in the Examples next to the theorems about the core. *)
From Verif Require Import Base StateModel StateSpec StateHarness SerModel WireSpec SerHarness CoreModel CoreSpec CoreHarness.

(** conjunctions decided by computation *)
Ltac each := repeat match goal with |- _ /\ _ => split end; vm_compute; reflexivity.

Definition cfg1 : cfg := default_cfg true.
(** an environment: bytes from the server, answers of recv and of send; the clock
    stands at 0 *)
Definition env1 (inp recvs sends : list Z) : env := mkEnv inp recvs sends (repeat 0 200) [] [] [].
(** a client just initialised: a buffer of 32 bytes, 3 outgoing and 2 incoming records *)
Definition client1 (e : env) : st := mkSt (init_context (repeat 0 32) (fresh_recs 3 2) true) e.
Definition con1 : coninfo := mkCon false 60 (Some [97; 98; 99]) 3 None 0 None 0.
Definition con1_msg : connect_msg := mkConnect false 60 [97; 98; 99] None None None.
Definition pub1 (q : qos) : pubinfo := mkPub q false false (Some [97]) 1 (Some [1; 2]) 2.
Definition pub1_msg (q : qos) (id : Z) : publish_msg := mkPublish false q false [97] id [1; 2].
(** the state after a history, and what it did *)
Definition after_calls (l : list call) (s : st) : st := match run_calls cfg1 l s with Ret _ s' _ => s' | _ => s end.
Definition results (l : list call) (s : st) : list status := match run_calls cfg1 l s with Ret rs _ _ => rs | _ => [] end.
Definition trace (l : list call) (s : st) : list ev := match run_calls cfg1 l s with Ret _ _ t => t | _ => [] end.
Definition ended (l : list call) (s : st) : bool := match run_calls cfg1 l s with Ret _ _ _ => true | _ => false end.

Lemma begun_after l e : bytes_ok (e_in e) -> calm e -> ended l (client1 e) = true -> Begun cfg1 3 2 (after_calls l (client1 e)).
Proof.
  intros Hb Hc H. unfold ended in H. unfold after_calls.
  destruct (run_calls cfg1 l (client1 e)) as [rs s t| |] eqn:E; try discriminate.
  exists (client1 e), l, rs, t. split; [|exact E]. exists (repeat 0 32), true, e.
  repeat split; auto; try (vm_compute; congruence). unfold bytes_ok, is_byte. repeat constructor; lia.
Qed.
Lemma bytes_dec l : forallb (fun b => (0 <=? b) && (b <? 256)) l = true -> bytes_ok l.
Proof.
  intro H. apply Forall_forall. intros x Hx. rewrite forallb_forall in H. specialize (H x Hx). unfold is_byte. lia.
Qed.

(** connected, nothing in flight; the transport takes everything and delivers up to 32 bytes a time *)
Definition env_up : env := env1 [32; 2; 0; 0] (repeat 32 30) (repeat 100 30).
Definition up : st := after_calls [CConnect con1 None 1000] (client1 env_up).
Lemma up_begun : Begun cfg1 3 2 up.
Proof. apply begun_after; [apply bytes_dec| |]; vm_compute; reflexivity. Qed.
Lemma up_connected : x_status (s_ctx up) = Connected.
Proof. vm_compute. reflexivity. Qed.
