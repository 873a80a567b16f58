(** Concrete multi-threaded histories used in the Examples and refutations. *)
From Verif Require Import Base StateModel StateSpec StateHarness SerModel WireSpec SerHarness CoreModel CoreSpec CoreHarness CoreCases CoreFinal3 Props_Findings
  ConcModel ConcHarness.

(** the other threads make the calls [o] when the loop thread has been interrupted [k]
    times already, and otherwise nothing *)
Definition meanwhile (k : nat) (o : list op) : world := mkW false (repeat [] k ++ [o]).
(** results and events of a history; None: it did not end *)
Definition c_trace (l : list call) (w : world) (s : st) : option (list status * list ev) :=
  match c_run_calls cfg1 l w s with Ret (Some rs, _) _ t => Some (rs, t) | _ => None end.
Definition c_after (l : list call) (w : world) (s : st) : st :=
  match c_run_calls cfg1 l w s with Ret _ s' _ => s' | _ => s end.
Definition c_world (l : list call) (w : world) (s : st) : world :=
  match c_run_calls cfg1 l w s with Ret (_, w') _ _ => w' | _ => w end.

Lemma legal_client l w e : bytes_ok (e_in e) -> calm e -> cbs_sound e -> Forall call_sound l -> free w -> legal cfg1 3 2 l w (client1 e).
Proof.
  intros Hb Hc Hs Hl Hw. split; [|split; [vm_compute; congruence|auto]]. exists (repeat 0 32), true, e.
  repeat split; auto; try (vm_compute; congruence). unfold bytes_ok, is_byte. repeat constructor; lia.
Qed.
Lemma shared_after l w e : legal cfg1 3 2 l w (client1 e) -> c_trace l w (client1 e) <> None ->
  Shared cfg1 3 2 (c_world l w (client1 e)) (c_after l w (client1 e)).
Proof.
  intros H K. unfold c_trace, c_world, c_after in *. destruct (c_run_calls cfg1 l w (client1 e)) as [[[rs|] w'] s' t| |] eqn:E; try contradiction.
  exists (client1 e), l, w, rs, t. auto.
Qed.
Lemma ops_dec l : existsb is_disc l = false -> Forall op_sound l -> ops_fine l.
Proof. split; auto. Qed.
Ltac sounds := repeat constructor; cbn; unfold u16_ok; try lia; try (vm_compute; congruence).
Ltac legal1 := apply legal_client; [apply bytes_dec; vm_compute; reflexivity|reflexivity|sounds|sounds|split; [reflexivity|sounds]].
