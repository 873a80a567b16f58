(** Definitions used to state the properties of the client used from several threads. *)
From Verif Require Import Base StateModel StateSpec StateHarness SerModel WireSpec SerHarness CoreModel CoreSpec CoreHarness ConcModel.

(** what other threads may call: sound arguments, not MQTT_Disconnect *)
Definition ops_fine (l : list op) : Prop := Forall op_sound l /\ existsb is_disc l = false.
Definition fine (w : world) : Prop := Forall ops_fine (w_sched w).
(** nobody holds the mutex *)
Definition free (w : world) : Prop := w_held w = false /\ fine w.
(** the other threads do nothing *)
Definition still (w : world) : Prop := Forall (fun l => l = []) (w_sched w).
(** the last event is an error of the transport's recv *)
Definition dead (t : list ev) : Prop := exists t0, t = t0 ++ [EInErr].
(** no byte is put on the wire after a failed send *)
Definition hushed (t : list ev) : Prop := forall a b, t = a ++ EOutErr :: b -> outs b = [].

(** a client just initialised, sound calls [l] of one thread, and sound calls of other
    threads at any time meanwhile *)
Definition legal (G : cfg) (n m : nat) (l : list call) (w : world) (s : st) : Prop :=
  opened G n m s /\ 3 <= g_maxvec G /\ cbs_sound (s_env s) /\ Forall call_sound l /\ free w.
(** a client after any such calls, and what the other threads will do *)
Definition Shared (G : cfg) (n m : nat) (w : world) (s : st) : Prop :=
  exists s0 l w0 rs t, legal G n m l w0 s0 /\ c_run_calls G l w0 s0 = Ret (Some rs, w) s t.

(** no MQTT_Connect among the calls [l] is accepted with a new session *)
Fixpoint c_same_session (G : cfg) (l : list call) (w : world) (s : st) : Prop :=
  match l with
  | [] => True
  | c :: l' =>
      match c_run_call G c w s with
      | Ret (Some _, w') s' t => (call_conn c = true -> ins t <> [32; 2; 0; 0]) /\ c_same_session G l' w' s'
      | _ => True
      end
  end.
(** the other threads make only calls that [P] allows *)
Definition only_calls (P : op -> bool) (w : world) : Prop := Forall (fun l => forallb P l = true) (w_sched w).
Definition not_ping (o : op) : bool := match o with OPing => false | _ => true end.
(** a PINGRESP is outstanding in [s], and a clock value read between [s] and [s'] shows that the time for it is over *)
Definition overdue (G : cfg) (s s' : st) : Prop := x_waiting (s_ctx s) = true /\
  exists used x, e_times (s_env s) = used ++ e_times (s_env s') /\ In x used /\ g_pingto G < since (x mod 4294967296) (x_pingTime (s_ctx s)).
(** the packets [ps] occur in [bs] unbroken, one after the other, perhaps with other bytes around them *)
Inductive within : list (list Z) -> list Z -> Prop :=
| within_nil bs : within [] bs
| within_cons p ps a b : within ps b -> within (p :: ps) (a ++ p ++ b).
(** calls that leave the publishes in flight alone: no QoS 1 or 2 publish, no cancellation *)
Definition leaves_session (o : op) : bool :=
  match o with OPublish p _ => qos_beq (p_qos p) Q0 | OCancel _ | ODisconnect => false | _ => true end.

(** calls of the loop thread, each with what the other threads do during it *)
Fixpoint c_run_each (G : cfg) (l : list (call * list (list op))) : Mo (option (list status)) :=
  match l with
  | [] => ret (Some [])
  | (c, sched) :: l' =>
      let* (r, _) := c_run_call G c (mkW false sched) in
      match r with
      | None => ret None
      | Some st => let* rs := c_run_each G l' in ret (option_map (cons st) rs)
      end
  end.
Definition is_loop (c : call) : bool := match c with CProcess | CReceive => true | _ => false end.
(** sound calls; MQTT_Disconnect by another thread, but not during a pass of a loop *)
Definition kept_apart (p : call * list (list op)) : Prop :=
  call_sound (fst p) /\ Forall (Forall op_sound) (snd p) /\ (is_loop (fst p) = true -> existsb (existsb is_disc) (snd p) = false).
