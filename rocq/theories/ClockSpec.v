(** How long the calls take, in milliseconds.  The clock script of CoreModel holds the
    true times of the readings, from some moment on and without wrapping; the client sees
    them modulo 2^32 ([getTime]). *)
From Verif Require Import Base StateModel SerModel CoreModel CoreTime.

(** [t0] is the time of the reading before, or of the call; from one reading to the next
    at most D ms pass (with everything done in between, the transport calls included) *)
Fixpoint paced (D t0 : Z) (l : list Z) : Prop :=
  match l with [] => True | t :: r => t0 <= t <= t0 + D /\ paced D t r end.

Section Costs.
Variable G : cfg.
Variable D : Z.
(** one message given to the transport *)
Definition send_ms : Z := g_sendto G + 3 * D.
(** n bytes read by recvExact: each may come just before the polling timeout *)
Definition read_ms (n : Z) : Z := D + (n + 1) * (g_poll G + D).
(** one byte of a packet that is skipped because it does not fit the buffer *)
Definition skip_ms : Z := 2 * g_poll G + 3 * D.
(** bytes of such packets *)
Definition skipped (t : list ev) : Z := fold_right (fun e n => match e with EDrop _ rem => rem + 5 + n | _ => n end) 0 t.
(** a call: N outgoing records, buffer of B bytes, at most K messages from one callback *)
Definition call_ms (N B K : Z) (c : call) : Z := match c with
  | COp o => op_msgs o * send_ms
  | CConnect _ _ timeoutMs => timeoutMs + 5 * D + read_ms B + (2 * N + 2) * send_ms
  | CProcess => (K + 2) * send_ms + 2 * D
  | CReceive => (K + 1) * send_ms + D end.
End Costs.

(** no timeout is hidden by a wrap of the 32-bit clock *)
Definition pace_suits (G : cfg) (D : Z) : Prop :=
  0 <= D /\ 0 <= g_sendto G /\ 0 <= g_poll G /\ g_sendto G + 2 * D < 4294967296 /\ g_poll G + D < 4294967296.
Definition call_paced (G : cfg) (D B : Z) (c : call) : Prop :=
  match c with CConnect _ _ timeoutMs => 0 <= timeoutMs /\ timeoutMs + read_ms G D B + 2 * D < 4294967296 | _ => True end.
