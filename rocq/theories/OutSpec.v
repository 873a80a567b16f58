(** QoS 1 messages from the client to the server of NetSpec.v. *)
From Verif Require Import Base StateSpec SerModel WireSpec SerHarness CoreModel CoreHarness Machine MachSpec NetSpec.

(** QoS 1 messages with [id] the application published, and the server passed on *)
Definition is1 (id : Z) (m : publish_msg) : bool := qos_beq (pm_qos m) Q1 && (pm_id m =? id).
Definition published1 (id : Z) (k : list tok) : list publish_msg :=
  flat_map (fun x => match carries x with Some (KPublish m) => if is1 id m then [undup m] else [] | _ => [] end) k.
Definition arrived (id : Z) (N : net) : list publish_msg := map undup (filter (is1 id) (v_log (n_srv N))).
(** [xs] are the messages [ms] one after the other, each at least once *)
Inductive repeated : list publish_msg -> list publish_msg -> Prop :=
| repeated_nil : repeated [] []
| repeated_snoc ms xs m n : repeated ms xs -> repeated (ms ++ [m]) (xs ++ repeat m (S n)).
(** the application is told that a PUBACK for [id] came *)
Definition confirms (id : Z) (x : tok) : Prop := exists i d r, x = Did (ECb 64 (be16 id) i d r).
(** The claims of a run [k] that ends in the session [se].  With each identifier the
    messages arrived are the messages published, one after the other, each at least once, but
    for the last one perhaps; and that one too when the client has no record of it. *)
Definition delivered1 (k : list tok) (se : session) : Prop :=
  (forall k1 k2 N id, k = k1 ++ k2 -> Joint k1 N -> id_ok id -> exists ms rest, published1 id k1 = ms ++ rest /\ (length rest <= 1)%nat /\ repeated ms (arrived id N)) /\
  (forall N id, Joint k N -> id_ok id -> in_flight (sent se) id = false -> repeated (published1 id k) (arrived id N)).
(** When the application is told of a PUBACK for an identifier, all messages published with
    it before the PUBACK came have arrived. *)
Definition confirmed1 (k : list tok) : Prop :=
  forall k1 x k2 N id, k = k1 ++ x :: k2 -> Joint k N -> id_ok id -> confirms id x ->
    exists a c xs ys, k1 = a ++ Did (EPkt 64 (be16 id)) :: c /\ Forall (fun x => ~ comes x) c /\ arrived id N = xs ++ ys /\ repeated (published1 id a) xs.

(** Sending the session again is not disturbed: since bytes were last read, no publish with
    the identifier was stored or fetched. *)
Definition undisturbed (t : list ev) : Prop := forall t1 id r t2, t = t1 ++ ERetrieve id r :: t2 ->
  since (fun e => exists bs, e = EIn bs) (fun e => ~ stores id e /\ forall r', e <> ERetrieve id r') t1.
(** a publish with [id] was sent *)
Definition sends_id (id : Z) (x : tok) : Prop :=
  match x with Sent (KPublish m) => pm_qos m <> Q0 /\ pm_id m = id | Sent (KAgain i _) => i = id | _ => False end.
Definition calls_up (x : tok) : Prop := exists m, x = Sent (KConnect m).
(** no publish with [id] was sent on this connection *)
Definition unsent (id : Z) (l : list tok) : Prop := since calls_up (fun x => ~ sends_id id x) l.
(** on one connection a publish is not sent twice *)
Definition sent_once (k : list tok) : Prop := forall k1 id bs k2, k = k1 ++ Sent (KAgain id bs) :: k2 -> unsent id k1.
