(** Words for what a client sends, reads and shows, in terms of the packets and events
    of Machine.v. *)
From Verif Require Import Base StateModel StateSpec SerModel WireSpec SerHarness CoreModel CoreHarness Machine.

(** something with [X] happened, and since then only things with [Y] *)
Definition since {T} (X Y : T -> Prop) (l : list T) : Prop := exists a x b, l = a ++ x :: b /\ X x /\ Forall Y b.

(** the packet of which all or a part was sent *)
Definition carries (x : tok) : option cpkt := match x with Sent p | Cut p _ => Some p | Did _ => None end.
Definition acks (x : tok) : Prop := exists k id, carries x = Some (KAck k id).
Definition comes (x : tok) : Prop := exists ty body, x = Did (EPkt ty body).
(** neither a packet received nor an acknowledgement sent *)
Definition quiet (x : tok) : Prop := ~ comes x /\ ~ acks x.
(** the received packet asks for the acknowledgement [k] with [id] (4.3) *)
Definition asks (ty : Z) (body : list Z) (k : acktype) (id : Z) : Prop :=
  match k with
  | Puback => exists m, publish_means ty body m /\ pm_qos m = Q1 /\ pm_id m = id
  | Pubrec => exists m, publish_means ty body m /\ pm_qos m = Q2 /\ pm_id m = id
  | Pubrel => ty = 80 /\ body = be16 id
  | Pubcomp => ty = 98 /\ body = be16 id
  end.
Definition asked (k : acktype) (id : Z) (x : tok) : Prop := exists ty body, x = Did (EPkt ty body) /\ asks ty body k id.

(** bytes read *)
Definition reads (l : list tok) : list Z := flat_map (fun x => match x with Did (EIn bs) => bs | _ => [] end) l.
Definition connects (x : tok) : Prop := exists m, carries x = Some (KConnect m).
(** since the last CONNECT, which asked for the old session, nothing was read but a
    CONNACK that says the server has it *)
Definition resuming (l : list tok) : Prop :=
  exists a m b, l = a ++ Sent (KConnect m) :: b /\ cm_clean m = false /\ reads b = [32; 2; 1; 0] /\
    Forall (fun x => ~ comes x /\ ~ connects x) b.

(** a connection: a CONNECT was sent and a CONNACK accepting it was read; since then the
    client has not sent DISCONNECT or another CONNECT *)
Definition leaves (x : tok) : Prop := carries x = Some KDisconnect \/ connects x.
Definition online (Y : tok -> Prop) (l : list tok) : Prop :=
  exists a m b sp bs, l = a ++ Sent (KConnect m) :: b /\ reads b = [32; 2; sp; 0] ++ bs /\ (sp = 0 \/ sp = 1 /\ cm_clean m = false) /\
    Forall (fun x => ~ leaves x /\ Y x) b.

Definition broken (x : tok) : Prop := exists p, x = Cut p true.

(** the application is told *)
Definition shown (x : tok) : Prop := exists ty body id d r, x = Did (ECb ty body id d r).
(** the application is told that a PUBCOMP for [id] came *)
Definition completes (id : Z) (x : tok) : Prop := exists i d r, x = Did (ECb 112 (be16 id) i d r).

(** a callback that says what the packet says *)
Definition tells (ty : Z) (body : list Z) (id : Z) (d : option dpub) (r : status) : Prop :=
  (exists m d', publish_means ty body m /\ d = Some d' /\ r = Success /\ id = pm_id m /\
     dpub_means body d' (match pm_qos m with Q0 => None | _ => Some (pm_id m) end) m) \/
  d = None /\
   (r = Success /\ id_ok id /\ body = be16 id /\ (ty = 64 \/ ty = 80 \/ ty = 98 \/ ty = 112 \/ ty = 176) \/
    ty = 144 /\ suback_result body = (r, Some id) /\ (r = Success \/ r = ServerRefused) \/
    ty = 208 /\ body = [] /\ id = 0 /\ r = Success).

(** [v] is the copy of a publish with [id] to be stored: DUP is set *)
Definition copy_of (id : Z) (v : list (list Z)) : Prop :=
  exists m, concat v = publish_packet m /\ pm_id m = id /\ pm_dup m = true /\ pm_qos m <> Q0 /\ pkt_ok (KPublish m).
Definition stores (id : Z) (e : ev) : Prop := exists v ok, e = EStore id v ok.
Definition reading (e : ev) : Prop := match e with EIn _ | EPkt _ _ => True | _ => False end.
(** while an acknowledgement for [id] is handled, no publish with [id] is stored before
    the stored copy is cleared *)
Definition tidy (t : list ev) : Prop :=
  forall a ty id b c, t = a ++ EPkt ty (be16 id) :: b ++ EClear id :: c -> Forall (fun e => ~ reading e) b -> ~ Exists (stores id) b.

(** [k] is a reading of the events [t] in which every packet is a legal one, and bytes
    stand for a stored copy only when they were just fetched to resume the session *)
Definition spells (t : list ev) (k : list tok) : Prop :=
  Says t k /\ forall k1 x k2 p, k = k1 ++ x :: k2 -> carries x = Some p ->
    pkt_ok p /\ (forall id bs, p = KAgain id bs -> In (Did (ERetrieve id (Some bs))) k1 /\ resuming k1).
