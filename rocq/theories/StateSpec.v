(** Independent specification of the QoS 1/2 bookkeeping.

    An "in-flight set" is just an ordered list of publishes (oldest first) with a
    maximum size.  Nothing here mentions array slots, holes or compaction.  The
    QoS exchanges are written down as a table taken from MQTT 3.1.1 section 4.3. *)
From Verif Require Import Base.

Record flight : Type := F { f_id : Z; f_qos : qos; f_st : pstate }.

Definition in_flight (l : list flight) (id : Z) : bool := existsb (fun f => f_id f =? id) l.
Definition lookup (l : list flight) (id : Z) : option flight := find (fun f => f_id f =? id) l.
Definition ids (l : list flight) : list Z := map f_id l.

(** Start tracking a publish: refuse ids in use, then refuse when full. *)
Definition spec_add (cap : nat) (l : list flight) (id : Z) (q : qos) (st : pstate)
  : status * list flight :=
  if in_flight l id then (StateCollision, l)
  else if (length l <? cap)%nat then (Success, l ++ [F id q st]) else (NoMemory, l).

Definition spec_drop (l : list flight) (id : Z) : list flight :=
  filter (fun f => negb (f_id f =? id)) l.
Definition spec_set (l : list flight) (id : Z) (st : pstate) : list flight :=
  map (fun f => if f_id f =? id then F (f_id f) (f_qos f) st else f) l.

(** What an acknowledgement does to the publish it belongs to. *)
Inductive action : Type :=
| Goto (s : pstate)        (* next step of the exchange *)
| GotoBack (s : pstate)    (* next step, and the publish becomes the youngest *)
| Stay                     (* permitted repetition *)
| Finish                   (* exchange complete: id is free again *)
| Refuse.                  (* protocol violation *)

(** Publishes we send (sender side of MQTT 3.1.1 figures 4.2 and 4.3). *)
Definition sender_table (q : qos) (s : pstate) (t : acktype) (op : stateop) : action :=
  match q, s, t, op with
  | Q1, PubAckPending,  Puback,  OpReceive => Finish
  | Q2, PubRecPending,  Pubrec,  OpReceive => GotoBack PubRelSend
  | Q2, PubRelSend,     Pubrel,  OpSend    => Goto PubCompPending
  | Q2, PubCompPending, Pubrel,  OpSend    => Stay
  | Q2, PubCompPending, Pubcomp, OpReceive => Finish
  | _, _, _, _ => Refuse
  end.

(** Publishes we receive (receiver side). *)
Definition receiver_table (q : qos) (s : pstate) (t : acktype) (op : stateop) : action :=
  match q, s, t, op with
  | Q1, PubAckSend,    Puback,  OpSend    => Finish
  | Q2, PubRecSend,    Pubrec,  OpSend    => Goto PubRelPending
  | Q2, PubRelPending, Pubrec,  OpSend    => Stay
  | Q2, PubRelPending, Pubrel,  OpReceive => Goto PubCompSend
  | Q2, PubCompSend,   Pubrel,  OpReceive => Stay
  | Q2, PubCompSend,   Pubcomp, OpSend    => Finish
  | _, _, _, _ => Refuse
  end.

(** An ack concerns a publish we send when it is a PUBACK, PUBREC or PUBCOMP we
    receive or a PUBREL we send; otherwise one we receive. *)
Definition concerns_sent (t : acktype) (op : stateop) : bool :=
  match t, op with
  | Pubrel, OpSend => true
  | Pubrel, OpReceive => false
  | _, OpReceive => true
  | _, OpSend => false
  end.

(** Apply an action: (status, reported state, new in-flight list). *)
Definition apply_action (l : list flight) (f : flight) (a : action)
  : status * option pstate * list flight :=
  match a with
  | Goto s => (Success, Some s, spec_set l (f_id f) s)
  | GotoBack s => (Success, Some s, spec_drop l (f_id f) ++ [F (f_id f) (f_qos f) s])
  | Stay => (Success, Some (f_st f), l)
  | Finish => (Success, Some PublishDone, spec_drop l (f_id f))
  | Refuse => (IllegalState, None, l)
  end.

(** The whole session: publishes we send and publishes we receive. *)
Record session : Type :=
  mkSession { cap_out : nat; sent : list flight; cap_in : nat; recvd : list flight }.

Inductive sop : Type :=
| Reserve (id : Z) (q : qos)              (* a publish is about to be sent        *)
| Published (id : Z) (op : stateop) (q : qos) (* a PUBLISH was sent / was received *)
| Acked (id : Z) (t : acktype) (op : stateop) (* an ack was sent / was received    *)
| Cancel (id : Z)                         (* forget an outgoing publish           *)
| NewSession.                             (* the server starts a new session      *)

Definition spec_step (s : session) (o : sop) : (status * option pstate) * session :=
  match o with
  | Reserve id q =>
      if qos_beq q Q0 then ((Success, None), s)
      else if id =? 0 then ((BadParameter, None), s)
      else let '(st, l) := spec_add (cap_out s) (sent s) id q PublishSend in
           ((st, None), mkSession (cap_out s) l (cap_in s) (recvd s))
  | Published _ _ Q0 => ((Success, Some PublishDone), s)
  | Published id OpSend q =>
      if id =? 0 then ((BadParameter, None), s) else
      match lookup (sent s) id with
      | None => ((BadParameter, None), s)
      | Some f =>
          if negb (qos_beq (f_qos f) q) then ((BadParameter, None), s)
          else
            let next := match q with Q1 => PubAckPending | _ => PubRecPending end in
            match f_st f with
            | PublishSend =>
                ((Success, Some next),
                 mkSession (cap_out s) (spec_set (sent s) id next) (cap_in s) (recvd s))
            | PubAckPending | PubRecPending => ((Success, Some next), s)
            | _ => ((IllegalState, None), s)
            end
      end
  | Published id OpReceive q =>
      if id =? 0 then ((BadParameter, None), s) else
      let next := match q with Q1 => PubAckSend | _ => PubRecSend end in
      let '(st, l) := spec_add (cap_in s) (recvd s) id q next in
      ((st, if status_beq st Success then Some next else None),
       mkSession (cap_out s) (sent s) (cap_in s) l)
  | Acked id t op =>
      if id =? 0 then ((BadParameter, None), s)
      else if concerns_sent t op
      then match lookup (sent s) id with
           | None => ((BadResponse, None), s)
           | Some f =>
               let '(st, ns, l) := apply_action (sent s) f (sender_table (f_qos f) (f_st f) t op) in
               ((st, ns), mkSession (cap_out s) l (cap_in s) (recvd s))
           end
      else match lookup (recvd s) id with
           | None => ((BadResponse, None), s)
           | Some f =>
               let '(st, ns, l) := apply_action (recvd s) f (receiver_table (f_qos f) (f_st f) t op) in
               ((st, ns), mkSession (cap_out s) (sent s) (cap_in s) l)
           end
  | Cancel id =>
      match lookup (sent s) id with
      | None => ((BadParameter, None), s)
      | Some _ => ((Success, None),
                   mkSession (cap_out s) (spec_drop (sent s) id) (cap_in s) (recvd s))
      end
  | NewSession => ((Success, None), mkSession (cap_out s) [] (cap_in s) [])
  end.

Fixpoint spec_run (s : session) (ops : list sop) : list (status * option pstate) * session :=
  match ops with
  | [] => ([], s)
  | o :: t => let '(r, s1) := spec_step s o in
              let '(rs, s2) := spec_run s1 t in (r :: rs, s2)
  end.

Definition fresh_session (n m : nat) : session := mkSession n [] m [].

(** ** Two queues: the history-only description of what must be retransmitted.
    They look only at the calls made and the statuses returned. *)

(** ids of publishes not yet acknowledged, in the order they were reserved *)
Fixpoint publish_queue (h : list (sop * (status * option pstate))) (q : list Z) : list Z :=
  match h with
  | [] => q
  | (Reserve id (Q1 | Q2), (Success, _)) :: t => publish_queue t (q ++ [id])
  | (Acked id (Puback | Pubrec) OpReceive, (Success, _)) :: t =>
      publish_queue t (filter (fun x => negb (x =? id)) q)
  | (Cancel id, (Success, _)) :: t => publish_queue t (filter (fun x => negb (x =? id)) q)
  | (NewSession, _) :: t => publish_queue t []
  | _ :: t => publish_queue t q
  end.

(** ids of QoS 2 publishes whose PUBREC was received and whose PUBCOMP was not, in
    the order the PUBRECs were received *)
Fixpoint pubrel_queue (h : list (sop * (status * option pstate))) (q : list Z) : list Z :=
  match h with
  | [] => q
  | (Acked id Pubrec OpReceive, (Success, _)) :: t => pubrel_queue t (q ++ [id])
  | (Acked id Pubcomp OpReceive, (Success, _)) :: t =>
      pubrel_queue t (filter (fun x => negb (x =? id)) q)
  | (Cancel id, (Success, _)) :: t => pubrel_queue t (filter (fun x => negb (x =? id)) q)
  | (NewSession, _) :: t => pubrel_queue t []
  | _ :: t => pubrel_queue t q
  end.

(** Repeated calls of a "next id to resend" function from a cursor, until it
    returns 0, list these ids. *)
Inductive Walk (next : nat -> Z * nat) : nat -> list Z -> Prop :=
| Walk_end c c' : next c = (0, c') -> Walk next c []
| Walk_step c c' id l : next c = (id, c') -> id <> 0 -> Walk next c' l -> Walk next c (id :: l).
