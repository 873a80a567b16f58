(** A network and a server that sends publishes to the client of Machine.v: the sending
    side of QoS 1 and QoS 2 (MQTT 3.1.1 sections 4.3.2, 4.3.3 and 4.4) for one session, behind
    channels that keep the order of packets and may lose any of them.  The server sends a
    publish or PUBREL again once on each new connection (4.4), in any order.
    Simplification: the bytes the client reads after the CONNACK are not related to
    packets; a packet it has read is the next on its way.  ByteSpec.v does without it.
    Another: after a part of a packet nothing the client sends arrives on that connection.
    FullSpec.v does without both. *)
From Verif Require Import Base StateSpec SerModel WireSpec SerHarness CoreModel CoreHarness Machine MachSpec.

Definition no_dup (m : publish_msg) : publish_msg := mkPublish false (pm_qos m) (pm_retain m) (pm_topic m) (pm_id m) (pm_payload m).
Definition as_dup (m : publish_msg) : publish_msg := mkPublish true (pm_qos m) (pm_retain m) (pm_topic m) (pm_id m) (pm_payload m).

(** ** Packets to the client *)
Inductive dpkt : Type :=
| DPub (m : publish_msg)                  (* at QoS 1 or 2 *)
| DRel (id : Z)                           (* PUBREL *)
| DOther (ty : Z) (body : list Z).        (* anything else *)
Definition wire (d : dpkt) : Z * list Z :=
  match d with DPub m => (publish_first m, publish_body m) | DRel id => (98, be16 id) | DOther ty body => (ty, body) end.
Definition dpkt_ok (d : dpkt) : Prop :=
  match d with
  | DPub m => pkt_ok (KPublish m) /\ pm_qos m <> Q0
  | DRel id => id_ok id
  | DOther ty body => ty <> 98 /\ forall m, publish_means ty body m -> pm_qos m = Q0
  end.

(** ** The server *)
Record sender : Type := mkSender {
  w_open : bool;                          (* there is a session for this client *)
  w_fly : list (publish_msg * bool);      (* publishes in flight; true: PUBREC came *)
  w_due : list Z;                         (* identifiers to send again on this connection *)
  w_log : list publish_msg }.             (* all messages sent, oldest first *)
Definition flying (v : sender) (id : Z) : option (publish_msg * bool) := find (fun f => pm_id (fst f) =? id) (w_fly v).
Definition finish (v : sender) (id : Z) : sender :=
  mkSender (w_open v) (filter (fun f => negb (pm_id (fst f) =? id)) (w_fly v)) (w_due v) (w_log v).
Definition release (v : sender) (id : Z) : sender :=
  mkSender (w_open v) (map (fun f => if pm_id (fst f) =? id then (fst f, true) else f) (w_fly v)) (w_due v) (w_log v).
(** the server handles a packet and answers; it may ignore any but CONNECT *)
Inductive takes : sender -> cpkt -> list dpkt -> sender -> Prop :=
| t_connect v m : takes v (KConnect m) [] (mkSender true (w_fly v) (map (fun f => pm_id (fst f)) (w_fly v)) (w_log v))
| t_puback v id m : flying v id = Some (m, false) -> pm_qos m = Q1 -> takes v (KAck Puback id) [] (finish v id)
| t_pubrec v id m : flying v id = Some (m, false) -> pm_qos m = Q2 -> takes v (KAck Pubrec id) [DRel id] (release v id)
| t_pubcomp v id m : flying v id = Some (m, true) -> takes v (KAck Pubcomp id) [] (finish v id)
| t_ignore v p : match p with KConnect _ => False | _ => True end -> takes v p [] v.

(** ** The network *)
Record inet : Type := mkInet {
  i_up : list cpkt;               (* packets on their way to the server *)
  i_down : list dpkt;             (* and to the client *)
  i_cut : bool;                   (* the client sent a part of a packet: no more arrives *)
  i_srv : sender;
  i_ans : option Z;               (* the answer to the last CONNECT: session present *)
  i_read : list Z }.              (* bytes the client read since *)
Definition inet0 : inet := mkInet [] [] false (mkSender false [] [] []) None [].
Definition asks_in (p : cpkt) : bool := match p with KConnect _ => true | _ => false end.
(** what happens without the client.  Packets for an earlier connection are lost. *)
Inductive wstep : inet -> inet -> Prop :=
| w_take p u d c v a r rep v' : takes v p rep v' ->
    wstep (mkInet (p :: u) d c v a r)
      (mkInet u (if existsb asks_in u then d else d ++ rep) c v' (if asks_in p && negb (existsb asks_in u) then Some (if w_open v then 1 else 0) else a) r)
| w_lose_up u1 p u2 d c v a r : (asks_in p = true -> existsb asks_in u2 = true) -> wstep (mkInet (u1 ++ p :: u2) d c v a r) (mkInet (u1 ++ u2) d c v a r)
| w_lose_down u d1 x d2 c v a r : wstep (mkInet u (d1 ++ x :: d2) c v a r) (mkInet u (d1 ++ d2) c v a r)
(** a new message; its identifier is not in use *)
| w_new m u d c v a r : w_open v = true -> dpkt_ok (DPub m) -> pm_dup m = false -> flying v (pm_id m) = None ->
    wstep (mkInet u d c v a r)
      (mkInet u (if existsb asks_in u then d else d ++ [DPub m]) c (mkSender (w_open v) (w_fly v ++ [(m, false)]) (w_due v) (w_log v ++ [m])) a r)
(** the server sends again what it has not yet sent again on this connection *)
| w_again id m rel u d c v a r : In id (w_due v) -> flying v id = Some (m, rel) -> existsb asks_in u = false ->
    wstep (mkInet u d c v a r)
      (mkInet u (d ++ [if rel : bool then DRel id else DPub (as_dup m)]) c
        (mkSender (w_open v) (w_fly v) (filter (fun x => negb (x =? id)) (w_due v)) (w_log v)) a r)
| w_other ty body u d c v a r : dpkt_ok (DOther ty body) -> wstep (mkInet u d c v a r) (mkInet u (d ++ [DOther ty body]) c v a r).
(** what happens with the client *)
Inductive kstep : inet -> tok -> inet -> Prop :=
| k_connect m u d c v a r : kstep (mkInet u d c v a r) (Sent (KConnect m)) (mkInet (u ++ [KConnect m]) [] false v None [])
| k_connect_cut m e u d c v a r : kstep (mkInet u d c v a r) (Cut (KConnect m) e) (mkInet u [] true v None [])
| k_send p u d c v a r : asks_in p = false -> kstep (mkInet u d c v a r) (Sent p) (mkInet (if c then u else u ++ [p]) d c v a r)
| k_send_cut p e u d c v a r : asks_in p = false -> kstep (mkInet u d c v a r) (Cut p e) (mkInet u d true v a r)
(** the first bytes read on a connection are the server's CONNACK *)
| k_read bs u d c v a r : match a with None => bs = [] | Some sp => firstn 4 (r ++ bs) = firstn (length (r ++ bs)) [32; 2; sp; 0] end ->
    kstep (mkInet u d c v a r) (Did (EIn bs)) (mkInet u d c v a (r ++ bs))
| k_packet x u d c v a r : kstep (mkInet u (x :: d) c v a r) (Did (EPkt (fst (wire x)) (snd (wire x)))) (mkInet u d c v a r)
| k_did e N : match e with EIn _ | EPkt _ _ => False | _ => True end -> kstep N (Did e) N.
(** the network after the client did [k] *)
Inductive Linked : list tok -> inet -> Prop :=
| linked_nil : Linked [] inet0
| linked_client k N x N' : Linked k N -> kstep N x N' -> Linked (k ++ [x]) N'
| linked_net k N N' : Linked k N -> wstep N N' -> Linked k N'.
(** the network while the client goes on from [N0] *)
Inductive Onward (N0 : inet) : list tok -> inet -> Prop :=
| onward_nil : Onward N0 [] N0
| onward_client k N x N' : Onward N0 k N -> kstep N x N' -> Onward N0 (k ++ [x]) N'
| onward_net k N N' : Onward N0 k N -> wstep N N' -> Onward N0 k N'.

(** ** The claim *)
(** messages with [id] the server sent, and what of this the application was given *)
Definition messages (id : Z) (N : inet) : list publish_msg := filter (fun m => pm_id m =? id) (w_log (i_srv N)).
Definition hands (id : Z) (x : tok) : bool :=
  match x with Did (ECb _ _ i (Some d) Success) => negb (qos_beq (d_qos d) Q0) && (i =? id) | _ => false end.
Definition delivered (id : Z) (k : list tok) : list tok := filter (hands id) k.
(** the application is given the message [m] *)
Definition gives (m : publish_msg) (x : tok) : Prop :=
  exists m' d, x = Did (ECb (publish_first m') (publish_body m') (pm_id m) (Some d) Success) /\
    dpub_means (publish_body m') d (Some (pm_id m)) m' /\ no_dup m' = no_dup m.
(** the messages are given one after the other, each at least once, and just once at QoS 2 *)
Inductive handed : list publish_msg -> list tok -> Prop :=
| handed_nil : handed [] []
| handed_snoc ms xs m p : handed ms xs -> p <> [] -> Forall (gives m) p -> (pm_qos m = Q2 -> length p = 1%nat) -> handed (ms ++ [m]) (xs ++ p).
(** the server has no message with [id] that the client did not acknowledge with PUBACK or PUBREC *)
Definition acknowledged (id : Z) (N : inet) : Prop := forall m, flying (i_srv N) id <> Some (m, false).
(** one session: no CONNECT asks for a clean one *)
Definition same_session (k : list tok) : Prop := forall x m, In x k -> carries x = Some (KConnect m) -> cm_clean m = false.
