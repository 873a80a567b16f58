(** A network and a server for the client of Machine.v: the receiving side of QoS 1
    and QoS 2 (MQTT 3.1.1 sections 4.3.2 and 4.3.3, method A) for one session, behind channels that keep the
    order of packets and may lose any of them.  Simplification: the bytes the client reads
    after the CONNACK are not related to packets; a packet it has read is the next on its way.
    ByteSpec.v does without it.  Another: after a part of a packet nothing the client sends
    arrives on that connection.  FullSpec.v does without both. *)
From Verif Require Import Base StateSpec SerModel WireSpec SerHarness CoreModel CoreHarness Machine MachSpec.

(** the publish without its DUP flag *)
Definition undup (m : publish_msg) : publish_msg := mkPublish false (pm_qos m) (pm_retain m) (pm_topic m) (pm_id m) (pm_payload m).
(** the packet is the publish [m] *)
Definition reads_as (p : cpkt) (m : publish_msg) : Prop :=
  pkt_ok (KPublish m) /\ match p with KPublish m' => m' = m | KAgain _ bs => bs = publish_packet m | _ => False end.

(** ** The server *)
Record server : Type := mkServer {
  v_open : bool;               (* there is a session for this client *)
  v_held : list Z;             (* identifiers of QoS 2 publishes received and not released *)
  v_log : list publish_msg }.  (* QoS 1 and 2 messages passed on, oldest first *)
Definition holds_id (v : server) (id : Z) : bool := existsb (Z.eqb id) (v_held v).
(** the server handles a packet and answers *)
Inductive serves : server -> cpkt -> list (Z * list Z) -> server -> Prop :=
| v_connect v m : serves v (KConnect m) [] (mkServer true (v_held v) (v_log v))
| v_publish0 v p m : reads_as p m -> pm_qos m = Q0 -> serves v p [] v
| v_publish1 v p m : reads_as p m -> pm_qos m = Q1 -> serves v p [(64, be16 (pm_id m))] (mkServer (v_open v) (v_held v) (v_log v ++ [m]))
| v_publish2 v p m : reads_as p m -> pm_qos m = Q2 ->
    serves v p [(80, be16 (pm_id m))]
      (if holds_id v (pm_id m) then v else mkServer (v_open v) (pm_id m :: v_held v) (v_log v ++ [m]))
| v_pubrel v id : id_ok id ->
    serves v (KAck Pubrel id) [(112, be16 id)] (mkServer (v_open v) (filter (fun x => negb (x =? id)) (v_held v)) (v_log v))
| v_other v p : match p with KSubscribe _ _ | KUnsubscribe _ _ | KPing | KDisconnect | KAck (Puback | Pubrec | Pubcomp) _ => True | _ => False end ->
    serves v p [] v.

(** ** The network *)
Record net : Type := mkNet {
  n_up : list cpkt;               (* packets on their way to the server *)
  n_down : list (Z * list Z);     (* and to the client: type and body *)
  n_cut : bool;                   (* the client sent a part of a packet: no more arrives *)
  n_srv : server;
  n_ans : option Z;               (* the answer to the last CONNECT: session present *)
  n_read : list Z }.              (* bytes the client read since *)
Definition net0 : net := mkNet [] [] false (mkServer false [] []) None [].
Definition opens (p : cpkt) : bool := match p with KConnect _ => true | _ => false end.
(** what happens without the client.  Answers to packets of an earlier connection are lost. *)
Inductive nstep : net -> net -> Prop :=
| n_serve p u d c v a r rep v' : serves v p rep v' ->
    nstep (mkNet (p :: u) d c v a r)
      (mkNet u (if existsb opens u then d else d ++ rep) c v' (if opens p && negb (existsb opens u) then Some (if v_open v then 1 else 0) else a) r)
| n_lose_up u1 p u2 d c v a r : (opens p = true -> existsb opens u2 = true) -> nstep (mkNet (u1 ++ p :: u2) d c v a r) (mkNet (u1 ++ u2) d c v a r)
| n_lose_down u d1 x d2 c v a r : nstep (mkNet u (d1 ++ x :: d2) c v a r) (mkNet u (d1 ++ d2) c v a r)
| n_other ty body u d c v a r : ty <> 64 -> ty <> 80 -> ty <> 112 -> nstep (mkNet u d c v a r) (mkNet u (d ++ [(ty, body)]) c v a r).
(** what happens with the client *)
Inductive cstep : net -> tok -> net -> Prop :=
| c_connect m u d c v a r : cstep (mkNet u d c v a r) (Sent (KConnect m)) (mkNet (u ++ [KConnect m]) [] false v None [])
| c_connect_cut m e u d c v a r : cstep (mkNet u d c v a r) (Cut (KConnect m) e) (mkNet u [] true v None [])
| c_send p u d c v a r : opens p = false -> cstep (mkNet u d c v a r) (Sent p) (mkNet (if c then u else u ++ [p]) d c v a r)
| c_send_cut p e u d c v a r : opens p = false -> cstep (mkNet u d c v a r) (Cut p e) (mkNet u d true v a r)
(** the first bytes read on a connection are the server's CONNACK *)
| c_read bs u d c v a r : match a with None => bs = [] | Some sp => firstn 4 (r ++ bs) = firstn (length (r ++ bs)) [32; 2; sp; 0] end ->
    cstep (mkNet u d c v a r) (Did (EIn bs)) (mkNet u d c v a (r ++ bs))
| c_packet ty body u d c v a r : cstep (mkNet u ((ty, body) :: d) c v a r) (Did (EPkt ty body)) (mkNet u d c v a r)
| c_did e N : match e with EIn _ | EPkt _ _ => False | _ => True end -> cstep N (Did e) N.
(** the network after the client did [k] *)
Inductive Joint : list tok -> net -> Prop :=
| joint_nil : Joint [] net0
| joint_client k N x N' : Joint k N -> cstep N x N' -> Joint (k ++ [x]) N'
| joint_net k N N' : Joint k N -> nstep N N' -> Joint k N'.

(** ** The claim *)
(** QoS 2 messages with [id] the application published, and the server passed on *)
Definition is2 (id : Z) (m : publish_msg) : bool := qos_beq (pm_qos m) Q2 && (pm_id m =? id).
Definition published (id : Z) (k : list tok) : list publish_msg :=
  flat_map (fun x => match carries x with Some (KPublish m) => if is2 id m then [undup m] else [] | _ => [] end) k.
Definition passed_on (id : Z) (N : net) : list publish_msg := map undup (filter (is2 id) (v_log (n_srv N))).
(** one session: no CONNECT asks for a clean one *)
Definition one_session (k : list tok) : Prop := forall x m, In x k -> carries x = Some (KConnect m) -> cm_clean m = false.
(** the application leaves DUP to the library *)
Definition no_dups (k : list tok) : Prop := forall x m, In x k -> carries x = Some (KPublish m) -> pm_qos m <> Q0 -> pm_dup m = false.
(** the retrieve function returns the copy stored last, if it was stored *)
Definition keeps_copies (k : list tok) : Prop := forall k1 id bs k2, k = k1 ++ Did (ERetrieve id (Some bs)) :: k2 ->
  since (fun x => exists v, x = Did (EStore id v true) /\ concat v = bs) (fun x => forall v ok, x <> Did (EStore id v ok)) k1.
