(** The networks of NetSpec.v and InSpec.v on the level of bytes: what the server sends on a
    connection is a stream of bytes, its CONNACK and then its packets, and each read of the
    client takes the next bytes of the stream of its last connection.  Which packets the client
    makes of the bytes is left open here: it follows from the code. *)
From Verif Require Import Base StateSpec SerModel WireSpec SerHarness CoreModel CoreHarness Machine MachSpec NetSpec OutSpec InSpec ConcModel CoreSpec.

(** packets the client can tell from one another: a known type, a length that can be written *)
Definition sendable (x : Z * list Z) : Prop := first_ok (fst x) /\ zlen (snd x) <= max_remaining.
Definition enc (x : Z * list Z) : list Z := packet (fst x) (snd x).
(** what the server sends on a connection: the answer to CONNECT, and packets *)
Definition stream (ans : option Z) (l : list (Z * list Z)) : list Z :=
  match ans with Some sp => [32; 2; sp; 0] ++ flat_map enc l | None => [] end.
Definition prefix {A} (a b : list A) : Prop := exists r, b = a ++ r.

(** ** The client sends (NetSpec.v, OutSpec.v) *)
Record bnet : Type := mkB {
  b_up : list cpkt;               (* packets on their way to the server *)
  b_sent : list (Z * list Z);     (* what the server sent on this connection, oldest first *)
  b_cut : bool;                   (* the client sent a part of a packet: no more arrives *)
  b_srv : server;
  b_ans : option Z;               (* the answer to the last CONNECT: session present *)
  b_read : list Z }.              (* bytes the client read since *)
Definition bnet0 : bnet := mkB [] [] false (mkServer false [] []) None [].
Inductive bstep : bnet -> bnet -> Prop :=
| b_serve p u d c v a r rep v' : serves v p rep v' ->
    bstep (mkB (p :: u) d c v a r)
      (mkB u (if existsb opens u then d else d ++ rep) c v' (if opens p && negb (existsb opens u) then Some (if v_open v then 1 else 0) else a) r)
| b_lose_up u1 p u2 d c v a r : (opens p = true -> existsb opens u2 = true) -> bstep (mkB (u1 ++ p :: u2) d c v a r) (mkB (u1 ++ u2) d c v a r)
| b_other ty body u d c v a r : ty <> 64 -> ty <> 80 -> ty <> 112 -> sendable (ty, body) -> bstep (mkB u d c v a r) (mkB u (d ++ [(ty, body)]) c v a r).
Inductive bcstep : bnet -> tok -> bnet -> Prop :=
| bc_connect m u d c v a r : bcstep (mkB u d c v a r) (Sent (KConnect m)) (mkB (u ++ [KConnect m]) [] false v None [])
| bc_connect_cut m e u d c v a r : bcstep (mkB u d c v a r) (Cut (KConnect m) e) (mkB u [] true v None [])
| bc_send p u d c v a r : opens p = false -> bcstep (mkB u d c v a r) (Sent p) (mkB (if c then u else u ++ [p]) d c v a r)
| bc_send_cut p e u d c v a r : opens p = false -> bcstep (mkB u d c v a r) (Cut p e) (mkB u d true v a r)
| bc_read bs u d c v a r : prefix (r ++ bs) (stream a d) -> bcstep (mkB u d c v a r) (Did (EIn bs)) (mkB u d c v a (r ++ bs))
| bc_did e B : match e with EIn _ => False | _ => True end -> bcstep B (Did e) B.
(** the network after the client did [k] *)
Inductive BJoint : list tok -> bnet -> Prop :=
| bjoint_nil : BJoint [] bnet0
| bjoint_client k B x B' : BJoint k B -> bcstep B x B' -> BJoint (k ++ [x]) B'
| bjoint_net k B B' : BJoint k B -> bstep B B' -> BJoint k B'.
(** QoS 2 and QoS 1 messages the server passed on *)
Definition b_passed_on (id : Z) (B : bnet) : list publish_msg := map undup (filter (is2 id) (v_log (b_srv B))).
Definition b_arrived (id : Z) (B : bnet) : list publish_msg := map undup (filter (is1 id) (v_log (b_srv B))).

(** ** The server sends (InSpec.v) *)
Record binet : Type := mkBI {
  bi_up : list cpkt;
  bi_sent : list dpkt;            (* what the server sent on this connection, oldest first *)
  bi_cut : bool;
  bi_srv : sender;
  bi_ans : option Z;
  bi_read : list Z }.
Definition binet0 : binet := mkBI [] [] false (mkSender false [] [] []) None [].
Inductive bwstep : binet -> binet -> Prop :=
| bw_take p u d c v a r rep v' : takes v p rep v' ->
    bwstep (mkBI (p :: u) d c v a r)
      (mkBI u (if existsb asks_in u then d else d ++ rep) c v' (if asks_in p && negb (existsb asks_in u) then Some (if w_open v then 1 else 0) else a) r)
| bw_lose_up u1 p u2 d c v a r : (asks_in p = true -> existsb asks_in u2 = true) -> bwstep (mkBI (u1 ++ p :: u2) d c v a r) (mkBI (u1 ++ u2) d c v a r)
| bw_new m u d c v a r : w_open v = true -> dpkt_ok (DPub m) -> pm_dup m = false -> flying v (pm_id m) = None ->
    bwstep (mkBI u d c v a r)
      (mkBI u (if existsb asks_in u then d else d ++ [DPub m]) c (mkSender (w_open v) (w_fly v ++ [(m, false)]) (w_due v) (w_log v ++ [m])) a r)
| bw_again id m rel u d c v a r : In id (w_due v) -> flying v id = Some (m, rel) -> existsb asks_in u = false ->
    bwstep (mkBI u d c v a r)
      (mkBI u (d ++ [if rel : bool then DRel id else DPub (as_dup m)]) c
        (mkSender (w_open v) (w_fly v) (filter (fun x => negb (x =? id)) (w_due v)) (w_log v)) a r)
| bw_other ty body u d c v a r : dpkt_ok (DOther ty body) -> sendable (ty, body) -> bwstep (mkBI u d c v a r) (mkBI u (d ++ [DOther ty body]) c v a r).
Inductive bkstep : binet -> tok -> binet -> Prop :=
| bk_connect m u d c v a r : bkstep (mkBI u d c v a r) (Sent (KConnect m)) (mkBI (u ++ [KConnect m]) [] false v None [])
| bk_connect_cut m e u d c v a r : bkstep (mkBI u d c v a r) (Cut (KConnect m) e) (mkBI u [] true v None [])
| bk_send p u d c v a r : asks_in p = false -> bkstep (mkBI u d c v a r) (Sent p) (mkBI (if c then u else u ++ [p]) d c v a r)
| bk_send_cut p e u d c v a r : asks_in p = false -> bkstep (mkBI u d c v a r) (Cut p e) (mkBI u d true v a r)
| bk_read bs u d c v a r : prefix (r ++ bs) (stream a (map wire d)) -> bkstep (mkBI u d c v a r) (Did (EIn bs)) (mkBI u d c v a (r ++ bs))
| bk_did e B : match e with EIn _ => False | _ => True end -> bkstep B (Did e) B.
Inductive BLinked : list tok -> binet -> Prop :=
| blinked_nil : BLinked [] binet0
| blinked_client k B x B' : BLinked k B -> bkstep B x B' -> BLinked (k ++ [x]) B'
| blinked_net k B B' : BLinked k B -> bwstep B B' -> BLinked k B'.
Definition b_messages (id : Z) (B : binet) : list publish_msg := filter (fun m => pm_id m =? id) (w_log (bi_srv B)).
Definition b_acknowledged (id : Z) (B : binet) : Prop := forall m, flying (bi_srv B) id <> Some (m, false).

(** ** The application *)
(** The loops are called only on a connection, and no more after one of them has returned
    MQTTRecvFailed, until MQTT_Connect is called for a new one. *)
Definition loop_call (c : call) : bool := match c with CProcess | CReceive => true | _ => false end.
Definition conn_call (c : call) : bool := match c with CConnect _ _ _ => true | _ => false end.
Definition still (ok : bool) (c : call) (s : st) (r : status) : bool :=
  if conn_call c && cstatus_beq (x_status (s_ctx s)) NotConnected then true else ok && not_recv_failed r.
Fixpoint careful (G : cfg) (ok : bool) (l : list call) (w : world) (s : st) : Prop :=
  match l with
  | [] => True
  | c :: l => (loop_call c = true -> x_status (s_ctx s) <> NotConnected /\ ok = true) /\
      match c_run_call G c w s with
      | Ret (Some r, w') s' _ => careful G (still ok c s r) l w' s'
      | _ => True
      end
  end.
(** the same without other threads *)
Fixpoint careful1 (G : cfg) (ok : bool) (l : list call) (s : st) : Prop :=
  match l with
  | [] => True
  | c :: l => (loop_call c = true -> x_status (s_ctx s) <> NotConnected /\ ok = true) /\
      match run_call G c s with
      | Ret r s' _ => careful1 G (still ok c s r) l s'
      | _ => True
      end
  end.

(** ** The claims of OutSpec.v, with this network *)
Definition b_delivered1 (k : list tok) (se : session) : Prop :=
  (forall k1 k2 B id, k = k1 ++ k2 -> BJoint k1 B -> id_ok id -> exists ms rest, published1 id k1 = ms ++ rest /\ (length rest <= 1)%nat /\ repeated ms (b_arrived id B)) /\
  (forall B id, BJoint k B -> id_ok id -> in_flight (sent se) id = false -> repeated (published1 id k) (b_arrived id B)).
Definition b_confirmed1 (k : list tok) : Prop :=
  forall k1 x k2 B id, k = k1 ++ x :: k2 -> BJoint k B -> id_ok id -> confirms id x ->
    exists a c xs ys, k1 = a ++ Did (EPkt 64 (be16 id)) :: c /\ Forall (fun x => ~ comes x) c /\ b_arrived id B = xs ++ ys /\ repeated (published1 id a) xs.

(** ** The packets the client takes from a connection *)
(** what was done since the last CONNECT *)
Definition begins (x : tok) : bool := match carries x with Some p => opens p | None => false end.
Definition recent_step (acc : list tok) (x : tok) : list tok := if begins x then [] else acc ++ [x].
Definition recent (k : list tok) : list tok := fold_left recent_step k [].
(** the packets handled, and those too large for the buffer *)
Definition titems (k : list tok) : list item :=
  flat_map (fun x => match x with Did (EPkt ty d) => [Whole ty d] | Did (EDrop ty rl) => [Skipped ty rl] | _ => [] end) k.
Definition is_item (p : Z * list Z) (i : item) : Prop :=
  match i with Whole ty body => p = (ty, body) | Skipped ty rl => fst p = ty /\ zlen (snd p) = rl end.
