(** The network of ByteSpec.v with bytes in both directions.  Each connection has a stream of
    bytes to the server, of which a first part arrives; the server reads packets from it as
    long as it finds legal ones, and then those of a later connection.  It does not know where
    the client's packets end but from the bytes. *)
From Verif Require Import Base StateSpec SerModel WireSpec SerHarness CoreModel CoreHarness Machine MachSpec NetSpec OutSpec InSpec ConcModel CoreSpec WireProofs ByteSpec.

Record strm : Type := mkS {
  t_bytes : list Z;      (* bytes on their way to the server *)
  t_alive : bool;        (* more can follow *)
  t_half : bool }.       (* a send timed out *)
Record fnet : Type := mkF {
  f_up : list strm;               (* one for each connection, oldest first *)
  f_sent : list (Z * list Z);     (* what the server sent on the last connection *)
  f_srv : server;
  f_ans : option Z;
  f_read : list Z }.
Definition fnet0 : fnet := mkF [mkS [] false false] [] (mkServer false [] []) None [].
Definition alone {A} (l : list A) : bool := match l with [] => true | _ => false end.
(** what happens without the client *)
Inductive fstep : fnet -> fnet -> Prop :=
(** the server reads a packet of the oldest connection; it answers when that is the last one *)
| f_serve p r al ha ss d v a rd rep v' : standard p -> serves v p rep v' ->
    fstep (mkF (mkS (bytes p ++ r) al ha :: ss) d v a rd)
      (mkF (mkS r al ha :: ss) (if alone ss then d ++ rep else d) v' (if opens p && alone ss then Some (if v_open v then 1 else 0) else a) rd)
(** or turns to a later connection *)
| f_next s s' ss d v a rd : fstep (mkF (s :: s' :: ss) d v a rd) (mkF (s' :: ss) d v a rd)
(** a connection breaks: a first part of the bytes arrives, and no more *)
| f_break s1 r r' al ha s2 d v a rd : fstep (mkF (s1 ++ mkS (r ++ r') al ha :: s2) d v a rd) (mkF (s1 ++ mkS r false ha :: s2) d v a rd)
| f_other ty body u d v a rd : ty <> 64 -> ty <> 80 -> ty <> 112 -> sendable (ty, body) -> fstep (mkF u d v a rd) (mkF u (d ++ [(ty, body)]) v a rd).
Definition give (s : strm) (bs : list Z) (al ha : bool) : strm := if t_alive s then mkS (t_bytes s ++ bs) al ha else s.
(** What happens with the client.  After an error of the transport its connection is broken.
    [strict]: after a send that timed out nothing is sent on a connection that is not broken. *)
Definition may_send (strict : bool) (s : strm) : Prop := strict = true -> t_alive s && t_half s = false.
Inductive fcstep (strict : bool) : fnet -> tok -> fnet -> Prop :=
| fc_connect m u d v a rd : fcstep strict (mkF u d v a rd) (Sent (KConnect m)) (mkF (u ++ [mkS (bytes (KConnect m)) true false]) [] v None [])
| fc_connect_cut m e b c u d v a rd : bytes (KConnect m) = b ++ c -> c <> [] ->
    fcstep strict (mkF u d v a rd) (Cut (KConnect m) e) (mkF (u ++ [mkS b (negb e) true]) [] v None [])
| fc_send p u s d v a rd : opens p = false -> may_send strict s ->
    fcstep strict (mkF (u ++ [s]) d v a rd) (Sent p) (mkF (u ++ [give s (bytes p) true (t_half s)]) d v a rd)
| fc_send_cut p e b c u s d v a rd : opens p = false -> may_send strict s -> bytes p = b ++ c -> c <> [] ->
    fcstep strict (mkF (u ++ [s]) d v a rd) (Cut p e) (mkF (u ++ [give s b (negb e) true]) d v a rd)
| fc_read bs u d v a rd : prefix (rd ++ bs) (stream a d) -> fcstep strict (mkF u d v a rd) (Did (EIn bs)) (mkF u d v a (rd ++ bs))
| fc_did e F : match e with EIn _ => False | _ => True end -> fcstep strict F (Did e) F.
(** the network after the client did [k] *)
Inductive FJoint (strict : bool) : list tok -> fnet -> Prop :=
| fjoint_nil : FJoint strict [] fnet0
| fjoint_client k F x F' : FJoint strict k F -> fcstep strict F x F' -> FJoint strict (k ++ [x]) F'
| fjoint_net k F F' : FJoint strict k F -> fstep F F' -> FJoint strict k F'.
(** QoS 2 and QoS 1 messages the server passed on *)
Definition f_passed_on (id : Z) (F : fnet) : list publish_msg := map undup (filter (is2 id) (v_log (f_srv F))).
Definition f_arrived (id : Z) (F : fnet) : list publish_msg := map undup (filter (is1 id) (v_log (f_srv F))).
(** as in ByteSpec.v *)
Definition f_delivered1 (k : list tok) (se : session) : Prop :=
  (forall k1 k2 F id, k = k1 ++ k2 -> FJoint true k1 F -> id_ok id -> exists ms rest, published1 id k1 = ms ++ rest /\ (length rest <= 1)%nat /\ repeated ms (f_arrived id F)) /\
  (forall F id, FJoint true k F -> id_ok id -> in_flight (sent se) id = false -> repeated (published1 id k) (f_arrived id F)).
Definition f_confirmed1 (k : list tok) : Prop :=
  forall k1 x k2 F id, k = k1 ++ x :: k2 -> FJoint true k F -> id_ok id -> confirms id x ->
    exists a c xs ys, k1 = a ++ Did (EPkt 64 (be16 id)) :: c /\ Forall (fun x => ~ comes x) c /\ f_arrived id F = xs ++ ys /\ repeated (published1 id a) xs.
(** no send times out *)
Definition no_timeouts (k : list tok) : Prop := forall p, ~ In (Cut p false) k.

(** ** Messages of the server *)
Record hnet : Type := mkH {
  h_up : list strm;
  h_sent : list dpkt;
  h_srv : sender;
  h_ans : option Z;
  h_read : list Z }.
Definition hnet0 : hnet := mkH [mkS [] false false] [] (mkSender false [] [] []) None [].
Definition answered (a : option Z) : bool := match a with Some _ => true | None => false end.
Inductive hstep : hnet -> hnet -> Prop :=
| h_take p r al ha ss d v a rd rep v' : standard p -> takes v p rep v' ->
    hstep (mkH (mkS (bytes p ++ r) al ha :: ss) d v a rd)
      (mkH (mkS r al ha :: ss) (if alone ss then d ++ rep else d) v' (if asks_in p && alone ss then Some (if w_open v then 1 else 0) else a) rd)
| h_next s s' ss d v a rd : hstep (mkH (s :: s' :: ss) d v a rd) (mkH (s' :: ss) d v a rd)
| h_break s1 r r' al ha s2 d v a rd : hstep (mkH (s1 ++ mkS (r ++ r') al ha :: s2) d v a rd) (mkH (s1 ++ mkS r false ha :: s2) d v a rd)
(** a new message; it goes to the last connection when the server has accepted that *)
| h_new m u d v a rd : w_open v = true -> dpkt_ok (DPub m) -> pm_dup m = false -> flying v (pm_id m) = None ->
    hstep (mkH u d v a rd) (mkH u (if answered a then d ++ [DPub m] else d) (mkSender (w_open v) (w_fly v ++ [(m, false)]) (w_due v) (w_log v ++ [m])) a rd)
| h_again id m rel u d v a rd : In id (w_due v) -> flying v id = Some (m, rel) -> answered a = true ->
    hstep (mkH u d v a rd)
      (mkH u (d ++ [if rel : bool then DRel id else DPub (as_dup m)]) (mkSender (w_open v) (w_fly v) (filter (fun x => negb (x =? id)) (w_due v)) (w_log v)) a rd)
| h_other ty body u d v a rd : dpkt_ok (DOther ty body) -> sendable (ty, body) -> hstep (mkH u d v a rd) (mkH u (d ++ [DOther ty body]) v a rd).
Inductive hcstep (strict : bool) : hnet -> tok -> hnet -> Prop :=
| hc_connect m u d v a rd : hcstep strict (mkH u d v a rd) (Sent (KConnect m)) (mkH (u ++ [mkS (bytes (KConnect m)) true false]) [] v None [])
| hc_connect_cut m e b c u d v a rd : bytes (KConnect m) = b ++ c -> c <> [] ->
    hcstep strict (mkH u d v a rd) (Cut (KConnect m) e) (mkH (u ++ [mkS b (negb e) true]) [] v None [])
| hc_send p u s d v a rd : asks_in p = false -> may_send strict s ->
    hcstep strict (mkH (u ++ [s]) d v a rd) (Sent p) (mkH (u ++ [give s (bytes p) true (t_half s)]) d v a rd)
| hc_send_cut p e b c u s d v a rd : asks_in p = false -> may_send strict s -> bytes p = b ++ c -> c <> [] ->
    hcstep strict (mkH (u ++ [s]) d v a rd) (Cut p e) (mkH (u ++ [give s b (negb e) true]) d v a rd)
| hc_read bs u d v a rd : prefix (rd ++ bs) (stream a (map wire d)) -> hcstep strict (mkH u d v a rd) (Did (EIn bs)) (mkH u d v a (rd ++ bs))
| hc_did e F : match e with EIn _ => False | _ => True end -> hcstep strict F (Did e) F.
Inductive HLinked (strict : bool) : list tok -> hnet -> Prop :=
| hlinked_nil : HLinked strict [] hnet0
| hlinked_client k F x F' : HLinked strict k F -> hcstep strict F x F' -> HLinked strict (k ++ [x]) F'
| hlinked_net k F F' : HLinked strict k F -> hstep F F' -> HLinked strict k F'.
Definition h_messages (id : Z) (F : hnet) : list publish_msg := filter (fun m => pm_id m =? id) (w_log (h_srv F)).
Definition h_acknowledged (id : Z) (F : hnet) : Prop := forall m, flying (h_srv F) id <> Some (m, false).
