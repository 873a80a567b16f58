(** Requests and their answers: SUBSCRIBE and SUBACK, UNSUBSCRIBE and UNSUBACK, PINGREQ and
    PINGRESP, on the last connection of the client, with bytes in both directions (FullSpec.v).
    The server reads the requests from the bytes that arrive and answers them, each at most once
    and in any order. *)
From Coq Require Import Permutation.
From Verif Require Import Base StateSpec SerModel WireSpec SerHarness CoreModel CoreHarness Machine MachSpec NetSpec OutSpec InSpec ConcModel CoreSpec WireProofs ByteSpec FullSpec.

Definition request (p : cpkt) : bool := match p with KSubscribe _ _ | KUnsubscribe _ _ | KPing => true | _ => false end.
(** a SUBACK has a return code for each topic filter *)
Inductive answer_to : cpkt -> Z * list Z -> Prop :=
| an_sub id fs codes : length codes = length fs -> answer_to (KSubscribe id fs) (144, be16 id ++ codes)
| an_unsub id fs : answer_to (KUnsubscribe id fs) (176, be16 id)
| an_ping : answer_to KPing (208, []).
Definition answers_type (ty : Z) : bool := (ty =? 144) || (ty =? 176) || (ty =? 208).
(** the last connection *)
Record rnet : Type := mkR {
  r_up : strm;
  r_due : list cpkt;              (* requests the server has read and not answered *)
  r_sent : list (Z * list Z);
  r_ans : option Z;
  r_read : list Z }.
Definition rnet0 : rnet := mkR (mkS [] false false) [] [] None [].
Definition due_of (p : cpkt) : list cpkt := if request p then [p] else [].
Inductive rstep : rnet -> rnet -> Prop :=
| r_take p r al ha du d a rd sp : standard p ->
    rstep (mkR (mkS (bytes p ++ r) al ha) du d a rd)
      (mkR (mkS r al ha) (du ++ due_of p) d (match a with None => if opens p then Some sp else None | Some _ => a end) rd)
| r_answer p x u du1 du2 d a rd : answer_to p x -> sendable x -> rstep (mkR u (du1 ++ p :: du2) d a rd) (mkR u (du1 ++ du2) (d ++ [x]) a rd)
| r_break r r' al ha du d a rd : rstep (mkR (mkS (r ++ r') al ha) du d a rd) (mkR (mkS r false ha) du d a rd)
| r_other ty body u du d a rd : answers_type ty = false -> sendable (ty, body) -> rstep (mkR u du d a rd) (mkR u du (d ++ [(ty, body)]) a rd).
Inductive rcstep (strict : bool) : rnet -> tok -> rnet -> Prop :=
| rc_connect m R : rcstep strict R (Sent (KConnect m)) (mkR (mkS (bytes (KConnect m)) true false) [] [] None [])
| rc_connect_cut m e b c R : bytes (KConnect m) = b ++ c -> c <> [] -> rcstep strict R (Cut (KConnect m) e) (mkR (mkS b (negb e) true) [] [] None [])
| rc_send p s du d a rd : opens p = false -> may_send strict s -> rcstep strict (mkR s du d a rd) (Sent p) (mkR (give s (bytes p) true (t_half s)) du d a rd)
| rc_send_cut p e b c s du d a rd : opens p = false -> may_send strict s -> bytes p = b ++ c -> c <> [] ->
    rcstep strict (mkR s du d a rd) (Cut p e) (mkR (give s b (negb e) true) du d a rd)
| rc_read bs s du d a rd : prefix (rd ++ bs) (stream a d) -> rcstep strict (mkR s du d a rd) (Did (EIn bs)) (mkR s du d a (rd ++ bs))
| rc_did e R : match e with EIn _ => False | _ => True end -> rcstep strict R (Did e) R.
(** the connection after the client did [k] *)
Inductive Asked (strict : bool) : list tok -> rnet -> Prop :=
| asked_nil : Asked strict [] rnet0
| asked_client k R x R' : Asked strict k R -> rcstep strict R x R' -> Asked strict (k ++ [x]) R'
| asked_net k R R' : Asked strict k R -> rstep R R' -> Asked strict k R'.

(** the requests sent on the last connection, and the answers taken from it *)
Definition requests (k : list tok) : list cpkt := flat_map (fun x => match x with Sent p => due_of p | _ => [] end) (recent k).
Definition item_type (i : item) : Z := match i with Whole ty _ | Skipped ty _ => ty end.
Definition answers (k : list tok) : list item := filter (fun i => answers_type (item_type i)) (titems (recent k)).
Definition answered_by (p : cpkt) (i : item) : Prop := exists x, answer_to p x /\ is_item x i.
(** each answer is one to a request of its own *)
Definition answers_match (k : list tok) : Prop := exists ps rest, Permutation (ps ++ rest) (requests k) /\ Forall2 answered_by ps (answers k).
(** what the application is told of: it sent the request, with as many filters as there are codes *)
Definition asked_for (ty : Z) (body : list Z) (id : Z) (k : list tok) : Prop :=
  (ty = 144 -> exists fs codes, In (Sent (KSubscribe id fs)) k /\ body = be16 id ++ codes /\ length codes = length fs) /\
  (ty = 176 -> exists fs, In (Sent (KUnsubscribe id fs)) k /\ body = be16 id) /\
  (ty = 208 -> In (Sent KPing) k).
Definition told_answers (k : list tok) : Prop := forall k1 ty body id d r k2, k = k1 ++ Did (ECb ty body id d r) :: k2 -> answers_type ty = true ->
  exists a c, k1 = a ++ Did (EPkt ty body) :: c /\ asked_for ty body id (recent a).
