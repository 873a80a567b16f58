(** All packets of the client, on every connection, as the server finds them in the bytes that
    arrive (FullSpec.v).  The server may read the connections in any order; what it sends and
    what the client reads does not matter here. *)
From Verif Require Import Base StateSpec SerModel WireSpec SerHarness CoreModel CoreHarness Machine MachSpec NetSpec ConcModel CoreSpec WireProofs ByteSpec FullSpec.

Record line : Type := mkL {
  l_up : strm;
  l_got : list cpkt }.            (* the packets the server has read from this connection *)
(** the connections, the last one first *)
Definition line0 : line := mkL (mkS [] false false) [].
Inductive lstep : list line -> list line -> Prop :=
| l_read p r al ha got l1 l2 : standard p -> lstep (l1 ++ mkL (mkS (bytes p ++ r) al ha) got :: l2) (l1 ++ mkL (mkS r al ha) (got ++ [p]) :: l2)
| l_break r r' al ha got l1 l2 : lstep (l1 ++ mkL (mkS (r ++ r') al ha) got :: l2) (l1 ++ mkL (mkS r false ha) got :: l2).
Inductive lcstep (strict : bool) : list line -> tok -> list line -> Prop :=
| lc_connect m N : lcstep strict N (Sent (KConnect m)) (mkL (mkS (bytes (KConnect m)) true false) [] :: N)
| lc_connect_cut m e b c N : bytes (KConnect m) = b ++ c -> c <> [] -> lcstep strict N (Cut (KConnect m) e) (mkL (mkS b (negb e) true) [] :: N)
| lc_send p s got N : opens p = false -> may_send strict s -> lcstep strict (mkL s got :: N) (Sent p) (mkL (give s (bytes p) true (t_half s)) got :: N)
| lc_send_cut p e b c s got N : opens p = false -> may_send strict s -> bytes p = b ++ c -> c <> [] ->
    lcstep strict (mkL s got :: N) (Cut p e) (mkL (give s b (negb e) true) got :: N)
| lc_did e N : lcstep strict N (Did e) N.
Inductive Wired (strict : bool) : list tok -> list line -> Prop :=
| wired_nil : Wired strict [] [line0]
| wired_client k N x N' : Wired strict k N -> lcstep strict N x N' -> Wired strict (k ++ [x]) N'
| wired_net k N N' : Wired strict k N -> lstep N N' -> Wired strict k N'.

(** the packets sent on each connection, the last one first *)
Definition lines_step (acc : list (list cpkt)) (x : tok) : list (list cpkt) :=
  match x with
  | Sent p => if opens p then [p] :: acc else match acc with c :: l => (c ++ [p]) :: l | [] => [[p]] end
  | Cut p _ => if opens p then [] :: acc else acc
  | Did _ => acc
  end.
Definition lines (k : list tok) : list (list cpkt) := fold_left lines_step k [[]].
(** The packets read are the first of those sent; all of them when the connection is up and no
    byte is on its way. *)
Definition line_ok (sent : list cpkt) (L : line) : Prop := exists ps rest, sent = ps ++ rest /\ Forall2 understood ps (l_got L) /\
  (t_alive (l_up L) = true -> t_bytes (l_up L) = [] -> rest = []).
