(** What a server that checks the order of the packets sees on each connection (LineSpec.v). *)
From Verif Require Import Base StateSpec SerModel WireSpec SerHarness CoreModel CoreHarness Machine MachSpec NetSpec ConcModel CoreSpec WireProofs ByteSpec FullSpec LineSpec.

(** MQTT-3.1.0-1, MQTT-3.1.0-2, MQTT-3.14.4-2: the first packet is a CONNECT, there is no other,
    and nothing follows a DISCONNECT *)
Definition in_order (l : list cpkt) : Prop :=
  l = [] \/ exists m l', l = KConnect m :: l' /\ Forall (fun p => opens p = false) l' /\ forall a b, l' = a ++ KDisconnect :: b -> b = [].
(** packets of the standard and at most a part of another *)
Definition readable (bs : list Z) : Prop := exists ps x, Forall standard ps /\ bs = concat (map bytes ps) ++ x /\ cut x.
Definition legal_line (L : line) : Prop := in_order (l_got L) /\ readable (t_bytes (l_up L)).
