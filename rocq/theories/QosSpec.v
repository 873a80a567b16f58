(** SUBSCRIBE packets with any byte for the options of a filter. *)
From Verif Require Import Base StateModel SerModel WireSpec SerHarness.

(** MQTT 3.1.1 section 3.8 *)
Definition option_enc (x : list Z * Z) : list Z := mstr (fst x) ++ [snd x mod 256].
Definition options_body (id : Z) (fs : list (list Z * Z)) : list Z := be16 id ++ flat_map option_enc fs.
Definition options_packet (id : Z) (fs : list (list Z * Z)) : list Z := packet 130 (options_body id fs).
Definition zsub_means (x : subinfo * Z) (f : list Z * Z) : Prop :=
  holds (s_filter (fst x)) (s_len (fst x)) (fst f) /\ 0 < s_len (fst x) < 65536 /\ snd x = snd f.
Definition zsubs_mean (l : list (subinfo * Z)) (fs : list (list Z * Z)) : Prop := Forall2 zsub_means l fs.
(** MQTT-3.8.3-4: the upper six bits of the options are zero, and a QoS is 0, 1 or 2. *)
Definition legal_subscribe (bs : list Z) : Prop :=
  exists id fs, Forall (fun f => zlen (fst f) < 65536) fs /\ bs = subscribe_packet id fs.
