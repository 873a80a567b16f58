(** Independent specification of the MQTT 3.1.1 wire format (OASIS standard,
    sections 2 and 3), as pure functions from abstract packets to byte lists. *)
From Verif Require Import Base.

(** 1.5.2 / 1.5.3: 16-bit integers are big-endian, strings are length-prefixed. *)
Definition be16 (n : Z) : list Z := [n / 256; n mod 256].
Definition mstr (s : list Z) : list Z := be16 (zlen s) ++ s.

(** 2.2.3, table 2.4: the Remaining Length field (0 .. 268 435 455). *)
Definition max_remaining : Z := 268435455.
Definition varlen (n : Z) : list Z :=
  if n <? 128 then [n]
  else if n <? 16384 then [n mod 128 + 128; n / 128]
  else if n <? 2097152 then [n mod 128 + 128; n / 128 mod 128 + 128; n / 16384]
  else [n mod 128 + 128; n / 128 mod 128 + 128; n / 16384 mod 128 + 128; n / 2097152].

(** 2.2: a control packet is its first byte, the length of the rest, the rest. *)
Definition packet (first : Z) (body : list Z) : list Z := first :: varlen (zlen body) ++ body.

Definition bit (b : bool) (w : Z) : Z := if b then w else 0.

(** 3.1 CONNECT *)
Record will_msg : Type := mkWill { wm_topic : list Z; wm_payload : list Z; wm_qos : qos; wm_retain : bool }.
Record connect_msg : Type := mkConnect {
  cm_clean : bool; cm_keepalive : Z; cm_id : list Z; cm_will : option will_msg;
  cm_user : option (list Z); cm_pass : option (list Z) }.
Definition is_some {A} (o : option A) : bool := match o with Some _ => true | None => false end.
(** 3.1.2.3: user name 128, password 64, will retain 32, will QoS 8/16, will 4,
    clean session 2 *)
Definition connect_flags (m : connect_msg) : Z :=
  bit (is_some (cm_user m)) 128 + bit (is_some (cm_pass m)) 64 + bit (cm_clean m) 2 +
  match cm_will m with
  | None => 0
  | Some w => 4 + 8 * qos_val (wm_qos w) + bit (wm_retain w) 32
  end.
Definition connect_body (m : connect_msg) : list Z :=
  mstr [77; 81; 84; 84] ++ [4] ++ [connect_flags m] ++ be16 (cm_keepalive m) ++ mstr (cm_id m) ++
  match cm_will m with Some w => mstr (wm_topic w) ++ mstr (wm_payload w) | None => [] end ++
  match cm_user m with Some u => mstr u | None => [] end ++
  match cm_pass m with Some p => mstr p | None => [] end.
Definition connect_packet (m : connect_msg) : list Z := packet 16 (connect_body m).
(** MQTT-3.1.2-22: no password without user name; 4.7.3-1: topics are not empty *)
Definition connect_legal (m : connect_msg) : Prop :=
  (cm_user m = None -> cm_pass m = None) /\
  match cm_will m with Some w => wm_topic w <> [] | None => True end.

(** 3.8 SUBSCRIBE, 3.10 UNSUBSCRIBE *)
Definition subscribe_body (id : Z) (l : list (list Z * qos)) : list Z :=
  be16 id ++ flat_map (fun x => mstr (fst x) ++ [qos_val (snd x)]) l.
Definition subscribe_packet (id : Z) (l : list (list Z * qos)) : list Z := packet 130 (subscribe_body id l).
Definition unsubscribe_body (id : Z) (l : list (list Z)) : list Z := be16 id ++ flat_map mstr l.
Definition unsubscribe_packet (id : Z) (l : list (list Z)) : list Z := packet 162 (unsubscribe_body id l).

(** 3.3 PUBLISH *)
Record publish_msg : Type := mkPublish {
  pm_dup : bool; pm_qos : qos; pm_retain : bool; pm_topic : list Z; pm_id : Z; pm_payload : list Z }.
Definition publish_first (m : publish_msg) : Z :=
  48 + bit (pm_dup m) 8 + 2 * qos_val (pm_qos m) + bit (pm_retain m) 1.
Definition publish_head (m : publish_msg) : list Z :=
  mstr (pm_topic m) ++ match pm_qos m with Q0 => [] | _ => be16 (pm_id m) end.
Definition publish_body (m : publish_msg) : list Z := publish_head m ++ pm_payload m.
Definition publish_packet (m : publish_msg) : list Z := packet (publish_first m) (publish_body m).

(** 3.4 - 3.7, 3.11: acknowledgements carrying a packet identifier *)
Inductive ack_kind : Type := KPuback | KPubrec | KPubrel | KPubcomp | KUnsuback.
Definition ack_first (k : ack_kind) : Z :=
  match k with KPuback => 64 | KPubrec => 80 | KPubrel => 98 | KPubcomp => 112 | KUnsuback => 176 end.
Definition ack_packet (k : ack_kind) (id : Z) : list Z := packet (ack_first k) (be16 id).

(** 3.12, 3.14 *)
Definition pingreq_packet : list Z := packet 192 [].
Definition disconnect_packet : list Z := packet 224 [].

(** ** Fixed headers a client can receive *)
(** First bytes of server-to-client packets: types 2-7, 9, 11, 13.  The library
    looks at the low four bits of PUBREL only (bit 1 must be set); 2.2.2 of the
    standard requires fixed flag bits for every type but PUBLISH. *)
Definition first_ok (b : Z) : Prop :=
  is_byte b /\
  let t := b / 16 in
  t = 2 \/ t = 3 \/ t = 4 \/ t = 5 \/ t = 7 \/ t = 9 \/ t = 11 \/ t = 13 \/ (t = 6 /\ (b / 2) mod 2 = 1).

(** [header h t rl]: the bytes h are exactly a fixed header. *)
Definition header (h : list Z) (t rl : Z) : Prop :=
  first_ok t /\ 0 <= rl <= max_remaining /\ h = t :: varlen rl.

(** ** Decoding of PUBLISH bodies: what the flags and the body mean *)
(** first byte t, body b is the publish m *)
Definition publish_means (t : Z) (b : list Z) (m : publish_msg) : Prop :=
  0 <= t < 256 /\ t = publish_first m /\ b = publish_body m /\
  zlen (pm_topic m) <= 65535 /\
  (pm_qos m = Q0 -> pm_id m = 0) /\ (pm_qos m <> Q0 -> 1 <= pm_id m <= 65535).

(** 3.2 CONNACK: acknowledge flags byte, return code.  Session present (1) only
    with return code 0; return codes 1-5 are refusals. *)
Definition connack_result (body : list Z) : status * option bool :=
  match body with
  | [f; rc] =>
      if (f =? 0) && (rc =? 0) then (Success, Some false)
      else if (f =? 1) && (rc =? 0) then (Success, Some true)
      else if (f =? 0) && (1 <=? rc) && (rc <=? 5) then (ServerRefused, Some false)
      else (BadResponse, None)
  | _ => (BadResponse, None)
  end.

(** 3.9 SUBACK: packet identifier, then one return code per filter: 0, 1, 2
    granted, 128 failure, everything else reserved. *)
Definition suback_codes (codes : list Z) : status :=
  if forallb (fun c => (c =? 0) || (c =? 1) || (c =? 2) || (c =? 128)) codes
  then if existsb (fun c => c =? 128) codes then ServerRefused else Success
  else BadResponse.
Definition suback_result (body : list Z) : status * option Z :=
  match body with
  | a :: b :: codes =>
      if (a * 256 + b =? 0) || (zlen codes =? 0) then (BadResponse, None)
      else (suback_codes codes, Some (a * 256 + b))
  | _ => (BadResponse, None)
  end.
