(** Vocabulary tying the C structures given by the caller to the abstract packets
    of WireSpec.v. *)
From Verif Require Import Base SerModel WireSpec.

(** the pointer p gives access to the string s of the stated length *)
Definition holds (p : option (list Z)) (len : Z) (s : list Z) : Prop :=
  exists m, p = Some m /\ 0 <= len <= zlen m /\ s = firstn (Z.to_nat len) m.
(** same, a NULL pointer standing for an empty string when the length is 0 *)
Definition holds0 (p : option (list Z)) (len : Z) (s : list Z) : Prop :=
  holds p len s \/ (p = None /\ len = 0 /\ s = []).

(** the MQTTPublishInfo_t p, sent with packet id, describes the message m *)
Definition pub_means (p : pubinfo) (id : Z) (m : publish_msg) : Prop :=
  p_qos p = pm_qos m /\ p_retain p = pm_retain m /\ p_dup p = pm_dup m /\ id = pm_id m /\
  0 <= id < 65536 /\ p_topiclen p < 65536 /\
  holds (p_topic p) (p_topiclen p) (pm_topic m) /\ holds0 (p_payload p) (p_paylen p) (pm_payload m).

(** optional string: NULL iff absent *)
Definition holds_opt (p : option (list Z)) (len : Z) (s : option (list Z)) : Prop :=
  match s with None => p = None | Some s => holds p len s /\ len < 65536 end.

(** the MQTTConnectInfo_t c and the will pointer describe the message m *)
Definition con_means (c : coninfo) (will : option pubinfo) (m : connect_msg) : Prop :=
  c_clean c = cm_clean m /\ c_keepalive c = cm_keepalive m /\ 0 <= cm_keepalive m < 65536 /\
  holds (c_id c) (c_idlen c) (cm_id m) /\ c_idlen c < 65536 /\
  holds_opt (c_user c) (c_userlen c) (cm_user m) /\
  holds_opt (c_pass c) (c_passlen c) (cm_pass m) /\
  match will, cm_will m with
  | None, None => True
  | Some w, Some wm => p_qos w = wm_qos wm /\ p_retain w = wm_retain wm /\
      holds (p_topic w) (p_topiclen w) (wm_topic wm) /\ p_topiclen w < 65536 /\
      holds0 (p_payload w) (p_paylen w) (wm_payload wm)
  | _, _ => False
  end.

(** the subscription array describes the filters with their QoS *)
Definition sub_means (x : subinfo) (f : list Z * qos) : Prop :=
  holds (s_filter x) (s_len x) (fst f) /\ 0 < s_len x < 65536 /\ s_qos x = snd f.
Definition subs_mean (l : list subinfo) (fs : list (list Z * qos)) : Prop := Forall2 sub_means l fs.

(** the decoded structure points at the right bytes *)
Definition dpub_means (data : list Z) (d : dpub) (pid : option Z) (m : publish_msg) : Prop :=
  d_qos d = pm_qos m /\ d_retain d = pm_retain m /\ d_dup d = pm_dup m /\
  d_topiclen d = zlen (pm_topic m) /\ sub data (d_topicoff d) (d_topiclen d) = pm_topic m /\
  d_paylen d = zlen (pm_payload m) /\
  match d_payoff d with
  | Some o => sub data o (d_paylen d) = pm_payload m
  | None => pm_payload m = []
  end /\
  pid = match pm_qos m with Q0 => None | _ => Some (pm_id m) end.


(** A transport that hands out the bytes of a stream one by one and then returns
    the (non-positive) code e. *)
Definition stream : Type := (list Z * Z)%type.
Definition recv1_stream (s : stream) : Z * Z * stream :=
  match s with
  | ([], e) => (e, 0, ([], e))
  | (b :: l, e) => (1, b, (l, e))
  end.


(** what MQTT requires of a PUBLISH: an id iff QoS > 0, DUP only with QoS > 0 *)
Definition pub_ids_ok (m : publish_msg) : Prop :=
  (pm_qos m <> Q0 -> pm_id m <> 0) /\ (pm_dup m = true -> pm_qos m <> Q0).
(** a PUBLISH packet without its payload *)
Definition publish_header_bytes (m : publish_msg) : list Z :=
  publish_first m :: varlen (zlen (publish_body m)) ++ publish_head m.
(** the will payload fits its 16-bit length *)
Definition will_fits (m : connect_msg) : bool :=
  match cm_will m with Some w => zlen (wm_payload w) <=? 65535 | None => true end.
(** acknowledgements a client sends *)
Definition ack_kind_client (k : ack_kind) : bool := match k with KUnsuback => false | _ => true end.
