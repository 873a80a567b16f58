(** Common types of the coreMQTT model: status codes, QoS values, publish
    states, memory helpers.  Bytes and C integers are [Z]; wrap-around is always
    written explicitly where the C code can wrap. *)
From Coq Require Export List ZArith Lia Bool Arith.
From Coq Require Export ZifyBool ZifyNat.
Export ListNotations.
Open Scope Z_scope.

Ltac Zify.zify_post_hook ::= Z.div_mod_to_equations.

(** MQTTStatus_t: source/include/core_mqtt_serializer.h:86-109 *)
Inductive status : Type :=
| Success | BadParameter | NoMemory | SendFailed | RecvFailed | BadResponse
| ServerRefused | NoDataAvailable | IllegalState | StateCollision
| KeepAliveTimeout | NeedMoreBytes | StConnected | StNotConnected
| StDisconnectPending | PublishStoreFailed | PublishRetrieveFailed.

(** Boolean equality on status codes (C's == on the enum). *)
Scheme Equality for status.

(** MQTTQoS_t: source/include/core_mqtt_serializer.h:115-120.  Enum values
    outside 0..2 passed in by the caller are not represented. *)
Inductive qos : Type := Q0 | Q1 | Q2.
Scheme Equality for qos.

(** Numeric value of the enum (core_mqtt_serializer.h:117-119). *)
Definition qos_val (q : qos) : Z := match q with Q0 => 0 | Q1 => 1 | Q2 => 2 end.

(** MQTTPublishState_t: source/include/core_mqtt.h:176-189 *)
Inductive pstate : Type :=
| StateNull | PublishSend | PubAckSend | PubRecSend | PubRelSend | PubCompSend
| PubAckPending | PubRecPending | PubRelPending | PubCompPending | PublishDone.
Scheme Equality for pstate.

(** Numeric value of the enum (used for the bit masks of core_mqtt_state.c). *)
Definition pstate_val (s : pstate) : Z :=
  match s with
  | StateNull => 0 | PublishSend => 1 | PubAckSend => 2 | PubRecSend => 3
  | PubRelSend => 4 | PubCompSend => 5 | PubAckPending => 6 | PubRecPending => 7
  | PubRelPending => 8 | PubCompPending => 9 | PublishDone => 10
  end.

(** MQTTPubAckType_t: source/include/core_mqtt.h:195-201 *)
Inductive acktype : Type := Puback | Pubrec | Pubrel | Pubcomp.
Scheme Equality for acktype.

(** MQTTStateOperation_t: source/include/core_mqtt_state.h:61-65 *)
Inductive stateop : Type := OpSend | OpReceive.
Scheme Equality for stateop.

(** Outcome of a C computation: a value, or undefined behaviour (out-of-bounds
    access, NULL dereference, failed assert). *)
Inductive R (A : Type) : Type := Ok (a : A) | Ub.
Arguments Ok {A} a.
Arguments Ub {A}.

Definition rbind {A B} (m : R A) (f : A -> R B) : R B :=
  match m with Ok a => f a | Ub => Ub end.

Notation "'let!' x ':=' m 'in' k" := (rbind m (fun x => k))
  (at level 200, x pattern, m at level 100, k at level 200).

(** [rassert b k]: C assert(b) followed by k (modelled as undefined when b
    fails: with NDEBUG the code would continue in an unintended state). *)
Definition rassert {A} (b : bool) (k : R A) : R A := if b then k else Ub.

(** Array store: [upd l i x] is l with element i replaced (i in range). *)
Fixpoint upd {A} (l : list A) (i : nat) (x : A) : list A :=
  match l, i with
  | [], _ => []
  | _ :: t, O => x :: t
  | h :: t, S j => h :: upd t j x
  end.

Definition zlen {A} (l : list A) : Z := Z.of_nat (length l).

(** sub-range [off, off+n) of a list *)
Definition sub {A} (l : list A) (off n : Z) : list A :=
  firstn (Z.to_nat n) (skipn (Z.to_nat off) l).

(** A byte is an integer in 0..255. *)
Definition is_byte (b : Z) : Prop := 0 <= b < 256.
Definition bytes_ok (l : list Z) : Prop := Forall is_byte l.

(** uint16_t / uint32_t conversions *)
Definition u8 (x : Z) : Z := x mod 256.
Definition u16 (x : Z) : Z := x mod 65536.
Definition u32 (x : Z) : Z := x mod 4294967296.
