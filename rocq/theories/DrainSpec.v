(** What a server has to send to complete the publishes in flight. *)
From Verif Require Import Base StateSpec SerModel WireSpec SerHarness CoreModel CoreHarness.

(** the acknowledgements a publish in flight waits for, first to last: type and body *)
Definition owed (f : flight) : list (Z * list Z) :=
  match f_st f with
  | PubAckPending => [(64, be16 (f_id f))]
  | PubRecPending => [(80, be16 (f_id f)); (112, be16 (f_id f))]
  | PubCompPending => [(112, be16 (f_id f))]
  | _ => []
  end.
(** [a] is what is left of [b] without some of its elements *)
Inductive Within {T} : list T -> list T -> Prop :=
| within_nil b : Within [] b
| within_take x a b : Within a b -> Within (x :: a) (x :: b)
| within_skip x a b : Within a b -> Within a (x :: b).
(** a call of one of the loops *)
Definition loops (c : call) : Prop := c = CProcess \/ c = CReceive.
(** a loop call went well *)
Definition went_well (r : status) : Prop := r = Success \/ r = NeedMoreBytes.
