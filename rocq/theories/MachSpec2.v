(** More words about what a client does, in terms of the packets and events of Machine.v. *)
From Verif Require Import Base StateModel StateSpec SerModel WireSpec SerHarness CoreModel CoreHarness Machine MachSpec.

(** a CONNECT that asks for a clean session was sent *)
Definition cleans (x : tok) : Prop := exists m, x = Sent (KConnect m) /\ cm_clean m = true.
(** each connection with a clean session was used: something was sent on it before the
    next CONNECT *)
Definition used (l : list tok) : Prop :=
  forall a x b y c, l = a ++ x :: b ++ y :: c -> cleans x -> connects y -> Exists (fun z => carries z <> None) b.
(** a copy of a publish with [id] was given to the store function *)
Definition was_stored (id : Z) (x : tok) : Prop := exists v ok, x = Did (EStore id v ok).
