(** Specifications for the client core that do not mention the model of the code. *)
From Verif Require Import Base WireSpec.

(** ** Cutting a byte stream into control packets *)
(** What a receiver with a buffer of [B] bytes makes of a stream: each packet that
    fits is handed on, each packet that does not is skipped. *)
Inductive item : Type :=
| Whole (first : Z) (body : list Z)
| Skipped (first rem : Z).
Inductive Frames (B : Z) : list item -> list Z -> Prop :=
| F_nil : Frames B [] []
| F_whole h ty body l bytes : header h ty (zlen body) -> zlen h + zlen body <= B -> Frames B l bytes ->
    Frames B (Whole ty body :: l) (h ++ body ++ bytes)
| F_skipped h ty body l bytes : header h ty (zlen body) -> B < zlen h + zlen body -> Frames B l bytes ->
    Frames B (Skipped ty (zlen body) :: l) (h ++ body ++ bytes).
(** [r] is the beginning of a packet but not all of it; if its header is complete,
    the packet fits in [B] bytes *)
Definition Incomplete (B : Z) (r : list Z) : Prop :=
  r <> [] /\ exists more h ty body, more <> [] /\ header h ty (zlen body) /\ r ++ more = h ++ body /\
    (zlen h <= zlen r -> zlen h + zlen body <= B).
(** no packet can start with [r] *)
Definition Garbage (r : list Z) : Prop :=
  r <> [] /\ (forall h rest t rl, r = h ++ rest -> ~ header h t rl) /\ (forall more t rl, ~ header (r ++ more) t rl).
