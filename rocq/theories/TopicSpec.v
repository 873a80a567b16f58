(** MQTT 3.1.1 section 4.7: topic names, topic filters and when they match. *)
From Verif Require Import Base.

(** Levels: the pieces between '/' separators (4.7.1.1); "a//b" has three. *)
Fixpoint levels (s : list Z) : list (list Z) :=
  match s with
  | [] => [[]]
  | c :: r =>
    if c =? 47 then [] :: levels r
    else match levels r with l :: ls => (c :: l) :: ls | [] => [[c]] end
  end.

(** 4.7.1: level by level; '+' stands for one level, a last level '#' for the parent
    and any number of further levels. *)
Inductive lmatch : list (list Z) -> list (list Z) -> Prop :=
| lm_end : lmatch [] []
| lm_hash ns : lmatch ns [[35]]
| lm_plus n ns fs : lmatch ns fs -> lmatch (n :: ns) ([43] :: fs)
| lm_same l ns fs : lmatch ns fs -> lmatch (l :: ns) (l :: fs).

(** 4.7.2: a filter starting with a wildcard does not match a name starting with $. *)
Definition dollar_excluded (name filter : list Z) : Prop :=
  hd_error name = Some 36 /\ (hd_error filter = Some 43 \/ hd_error filter = Some 35).
Definition topic_matches (name filter : list Z) : Prop :=
  lmatch (levels name) (levels filter) /\ ~ dollar_excluded name filter.

(** 4.7.1, 4.7.3: a topic name is not empty, has no wildcards and no NUL, and at most
    65535 bytes. *)
Definition valid_name (s : list Z) : Prop :=
  0 < zlen s < 65536 /\ ~ In 43 s /\ ~ In 35 s /\ ~ In 0 s.
(** A filter: '+' and '#' occupy whole levels, '#' only the last one. *)
Definition valid_filter (s : list Z) : Prop :=
  0 < zlen s < 65536 /\ ~ In 0 s /\
  forall i l, nth_error (levels s) i = Some l ->
    (In 43 l -> l = [43]) /\ (In 35 l -> l = [35] /\ S i = length (levels s)).

(** The matches the library misses: some '+' of the filter is aligned with a level of
    the name such that either the name ends there and the filter goes on with '#', or
    the name has exactly one more level, an empty one, and the filter does not end
    with an empty level there. *)
Definition plus_gap (name filter : list Z) : Prop :=
  exists ns n nrest fs frest,
    levels name = ns ++ n :: nrest /\ levels filter = fs ++ [43] :: frest /\ length ns = length fs /\
    ((nrest = [] /\ frest = [[35]]) \/ (nrest = [[]] /\ frest <> [[]])).

(** Two strings of one length that agree up to and including a NUL (C62). *)
Definition same_up_to_nul (name filter : list Z) : Prop :=
  exists p n f, name = p ++ 0 :: n /\ filter = p ++ 0 :: f /\ length n = length f.
