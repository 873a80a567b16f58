(** Model of the topic matching functions of source/core_mqtt.c.

    Conventions as in SerModel.v: a pointer is [option (list Z)] with a separate
    length; a read outside the block is Ub.  Loops run on fuel computed from the
    lengths; running out of fuel is Ub as well, so a theorem "= Ok ..." excludes
    both.  Failing asserts are Ub. *)
From Verif Require Import Base SerModel.

(** '/', '+', '#', '$' *)
Definition SLASH := 47.
Definition PLUS := 43.
Definition HASH := 35.
Definition DOLLAR := 36.

(** matchEndWildcardsSpecialCases: core_mqtt.c:563-600.  [L - 3U] is unsigned
    (32-bit) arithmetic. *)
Definition matchEndWildcardsSpecialCases (f : list Z) (L i : Z) : R bool :=
  let! m1 :=
    if (3 <=? L) && (i =? u32 (L - 3)) then
      let! c1 := rd f (i + 1) in
      if c1 =? SLASH then let! c2 := rd f (i + 2) in Ok (c2 =? HASH) else Ok false
    else Ok false in
  if i =? u32 (L - 2) then
    let! c0 := rd f i in
    if c0 =? SLASH then
      let! c1 := rd f (i + 1) in
      if c1 =? PLUS then Ok true else let! c1' := rd f (i + 1) in Ok (c1' =? HASH)
    else Ok m1
  else Ok m1.

(** The while loop of matchWildcards: core_mqtt.c:635-645.  Returns
    nextLevelExistsInTopicName and the name index. *)
Fixpoint level_end_loop (fuel : nat) (n : list Z) (nl ni : Z) : R (bool * Z) :=
  match fuel with
  | O => Ub
  | S k =>
    if ni <? nl then
      let! c := rd n ni in
      if c =? SLASH then Ok (true, ni) else level_end_loop k n nl (u16 (ni + 1))
    else Ok (false, ni)
  end.

(** matchWildcards: core_mqtt.c:604-704.  Returns shouldStopMatching, the indices
    and the match flag. *)
Definition matchWildcards (n : list Z) (nl : Z) (f : list Z) (fl ni fi : Z) (pm : bool)
  : R (bool * Z * Z * bool) :=
  let! locationIsValid :=
    if fi =? 0 then Ok true else let! c := rd f (fi - 1) in Ok (c =? SLASH) in
  let! c := rd f fi in
  if (c =? PLUS) && locationIsValid then
    let! (nextName, ni) := level_end_loop (S (Z.to_nat nl)) n nl ni in
    let! nextFilter := if fi <? fl - 1 then let! c1 := rd f (fi + 1) in Ok (c1 =? SLASH) else Ok false in
    if nextName && negb nextFilter then Ok (true, ni, fi, false)
    else if nextName then Ok (false, ni, u16 (fi + 1), pm)
    else Ok (false, u16 (ni - 1), fi, pm)
  else
    if (c =? HASH) && (fi =? fl - 1) && locationIsValid then Ok (true, ni, fi, true)
    else Ok (true, ni, fi, false).

(** The while loop of matchTopicFilter: core_mqtt.c:722-757.  Returns matchFound
    and the indices. *)
Fixpoint match_loop (fuel : nat) (n : list Z) (nl : Z) (f : list Z) (fl ni fi : Z) (matchFound : bool)
  : R (bool * Z * Z) :=
  match fuel with
  | O => Ub
  | S k =>
    if (ni <? nl) && (fi <? fl) then
      let! a := rd n ni in
      let! c := rd f fi in
      let! (stop, ni, fi, matchFound) :=
        if a =? c then
          if ni =? nl - 1
          then let! m := matchEndWildcardsSpecialCases f fl fi in Ok (false, ni, fi, m)
          else Ok (false, ni, fi, matchFound)
        else matchWildcards n nl f fl ni fi matchFound in
      if matchFound || stop then Ok (matchFound, ni, fi)
      else match_loop k n nl f fl (u16 (ni + 1)) (u16 (fi + 1)) matchFound
    else Ok (matchFound, ni, fi)
  end.

(** matchTopicFilter: core_mqtt.c:708-770 *)
Definition matchTopicFilter (n : list Z) (nl : Z) (f : list Z) (fl : Z) : R bool :=
  rassert (negb (nl =? 0)) (rassert (negb (fl =? 0)) (
    let! (m, ni, fi) := match_loop (S (Z.to_nat fl)) n nl f fl 0 0 false in
    Ok (if m then true else (ni =? nl) && (fi =? fl)))).

(** C library strncmp( a, b, k ) == 0: compares bytes up to k of them, stopping
    after a common NUL; every byte compared must be readable. *)
Fixpoint strncmp_eq (a b : list Z) (k : nat) {struct k} : R bool :=
  match k with
  | O => Ok true
  | S j =>
    match a, b with
    | x :: a', y :: b' => if x =? y then (if x =? 0 then Ok true else strncmp_eq a' b' j) else Ok false
    | _, _ => Ub
    end
  end.

(** MQTT_MatchTopic: core_mqtt.c:3520-3585.  The result is the status and the value
    stored through pIsMatch (None: not written; pIsMatch itself is not NULL). *)
Definition matchTopic (n : option (list Z)) (nl : Z) (f : option (list Z)) (fl : Z) : R (status * option bool) :=
  match n with
  | None => Ok (BadParameter, None)
  | Some n =>
    if nl =? 0 then Ok (BadParameter, None) else
    match f with
    | None => Ok (BadParameter, None)
    | Some f =>
      if fl =? 0 then Ok (BadParameter, None) else
      let! m := if nl =? fl then strncmp_eq n f (Z.to_nat nl) else Ok false in
      let! m :=
        if m then Ok true else
          let! f0 := rd f 0 in
          let! n0 := rd n 0 in
          if negb ((n0 =? DOLLAR) && ((f0 =? PLUS) || (f0 =? HASH)))
          then matchTopicFilter n nl f fl else Ok false in
      Ok (Success, Some m)
    end
  end.
