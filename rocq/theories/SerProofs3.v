(** Proofs about the serializer model: decoding side. *)
From Verif Require Import Base SerModel WireSpec SerHarness SerProofs SerProofs2.

(** ** Reading through a prefix *)
Lemma firstn_nth {A} (l : list A) n k d : (k < n)%nat -> nth k (firstn n l) d = nth k l d.
Proof.
  revert n k; induction l as [|x l IH]; intros n k H; destruct n, k; cbn; try lia; try reflexivity.
  apply IH. lia.
Qed.
Lemma rd_prefix buf index k : 0 <= index <= zlen buf -> k < index ->
  rd buf k = rd (firstn (Z.to_nat index) buf) k.
Proof.
  intros Hi Hk. unfold rd. rewrite zlen_firstn by lia.
  destruct (0 <=? k) eqn:E; cbn [andb]; [|reflexivity].
  replace (k <? zlen buf) with true by lia. replace (k <? index) with true by lia.
  rewrite firstn_nth by lia. reflexivity.
Qed.

Lemma prl_prefix fuel buf index : 0 <= index <= zlen buf -> forall a m n,
  processRemainingLength_loop fuel buf index a m n =
  processRemainingLength_loop fuel (firstn (Z.to_nat index) buf) index a m n.
Proof.
  intros Hi. induction fuel as [|fuel IH]; intros a m n; cbn [processRemainingLength_loop]; [reflexivity|].
  destruct (2097152 <? m); [reflexivity|].
  destruct (n + 1 <? index) eqn:E; [|reflexivity].
  rewrite (rd_prefix buf index (n + 1)) by lia.
  destruct (rd (firstn (Z.to_nat index) buf) (n + 1)) as [b|]; cbn [rbind]; [|reflexivity].
  destruct (a + Z.land b 127 * m =? REMAINING_LENGTH_INVALID); [reflexivity|].
  destruct (negb (Z.land b 128 =? 0)); [|reflexivity]. apply IH.
Qed.

Lemma pitl_prefix buf index : 0 <= index <= zlen buf ->
  processIncomingPacketTypeAndLength buf index =
  processIncomingPacketTypeAndLength (firstn (Z.to_nat index) buf) index.
Proof.
  intros Hi. unfold processIncomingPacketTypeAndLength. destruct (index <? 1) eqn:E; [reflexivity|].
  rewrite (rd_prefix buf index 0) by lia.
  destruct (rd (firstn (Z.to_nat index) buf) 0) as [t|]; cbn [rbind]; [|reflexivity].
  unfold processRemainingLength. rewrite prl_prefix by lia. reflexivity.
Qed.

(** ** The variable length field as a function on lists *)
Definition dec (l : list Z) : status * option (Z * Z) :=
  let fin v last n := if last =? 0 then (BadResponse, None) else (Success, Some (v, n)) in
  match l with
  | [] => (NeedMoreBytes, None)
  | b1 :: l =>
    if b1 <? 128 then (Success, Some (b1, 1)) else
    match l with
    | [] => (NeedMoreBytes, None)
    | b2 :: l =>
      if b2 <? 128 then fin (b1 - 128 + 128 * b2) b2 2 else
      match l with
      | [] => (NeedMoreBytes, None)
      | b3 :: l =>
        if b3 <? 128 then fin (b1 - 128 + 128 * (b2 - 128) + 16384 * b3) b3 3 else
        match l with
        | [] => (NeedMoreBytes, None)
        | b4 :: l =>
          if b4 <? 128 then fin (b1 - 128 + 128 * (b2 - 128) + 16384 * (b3 - 128) + 2097152 * b4) b4 4
          else (BadResponse, None)
        end
      end
    end
  end.

Lemma rd_cons x l k : 0 <= k -> rd (x :: l) (k + 1) = rd l k.
Proof.
  intros H. unfold rd. rewrite zlen_cons.
  replace (0 <=? k + 1) with (0 <=? k) by lia. replace (k + 1 <? 1 + zlen l) with (k <? zlen l) by lia.
  replace (Z.to_nat (k + 1)) with (S (Z.to_nat k)) by lia. reflexivity.
Qed.
Lemma rd_0 x l : rd (x :: l) 0 = Ok x.
Proof. unfold rd. rewrite zlen_cons. pose proof (zlen_nonneg l). replace (0 <? 1 + zlen l) with true by lia. reflexivity. Qed.

(** generic step of the push parser; [pre] is the part already consumed *)
Lemma prl_step fuel pre b l a m : is_byte b -> m <= 2097152 -> pre <> [] ->
  processRemainingLength_loop (S fuel) (pre ++ b :: l) (zlen (pre ++ b :: l)) a m (zlen pre - 1) =
    if a + b mod 128 * m =? REMAINING_LENGTH_INVALID
    then Ok (Success, a + b mod 128 * m, zlen pre)
    else if 128 <=? b
    then processRemainingLength_loop fuel ((pre ++ [b]) ++ l) (zlen ((pre ++ [b]) ++ l)) (a + b mod 128 * m) (m * 128) (zlen (pre ++ [b]) - 1)
    else Ok (Success, a + b mod 128 * m, zlen pre).
Proof.
  intros Hb Hm Hp. cbn [processRemainingLength_loop]. replace (2097152 <? m) with false by lia.
  rewrite zlen_app, zlen_cons. pose proof (zlen_nonneg l).
  replace (zlen pre - 1 + 1) with (zlen pre) by lia.
  replace (zlen pre <? zlen pre + (1 + zlen l)) with true by lia.
  assert (E : rd (pre ++ b :: l) (zlen pre) = Ok b).
  { unfold rd. rewrite zlen_app, zlen_cons. pose proof (zlen_nonneg pre).
    replace ((0 <=? zlen pre) && (zlen pre <? zlen pre + (1 + zlen l))) with true by lia.
    unfold zlen at 1. rewrite Nat2Z.id, app_nth2, Nat.sub_diag by lia. reflexivity. }
  rewrite E. cbn [rbind]. rewrite land127, land128 by exact Hb.
  rewrite !zlen_app, zlen_cons, zlen_nil, <- app_assoc. cbn [app].
  replace (zlen pre + (1 + 0) - 1) with (zlen pre) by lia.
  replace (zlen pre + (1 + 0) + zlen l) with (zlen pre + (1 + zlen l)) by lia. reflexivity.
Qed.
Lemma prl_end fuel pre a m : m <= 2097152 ->
  processRemainingLength_loop (S fuel) (pre ++ []) (zlen (pre ++ [])) a m (zlen pre - 1) = Ok (NeedMoreBytes, a, zlen pre - 1).
Proof.
  intros Hm. cbn [processRemainingLength_loop]. replace (2097152 <? m) with false by lia.
  rewrite app_nil_r. replace (zlen pre - 1 + 1 <? zlen pre) with false by lia. reflexivity.
Qed.

Ltac bytes H := repeat match type of H with bytes_ok (_ :: _) =>
  let B := fresh "B" in inversion H as [|? ? B ?]; subst; clear H; rename B into H;
  match goal with K : Forall is_byte _ |- _ => idtac end end.

Lemma bytes_cons x l : bytes_ok (x :: l) -> is_byte x /\ bytes_ok l.
Proof. intros H. inversion H; subst. split; assumption. Qed.

Lemma encsize_1 n : n < 128 -> remainingLengthEncodedSize n = 1.
Proof. unfold remainingLengthEncodedSize. intros. replace (n <? 128) with true by lia. reflexivity. Qed.
Ltac encsz := unfold remainingLengthEncodedSize;
  repeat match goal with |- context [?a <? ?b] => let E := fresh in destruct (a <? b) eqn:E end; try lia.

Lemma prl_dec t l : bytes_ok l ->
  processRemainingLength (t :: l) (zlen (t :: l)) =
    Ok (match dec l with (st, Some (v, n)) => (st, Some (v, n + 1)) | (st, None) => (st, None) end).
Proof.
  intros Hl. unfold processRemainingLength. unfold REMAINING_LENGTH_INVALID in *.
  change (t :: l) with ([t] ++ l). change 0 with (zlen [t] - 1) at 2.
  unfold dec.
  destruct l as [|b1 l]; [rewrite prl_end by lia; reflexivity|].
  apply bytes_cons in Hl. destruct Hl as [H1 Hl]. unfold is_byte in H1.
  rewrite prl_step by (try assumption; try discriminate; lia). unfold REMAINING_LENGTH_INVALID in *.
  replace (0 + b1 mod 128 * 1 =? 268435456) with false by lia.
  destruct (b1 <? 128) eqn:E1.
  { replace (128 <=? b1) with false by lia. cbn [rbind status_beq].
    replace (0 + b1 mod 128 * 1) with b1 by lia. change (zlen [t]) with 1.
    replace (negb (1 =? remainingLengthEncodedSize b1)) with false by encsz. reflexivity. }
  replace (128 <=? b1) with true by lia.
  destruct l as [|b2 l]; [rewrite prl_end by lia; reflexivity|].
  apply bytes_cons in Hl. destruct Hl as [H2 Hl]. unfold is_byte in H2.
  rewrite prl_step by (try assumption; try (destruct t; discriminate); lia). unfold REMAINING_LENGTH_INVALID in *.
  match goal with |- context [?x =? 268435456] => replace (x =? 268435456) with false by lia end.
  destruct (b2 <? 128) eqn:E2.
  { replace (128 <=? b2) with false by lia. cbn [rbind status_beq].
    match goal with |- context [remainingLengthEncodedSize ?x] => replace x with (b1 - 128 + 128 * b2) by lia end.
    change (zlen ([t] ++ [b1])) with 2.
    destruct (b2 =? 0) eqn:Ez.
    - replace (negb (2 =? remainingLengthEncodedSize (b1 - 128 + 128 * b2))) with true by encsz. reflexivity.
    - replace (negb (2 =? remainingLengthEncodedSize (b1 - 128 + 128 * b2))) with false by encsz. reflexivity. }
  replace (128 <=? b2) with true by lia.
  destruct l as [|b3 l]; [rewrite prl_end by lia; reflexivity|].
  apply bytes_cons in Hl. destruct Hl as [H3 Hl]. unfold is_byte in H3.
  rewrite prl_step by (try assumption; try (destruct t; discriminate); lia). unfold REMAINING_LENGTH_INVALID in *.
  match goal with |- context [?x =? 268435456] => replace (x =? 268435456) with false by lia end.
  destruct (b3 <? 128) eqn:E3.
  { replace (128 <=? b3) with false by lia. cbn [rbind status_beq].
    match goal with |- context [remainingLengthEncodedSize ?x] => replace x with (b1 - 128 + 128 * (b2 - 128) + 16384 * b3) by lia end.
    change (zlen (([t] ++ [b1]) ++ [b2])) with 3.
    set (v := b1 - 128 + 128 * (b2 - 128) + 16384 * b3).
    destruct (b3 =? 0) eqn:Ez.
    - replace (negb (3 =? remainingLengthEncodedSize v)) with true by (subst v; encsz). reflexivity.
    - replace (negb (3 =? remainingLengthEncodedSize v)) with false by (subst v; encsz). reflexivity. }
  replace (128 <=? b3) with true by lia.
  destruct l as [|b4 l]; [rewrite prl_end by lia; reflexivity|].
  apply bytes_cons in Hl. destruct Hl as [H4 Hl]. unfold is_byte in H4.
  rewrite prl_step by (try assumption; try (destruct t; discriminate); lia). unfold REMAINING_LENGTH_INVALID in *.
  match goal with |- context [?x =? 268435456] => replace (x =? 268435456) with false by lia end.
  destruct (b4 <? 128) eqn:E4.
  { replace (128 <=? b4) with false by lia. cbn [rbind status_beq].
    match goal with |- context [remainingLengthEncodedSize ?x] => replace x with (b1 - 128 + 128 * (b2 - 128) + 16384 * (b3 - 128) + 2097152 * b4) by lia end.
    change (zlen ((([t] ++ [b1]) ++ [b2]) ++ [b3])) with 4.
    set (v := b1 - 128 + 128 * (b2 - 128) + 16384 * (b3 - 128) + 2097152 * b4).
    destruct (b4 =? 0) eqn:Ez.
    - replace (negb (4 =? remainingLengthEncodedSize v)) with true by (subst v; encsz). reflexivity.
    - replace (negb (4 =? remainingLengthEncodedSize v)) with false by (subst v; encsz). reflexivity. }
  replace (128 <=? b4) with true by lia.
  cbn [processRemainingLength_loop]. replace (2097152 <? 1 * 128 * 128 * 128 * 128) with true by lia.
  reflexivity.
Qed.

(** ** dec and the wire format *)
Lemma varlen_cases n : 0 <= n <= max_remaining ->
  (n < 128 /\ varlen n = [n]) \/
  (128 <= n < 16384 /\ varlen n = [n mod 128 + 128; n / 128]) \/
  (16384 <= n < 2097152 /\ varlen n = [n mod 128 + 128; n / 128 mod 128 + 128; n / 16384]) \/
  (2097152 <= n /\ varlen n = [n mod 128 + 128; n / 128 mod 128 + 128; n / 16384 mod 128 + 128; n / 2097152]).
Proof.
  intros H. unfold varlen.
  destruct (n <? 128) eqn:E1; [left; split; [lia|reflexivity]|].
  destruct (n <? 16384) eqn:E2; [right; left; split; [lia|reflexivity]|].
  destruct (n <? 2097152) eqn:E3; [right; right; left; split; [lia|reflexivity]|].
  right; right; right; split; [lia|reflexivity].
Qed.

Lemma dec_varlen n rest : 0 <= n <= max_remaining -> dec (varlen n ++ rest) = (Success, Some (n, zlen (varlen n))).
Proof.
  intros H. unfold max_remaining in H.
  destruct (varlen_cases n H) as [[K ->]|[[K ->]|[[K ->]|[K ->]]]]; cbn [dec app]; cbv zeta;
  repeat match goal with |- context [?a <? ?b] => destruct (a <? b) eqn:?; try lia end;
  repeat match goal with |- context [?a =? ?b] => destruct (a =? b) eqn:?; try lia end;
  match goal with |- (_, Some (?a, _)) = (_, Some (?b, _)) => replace a with b by lia end; reflexivity.
Qed.

Ltac brk := repeat match goal with
  | H : context [?a <? ?b] |- _ => destruct (a <? b) eqn:?
  | H : context [?a =? ?b] |- _ => destruct (a =? b) eqn:?
  | H : (_, _) = (_, _) |- _ => inversion H; subst; clear H
  end.

Ltac bok := repeat match goal with H : bytes_ok (_ :: _) |- _ => apply bytes_cons in H; destruct H as [? H] end;
  unfold is_byte in *.
Ltac vl := unfold varlen; repeat match goal with |- context [?a <? ?b] => destruct (a <? b) eqn:?; try lia end.

Lemma some_inj {S A B} (s s' : S) (a c : A) (b d : B) : (s, Some (a, b)) = (s', Some (c, d)) -> a = c /\ b = d.
Proof. intros H. inversion H. auto. Qed.

Lemma dec_success l v n : bytes_ok l -> dec l = (Success, Some (v, n)) ->
  0 <= v <= max_remaining /\ n = zlen (varlen v) /\ exists rest, l = varlen v ++ rest.
Proof.
  unfold max_remaining. intros Hl H. unfold dec in H.
  destruct l as [|b1 l]; [discriminate|]. bok. destruct (b1 <? 128) eqn:E1.
  { inversion H; subst. split; [lia|]. assert (E : varlen v = [v]) by (unfold varlen; now rewrite E1).
    rewrite E. split; [reflexivity|]. now exists l. }
  destruct l as [|b2 l]; [discriminate|]. bok. destruct (b2 <? 128) eqn:E2.
  { destruct (b2 =? 0) eqn:Ez; [discriminate|]. apply some_inj in H; destruct H as [<- <-]. split; [lia|].
    set (v := b1 - 128 + 128 * b2).
    assert (E : varlen v = [b1; b2]) by (subst v; vl; f_equal; [lia|f_equal; lia]).
    rewrite E. split; [reflexivity|]. now exists l. }
  destruct l as [|b3 l]; [discriminate|]. bok. destruct (b3 <? 128) eqn:E3.
  { destruct (b3 =? 0) eqn:Ez; [discriminate|]. apply some_inj in H; destruct H as [<- <-]. split; [lia|].
    set (v := b1 - 128 + 128 * (b2 - 128) + 16384 * b3).
    assert (E : varlen v = [b1; b2; b3]) by (subst v; vl; f_equal; [lia|f_equal; [lia|f_equal; lia]]).
    rewrite E. split; [reflexivity|]. now exists l. }
  destruct l as [|b4 l]; [discriminate|]. bok. destruct (b4 <? 128) eqn:E4; [|discriminate].
  destruct (b4 =? 0) eqn:Ez; [discriminate|]. apply some_inj in H; destruct H as [<- <-]. split; [lia|].
  set (v := b1 - 128 + 128 * (b2 - 128) + 16384 * (b3 - 128) + 2097152 * b4).
  assert (E : varlen v = [b1; b2; b3; b4]) by (subst v; vl; f_equal; [lia|f_equal; [lia|f_equal; [lia|f_equal; lia]]]).
  rewrite E. split; [reflexivity|]. now exists l.
Qed.

(** more bytes are needed exactly on the strict prefixes of fields *)
Lemma dec_need l : bytes_ok l -> dec l = (NeedMoreBytes, None) ->
  exists more v, more <> [] /\ 0 <= v <= max_remaining /\ l ++ more = varlen v.
Proof.
  unfold max_remaining. intros Hl H. unfold dec in H.
  destruct l as [|b1 l]; [exists [0], 0; split; [discriminate|split; [lia|reflexivity]]|]. bok.
  destruct (b1 <? 128) eqn:E1; [discriminate|].
  destruct l as [|b2 l].
  { exists [1], (b1 - 128 + 128). split; [discriminate|]. split; [lia|]. vl. cbn [app]. f_equal; [lia|f_equal; lia]. }
  bok. destruct (b2 <? 128) eqn:E2; [destruct (b2 =? 0); discriminate|].
  destruct l as [|b3 l].
  { exists [1], (b1 - 128 + 128 * (b2 - 128) + 16384). split; [discriminate|]. split; [lia|]. vl. cbn [app].
    f_equal; [lia|f_equal; [lia|f_equal; lia]]. }
  bok. destruct (b3 <? 128) eqn:E3; [destruct (b3 =? 0); discriminate|].
  destruct l as [|b4 l].
  { exists [1], (b1 - 128 + 128 * (b2 - 128) + 16384 * (b3 - 128) + 2097152). split; [discriminate|]. split; [lia|]. vl. cbn [app].
    f_equal; [lia|f_equal; [lia|f_equal; [lia|f_equal; lia]]]. }
  bok. destruct (b4 <? 128) eqn:E4; [destruct (b4 =? 0)|]; discriminate.
Qed.

Lemma dec_kinds l : exists v n, dec l = (Success, Some (v, n)) \/ dec l = (NeedMoreBytes, None) \/ dec l = (BadResponse, None).
Proof.
  unfold dec. destruct l as [|b1 l]; [exists 0, 0; auto|]. destruct (b1 <? 128); [eexists _, _; eauto|].
  destruct l as [|b2 l]; [exists 0, 0; auto|]. destruct (b2 <? 128); [destruct (b2 =? 0); [exists 0, 0; auto|eexists _, _; eauto]|].
  destruct l as [|b3 l]; [exists 0, 0; auto|]. destruct (b3 <? 128); [destruct (b3 =? 0); [exists 0, 0; auto|eexists _, _; eauto]|].
  destruct l as [|b4 l]; [exists 0, 0; auto|]. destruct (b4 <? 128); [destruct (b4 =? 0); [exists 0, 0; auto|eexists _, _; eauto]|].
  exists 0, 0; auto.
Qed.

(** BadResponse is final *)
Lemma dec_bad_more l more : dec l = (BadResponse, None) -> dec (l ++ more) = (BadResponse, None).
Proof.
  unfold dec. intros H. destruct l as [|b1 l]; [discriminate|]. cbn [app]. destruct (b1 <? 128); [discriminate|].
  destruct l as [|b2 l]; [discriminate|]. cbn [app]. destruct (b2 <? 128); [exact H|].
  destruct l as [|b3 l]; [discriminate|]. cbn [app]. destruct (b3 <? 128); [exact H|].
  destruct l as [|b4 l]; [discriminate|]. cbn [app]. destruct (b4 <? 128); [exact H|]. reflexivity.
Qed.

(** ** First byte *)
Definition first_okb (b : Z) : bool :=
  let t := b / 16 in
  (t =? 2) || (t =? 3) || (t =? 4) || (t =? 5) || (t =? 7) || (t =? 9) || (t =? 11) || (t =? 13) ||
  ((t =? 6) && ((b / 2) mod 2 =? 1)).
Lemma first_ok_b b : is_byte b -> (first_ok b <-> first_okb b = true).
Proof. unfold first_ok, first_okb. intros H. cbv zeta. split; [intros [_ K]|intros K; split; [exact H|]]; lia. Qed.
Lemma valid_first b : is_byte b -> incomingPacketValid b = first_okb b.
Proof.
  intros H. apply eqb_prop.
  apply (byte_sweep (fun b => eqb (incomingPacketValid b) (first_okb b))); [vm_compute; reflexivity|exact H].
Qed.

(** ** The whole header decision *)
Definition hdr_dec (r : list Z) : status * option (Z * Z * Z) :=
  match r with
  | [] => (NoDataAvailable, None)
  | t :: l => if first_okb t then match dec l with
                | (st, Some (v, n)) => (st, Some (t, v, n + 1)) | (st, None) => (st, None) end
              else (BadResponse, None)
  end.

Lemma pitl_eq buf index : 0 <= index <= zlen buf -> bytes_ok (firstn (Z.to_nat index) buf) ->
  processIncomingPacketTypeAndLength buf index = Ok (hdr_dec (firstn (Z.to_nat index) buf)).
Proof.
  intros Hi Hb. rewrite pitl_prefix by exact Hi. set (r := firstn (Z.to_nat index) buf) in *.
  assert (E : index = zlen r) by (subst r; symmetry; now apply zlen_firstn). clearbody r.
  unfold processIncomingPacketTypeAndLength, hdr_dec. rewrite E. destruct r as [|t l]; [reflexivity|].
  rewrite zlen_cons at 1. pose proof (zlen_nonneg l). replace (1 + zlen l <? 1) with false by lia.
  rewrite rd_0. cbn [rbind]. apply bytes_cons in Hb. destruct Hb as [Ht Hl]. rewrite (valid_first t Ht).
  destruct (first_okb t); [|reflexivity]. rewrite prl_dec by exact Hl. cbn [rbind].
  destruct (dec l) as [st [[v n]|]]; reflexivity.
Qed.

Lemma header_bytes h t rl : header h t rl -> h = t :: varlen rl /\ zlen h = zlen (varlen rl) + 1.
Proof. intros (_ & _ & ->). split; [reflexivity|]. rewrite zlen_cons. lia. Qed.

Lemma hdr_success_iff r t rl hl : bytes_ok r ->
  (hdr_dec r = (Success, Some (t, rl, hl)) <-> exists h rest, r = h ++ rest /\ header h t rl /\ hl = zlen h).
Proof.
  intros Hr. split.
  - destruct r as [|t' l]; [discriminate|]. apply bytes_cons in Hr. destruct Hr as [Ht Hl]. cbn [hdr_dec].
    destruct (first_okb t') eqn:Ef; [|discriminate].
    destruct (dec l) as [st [[v n]|]] eqn:Ed; intros H; [|discriminate]. injection H as -> -> -> <-.
    destruct (dec_success _ _ _ Hl Ed) as (Hv & -> & rest & ->).
    exists (t :: varlen rl), rest. split; [reflexivity|]. split.
    + split; [now apply first_ok_b|]. split; [lia|reflexivity].
    + rewrite zlen_cons. lia.
  - intros (h & rest & -> & (Hf & Hv & ->) & ->). cbn [app hdr_dec].
    pose proof Hf as Hf'. destruct Hf' as [Hby _]. apply first_ok_b in Hf; [|exact Hby]. rewrite Hf.
    rewrite dec_varlen by exact Hv. rewrite zlen_cons. do 3 f_equal. lia.
Qed.

Lemma hdr_nodata_iff r : (hdr_dec r = (NoDataAvailable, None) <-> r = []).
Proof.
  split; [|intros ->; reflexivity]. destruct r as [|t l]; [reflexivity|]. cbn [hdr_dec].
  destruct (first_okb t); [|discriminate].
  destruct (dec_kinds l) as (v & n & [->|[->| ->]]); discriminate.
Qed.

(** a strict, non-empty prefix of a header *)
Lemma hdr_need_iff r : bytes_ok r ->
  (hdr_dec r = (NeedMoreBytes, None) <->
   r <> [] /\ exists more t rl, more <> [] /\ header (r ++ more) t rl).
Proof.
  intros Hr. split.
  - destruct r as [|t l]; [discriminate|]. apply bytes_cons in Hr. destruct Hr as [Ht Hl]. cbn [hdr_dec].
    destruct (first_okb t) eqn:Ef; [|discriminate].
    destruct (dec l) as [st [[v n]|]] eqn:Ed; intros H; [discriminate|]. injection H as ->.
    destruct (dec_need l Hl Ed) as (more & v & Hm & Hv & Eq). split; [discriminate|].
    exists more, t, v. split; [exact Hm|]. split; [now apply first_ok_b|]. split; [lia|]. cbn [app]. now rewrite Eq.
  - intros (Hne & more & t & rl & Hm & Hf & Hv & Eq). destruct r as [|t' l]; [congruence|]. cbn [app] in Eq.
    injection Eq as -> Eq. cbn [hdr_dec]. pose proof Hf as Hf'. destruct Hf' as [Hby _].
    apply first_ok_b in Hf; [|exact Hby]. rewrite Hf. apply bytes_cons in Hr. destruct Hr as [_ Hl].
    destruct (dec_kinds l) as (v & n & [E|[E|E]]); rewrite E; [| reflexivity |].
    + destruct (dec_success _ _ _ Hl E) as (Hv' & _ & rest & ->). exfalso.
      pose proof (dec_varlen rl [] Hv) as D1. rewrite app_nil_r, <- Eq, <- app_assoc in D1.
      rewrite dec_varlen in D1 by exact Hv'. injection D1 as -> _.
      apply (f_equal (@length Z)) in Eq. rewrite !app_length in Eq. destruct more; [congruence|]. cbn [length] in Eq. lia.
    + exfalso. pose proof (dec_bad_more l more E) as D. rewrite Eq in D.
      pose proof (dec_varlen rl [] Hv) as D1. rewrite app_nil_r in D1. rewrite D1 in D. discriminate.
Qed.

Lemma hdr_kinds r : bytes_ok r ->
  (exists t rl hl, hdr_dec r = (Success, Some (t, rl, hl))) \/ hdr_dec r = (NoDataAvailable, None) \/
  hdr_dec r = (NeedMoreBytes, None) \/ hdr_dec r = (BadResponse, None).
Proof.
  intros _. destruct r as [|t l]; [auto|]. cbn [hdr_dec]. destruct (first_okb t); [|auto].
  destruct (dec_kinds l) as (v & n & [->|[->| ->]]); [left; eauto|auto|auto].
Qed.

Lemma hdr_bad_iff r : bytes_ok r ->
  (hdr_dec r = (BadResponse, None) <->
   r <> [] /\ (forall h rest t rl, r = h ++ rest -> ~ header h t rl) /\
   (forall more t rl, ~ header (r ++ more) t rl)).
Proof.
  intros Hr. split.
  - intros H. split; [intros ->; discriminate|]. split.
    + intros h rest t rl E Hh. assert (K : hdr_dec r = (Success, Some (t, rl, zlen h))) by (apply hdr_success_iff; eauto). congruence.
    + intros more t rl Hh. destruct more as [|x more].
      * rewrite app_nil_r in Hh. assert (K : hdr_dec r = (Success, Some (t, rl, zlen r))).
        { apply hdr_success_iff; [exact Hr|]. exists r, []. rewrite app_nil_r. auto. } congruence.
      * assert (K : hdr_dec r = (NeedMoreBytes, None)).
        { apply hdr_need_iff; [exact Hr|]. split; [intros ->; discriminate|]. exists (x :: more), t, rl. split; [discriminate|exact Hh]. }
        congruence.
  - intros (Hne & H1 & H2). destruct (hdr_kinds r Hr) as [(t & rl & hl & E)|[E|[E|E]]]; [| | |exact E]; exfalso.
    + apply hdr_success_iff in E; [|exact Hr]. destruct E as (h & rest & E & Hh & _). eapply H1; eauto.
    + apply hdr_nodata_iff in E. contradiction.
    + apply hdr_need_iff in E; [|exact Hr]. destruct E as (_ & more & t & rl & _ & Hh). eapply H2; eauto.
Qed.

(** stability *)
Lemma hdr_success_more r more t rl hl : hdr_dec r = (Success, Some (t, rl, hl)) ->
  bytes_ok r -> hdr_dec (r ++ more) = (Success, Some (t, rl, hl)).
Proof.
  intros H Hr. apply hdr_success_iff in H; [|exact Hr]. destruct H as (h & rest & -> & (Hf & Hv & ->) & ->).
  rewrite <- app_assoc. cbn [app hdr_dec]. pose proof Hf as Hf'. destruct Hf' as [Hby _].
  apply first_ok_b in Hf; [|exact Hby]. rewrite Hf, dec_varlen by exact Hv. rewrite zlen_cons. do 3 f_equal. lia.
Qed.
Lemma hdr_bad_more r more : hdr_dec r = (BadResponse, None) -> hdr_dec (r ++ more) = (BadResponse, None).
Proof.
  destruct r as [|t l]; [discriminate|]. cbn [app hdr_dec]. destruct (first_okb t); [|auto].
  destruct (dec l) as [st [[v n]|]] eqn:E; [discriminate|]. intros H. injection H as ->.
  now rewrite (dec_bad_more l more E).
Qed.

(** at most five bytes are looked at *)
Lemma hdr_five r : hdr_dec r = hdr_dec (firstn 5 r).
Proof.
  destruct r as [|t [|b1 [|b2 [|b3 [|b4 l]]]]]; try reflexivity.
Qed.
Lemma hdr_need_short r : hdr_dec r = (NeedMoreBytes, None) -> (length r <= 4)%nat.
Proof.
  destruct r as [|t [|b1 [|b2 [|b3 [|b4 l]]]]]; cbn [length]; try lia.
  cbn [hdr_dec dec]. cbv zeta. destruct (first_okb t); [|discriminate].
  destruct (b1 <? 128); [discriminate|]. destruct (b2 <? 128); [destruct (b2 =? 0); discriminate|].
  destruct (b3 <? 128); [destruct (b3 =? 0); discriminate|].
  destruct (b4 <? 128); [destruct (b4 =? 0)|]; discriminate.
Qed.

(** ** The pull parser *)
Lemma grl_step fuel b l e a m n : is_byte b -> m <= 2097152 ->
  getRemainingLength_loop recv1_stream (S fuel) (b :: l, e) a m n =
    if a + b mod 128 * m =? REMAINING_LENGTH_INVALID then Ok (a + b mod 128 * m, n + 1, (l, e))
    else if 128 <=? b then getRemainingLength_loop recv1_stream fuel (l, e) (a + b mod 128 * m) (m * 128) (n + 1)
    else Ok (a + b mod 128 * m, n + 1, (l, e)).
Proof.
  intros Hb Hm. cbn [getRemainingLength_loop recv1_stream]. replace (2097152 <? m) with false by lia.
  cbn [Z.eqb Pos.eqb]. rewrite land127, land128 by exact Hb. reflexivity.
Qed.
Lemma grl_end fuel e a m n : m <= 2097152 -> e <> 1 ->
  getRemainingLength_loop recv1_stream (S fuel) ([], e) a m n = Ok (REMAINING_LENGTH_INVALID, n, ([], e)).
Proof.
  intros Hm He. cbn [getRemainingLength_loop recv1_stream]. replace (2097152 <? m) with false by lia.
  replace (e =? 1) with false by lia. reflexivity.
Qed.

Lemma pull_len_ok l e : bytes_ok l -> e <= 0 ->
  exists s, getRemainingLength recv1_stream (l, e) =
    Ok (match dec l with (Success, Some (v, n)) => (v, (skipn (Z.to_nat n) l, e)) | _ => (REMAINING_LENGTH_INVALID, s) end).
Proof.
  intros Hl He. unfold getRemainingLength, dec.
  destruct l as [|b1 l]; [rewrite grl_end by lia; eexists; reflexivity|].
  apply bytes_cons in Hl. destruct Hl as [H1 Hl]. unfold is_byte in H1.
  rewrite grl_step by (try assumption; lia). unfold REMAINING_LENGTH_INVALID in *.
  replace (0 + b1 mod 128 * 1 =? 268435456) with false by lia.
  destruct (b1 <? 128) eqn:E1.
  { replace (128 <=? b1) with false by lia. cbn [rbind]. replace (0 + b1 mod 128 * 1) with b1 by lia.
    change (0 + 1) with 1.
    replace (negb (b1 =? 268435456) && negb (1 =? remainingLengthEncodedSize b1)) with false by encsz.
    exists (l, e); reflexivity. }
  replace (128 <=? b1) with true by lia.
  destruct l as [|b2 l]; [rewrite grl_end by lia; eexists; reflexivity|].
  apply bytes_cons in Hl. destruct Hl as [H2 Hl]. unfold is_byte in H2.
  rewrite grl_step by (try assumption; lia). unfold REMAINING_LENGTH_INVALID in *.
  match goal with |- context [?x =? 268435456] => replace (x =? 268435456) with false by lia end.
  destruct (b2 <? 128) eqn:E2.
  { replace (128 <=? b2) with false by lia. cbn [rbind].
    match goal with |- context [remainingLengthEncodedSize ?x] => replace x with (b1 - 128 + 128 * b2) by lia end.
    change (0 + 1 + 1) with 2. set (v := b1 - 128 + 128 * b2).
    replace (v =? 268435456) with false by lia. cbn [negb andb].
    destruct (b2 =? 0) eqn:Ez.
    - replace (negb (2 =? remainingLengthEncodedSize v)) with true by (subst v; encsz). eexists; reflexivity.
    - replace (negb (2 =? remainingLengthEncodedSize v)) with false by (subst v; encsz). exists (l, e); reflexivity. }
  replace (128 <=? b2) with true by lia.
  destruct l as [|b3 l]; [rewrite grl_end by lia; eexists; reflexivity|].
  apply bytes_cons in Hl. destruct Hl as [H3 Hl]. unfold is_byte in H3.
  rewrite grl_step by (try assumption; lia). unfold REMAINING_LENGTH_INVALID in *.
  match goal with |- context [?x =? 268435456] => replace (x =? 268435456) with false by lia end.
  destruct (b3 <? 128) eqn:E3.
  { replace (128 <=? b3) with false by lia. cbn [rbind].
    match goal with |- context [remainingLengthEncodedSize ?x] => replace x with (b1 - 128 + 128 * (b2 - 128) + 16384 * b3) by lia end.
    change (0 + 1 + 1 + 1) with 3. set (v := b1 - 128 + 128 * (b2 - 128) + 16384 * b3).
    replace (v =? 268435456) with false by lia. cbn [negb andb].
    destruct (b3 =? 0) eqn:Ez.
    - replace (negb (3 =? remainingLengthEncodedSize v)) with true by (subst v; encsz). eexists; reflexivity.
    - replace (negb (3 =? remainingLengthEncodedSize v)) with false by (subst v; encsz). exists (l, e); reflexivity. }
  replace (128 <=? b3) with true by lia.
  destruct l as [|b4 l]; [rewrite grl_end by lia; eexists; reflexivity|].
  apply bytes_cons in Hl. destruct Hl as [H4 Hl]. unfold is_byte in H4.
  rewrite grl_step by (try assumption; lia). unfold REMAINING_LENGTH_INVALID in *.
  match goal with |- context [?x =? 268435456] => replace (x =? 268435456) with false by lia end.
  destruct (b4 <? 128) eqn:E4.
  { replace (128 <=? b4) with false by lia. cbn [rbind].
    match goal with |- context [remainingLengthEncodedSize ?x] => replace x with (b1 - 128 + 128 * (b2 - 128) + 16384 * (b3 - 128) + 2097152 * b4) by lia end.
    change (0 + 1 + 1 + 1 + 1) with 4. set (v := b1 - 128 + 128 * (b2 - 128) + 16384 * (b3 - 128) + 2097152 * b4).
    replace (v =? 268435456) with false by lia. cbn [negb andb].
    destruct (b4 =? 0) eqn:Ez.
    - replace (negb (4 =? remainingLengthEncodedSize v)) with true by (subst v; encsz). eexists; reflexivity.
    - replace (negb (4 =? remainingLengthEncodedSize v)) with false by (subst v; encsz). exists (l, e); reflexivity. }
  replace (128 <=? b4) with true by lia.
  cbn [getRemainingLength_loop]. replace (2097152 <? 1 * 128 * 128 * 128 * 128) with true by lia.
  eexists. reflexivity.
Qed.

Lemma pull_agrees l e : bytes_ok l -> e <= 0 ->
  exists s,
  getIncomingPacketTypeAndLength recv1_stream (l, e) =
  Ok (match hdr_dec l with
      | (Success, Some (t, rl, hl)) => (Success, Some (t, rl), (skipn (Z.to_nat hl) l, e))
      | (NoDataAvailable, _) => (if e =? 0 then NoDataAvailable else RecvFailed, None, s)
      | _ => (BadResponse, None, s)
      end).
Proof.
  intros Hl He. unfold getIncomingPacketTypeAndLength. destruct l as [|t l].
  { cbn [recv1_stream hdr_dec]. replace (e =? 1) with false by lia. destruct (e =? 0); eexists; reflexivity. }
  cbn [recv1_stream hdr_dec Z.eqb Pos.eqb]. apply bytes_cons in Hl. destruct Hl as [Ht Hl].
  rewrite (valid_first t Ht). destruct (first_okb t); [|eexists; reflexivity].
  destruct (pull_len_ok l e Hl He) as [s Es]. rewrite Es. cbn [rbind].
  destruct (dec_kinds l) as (v & n & [E|[E|E]]); rewrite E.
  - destruct (dec_success _ _ _ Hl E) as (Hv & Hn & _). unfold max_remaining, REMAINING_LENGTH_INVALID in *.
    replace (v =? 268435456) with false by lia. exists s.
    pose proof (zlen_nonneg (varlen v)). replace (Z.to_nat (n + 1)) with (S (Z.to_nat n)) by lia. reflexivity.
  - exists s. reflexivity.
  - exists s. reflexivity.
Qed.
