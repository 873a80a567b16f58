(** The conversions of lengths to int32_t. *)
From Verif Require Import Base StateModel StateSpec StateHarness SerModel WireSpec SerHarness CoreModel CoreSpec CoreHarness SerProofs CoreCases CoreFinal3 Props_Findings
  ConcModel ConcHarness ConcCases Machine MachSpec MachProofs MachProofs5 MachFinal MachCases CoreTime IntModel IntProofs.

(** *** C100 *)
(** Below 2^31 nothing is lost: the functions with the conversions are the functions
    of the other models. *)
Theorem sending_converts : forall G s,
  (forall bs, zlen bs < 2 ^ 31 -> i_sendBuffer G bs s = sendBuffer G bs s) /\
  (forall vs, zlen (concat vs) < 2 ^ 31 -> 2 ^ 31 <= g_M G -> i_sendMessageVector G vs s = sendMessageVector G vs s) /\
  (forall ci will tmo, Forall short (e_retrs (s_env s)) -> bytes_ok (e_in (s_env s)) -> i_connect G ci will tmo s = connect G ci will tmo s).
Proof.
  intros G s. split; [|split]; intros.
  - now apply sendBuffer_same.
  - now apply sendMessageVector_same.
  - now apply connect_same.
Qed.
Print Assumptions sending_converts.
Theorem receiving_converts : forall G s,
  (forall n, n < 2 ^ 31 -> i_recvExact G n s = recvExact G n s) /\
  (forall rem tmo, 0 <= rem < 2 ^ 31 -> i_receivePacket G rem tmo s = receivePacket G rem tmo s) /\
  (forall ty rem hdr, 0 <= x_index (s_ctx s) <= rem + hdr -> rem + hdr < 2 ^ 31 -> 2 ^ 31 <= g_M G ->
     i_discardStoredPacket G ty rem hdr s = discardStoredPacket G ty rem hdr s).
Proof.
  intros G s. split; [|split]; intros.
  - now apply recvExact_same.
  - now apply receivePacket_same.
  - now apply discardStoredPacket_same.
Qed.
Print Assumptions receiving_converts.
Theorem records_convert : forall l id q st, zlen l < 2 ^ 31 -> i_addRecord l id q st = addRecord l id q st.
Proof. exact addRecord_same. Qed.
Print Assumptions records_convert.
Example converts_case : i_sendBuffer cfg1 [192; 0] up = sendBuffer cfg1 [192; 0] up /\ i_recvExact cfg1 2 up = recvExact cfg1 2 up /\
  2 ^ 31 <= g_M cfg1 /\ zlen [empty_rec; empty_rec] < 2 ^ 31 /\ i_addRecord [empty_rec; empty_rec] 7 Q1 PublishSend = Ok (Success, [mkRec 7 Q1 PublishSend; empty_rec]).
Proof. split; [|split; [|split; [vm_compute; discriminate|split; [reflexivity|vm_compute; reflexivity]]]]; vm_compute; reflexivity. Qed.

(** What is sent is far below 2^31, copies of the application apart. *)
Theorem lengths_small : forall G n m l w s s' t, completed G n m l w s s' t -> exists k, spells t k /\
  forall x p, In x k -> carries x = Some p -> (forall id bs, p <> KAgain id bs) -> zlen (bytes p) <= largest.
Proof.
  intros G n m l w s s' t H. destruct (completed_legal G n m l w s s' t H) as (k & Hk). exists k. split; [exact Hk|].
  intros x p Hx Hc Hn. apply in_split in Hx. destruct Hx as (k1 & k2 & ->). destruct Hk as (_ & Hk). destruct (Hk k1 x k2 p eq_refl Hc) as (Ho & _). now apply bytes_short.
Qed.
Print Assumptions lengths_small.
Example lengths_case : completed cfg1 3 2 tour_calls tour_world (client1 tour_env) (c_after tour_calls tour_world (client1 tour_env)) tour_trace /\ largest < 2 ^ 31.
Proof. split; [exact tour_completed|reflexivity]. Qed.

(** Beyond: a copy of 2^32 bytes is taken as sent although no byte of it was sent. *)
Definition lost_ctx : context := s_ctx (after_calls [conn1; COp (OPublish (pub1 Q1) 7); COp ODisconnect] (client1 (mkEnv [32; 2; 0; 0] [1; 1; 2] (repeat 100 9) (repeat 0 99) [] [true] []))).
Definition lost_state (bs : list Z) : st := mkSt lost_ctx (mkEnv [32; 2; 1; 0] [1; 1; 2] (repeat 100 9) (repeat 0 99) [] [] [Some bs]).
Lemma lost_copy bs : int32 (zlen bs) = 0 -> exists s' , i_connect cfg1 con1 None 1000 (lost_state bs) = Ret (Success, Some true) s' [EOut con_bytes; EIn [32]; EIn [2]; EIn [1; 0]; ERetrieve 7 (Some bs)].
Proof.
  intro Z0. eexists. unfold i_connect. 
    match goal with |- context [getConnectPacketSize con1 None] => let v := eval vm_compute in (getConnectPacketSize con1 None) in change (getConnectPacketSize con1 None) with v end. cbv beta iota.
    match goal with |- bind ?m ?k ?s = _ => let v := eval vm_compute in (m s) in assert (E1 : m s = v) by (vm_compute; reflexivity); unfold bind at 1; rewrite E1; clear E1 end.
    cbv beta iota. cbn [status_beq andb].
    unfold bind at 1, i_handleUncleanSessionResumption at 1.
    match goal with |- context [bind getc ?k ?s] => change (bind getc k s) with (match k (s_ctx s) s with Ret b s2 t2 => Ret b s2 ([] ++ t2) | Undef => Undef | Stuck => Stuck end) end.
    cbv beta. 
    match goal with |- context [pubrelToResend ?r 0] => let v := eval vm_compute in (pubrelToResend r 0) in change (pubrelToResend r 0) with v end. cbv beta iota.
    match goal with |- context [bind (pubrel_loop ?G ?f ?i ?c) ?k ?s] => let v := eval vm_compute in (pubrel_loop G f i c s) in
      assert (E1 : pubrel_loop G f i c s = v) by (vm_compute; reflexivity); unfold bind at 1; rewrite E1; clear E1 end.
    cbv beta iota. cbn [status_beq andb s_ctx x_retr].
    match goal with |- context [i_publish_loop ?G (S ?f) 0 ?s] => erewrite (skipped G f 0 s) by (first [exact Z0|vm_compute; reflexivity|discriminate]) end.
    match goal with |- context [i_publish_loop ?G ?f ?c ?s] => let v := eval vm_compute in (i_publish_loop G f c s) in
      replace (i_publish_loop G f c s) with v by (vm_compute; reflexivity) end.
    cbv beta iota. vm_compute. reflexivity.
Qed.
Theorem copies_sent_refuted : ~ (forall G ci will tmo s sp s' t id bs, i_connect G ci will tmo s = Ret (Success, sp) s' t -> In (ERetrieve id (Some bs)) t ->
  exists a b, outs t = a ++ bs ++ b).
Proof.
  intro H. destruct (some_length (2 ^ 32)) as (bs & L); [discriminate|]. destruct (lost_copy bs) as (s' & E); [rewrite L; reflexivity|].
  destruct (H _ _ _ _ _ _ _ _ 7 bs E) as (a & b & K); [right; right; right; right; left; reflexivity|].
  apply (f_equal zlen) in K. rewrite !zlen_app, L in K. pose proof (zlen_nonneg a). pose proof (zlen_nonneg b).
  change (zlen (outs [EOut con_bytes; EIn [32]; EIn [2]; EIn [1; 0]; ERetrieve 7 (Some bs)])) with 17 in K. lia.
Qed.
Print Assumptions copies_sent_refuted.

(** With more than 2^31 slots no record can be made, free as they are. *)
Theorem free_slot_found_refuted : ~ (forall l id q st, In empty_rec l -> l = repeat empty_rec (length l) -> 1 <= id <= 65535 -> q <> Q0 -> exists l', i_addRecord l id q st = Ok (Success, l')).
Proof.
  intro H. assert (exists n, 2147483648 < n < 4294967296) as (n & Hn) by (exists 2147483649; lia).
  destruct (H (repeat empty_rec (Z.to_nat n)) 7 Q1 PublishSend) as (l' & E).
  - replace (Z.to_nat n) with (S (Z.to_nat (n - 1))) by lia. now left.
  - now rewrite repeat_length.
  - lia.
  - discriminate.
  - rewrite huge_array in E; [discriminate|lia|lia|discriminate].
Qed.
Print Assumptions free_slot_found_refuted.
