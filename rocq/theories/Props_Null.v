(** NULL arguments of the public functions. *)
From Verif Require Import Base StateModel SerModel TopicModel CoreModel CoreHarness CoreCases NullModel.

Lemma out_given {A} (v : option A) : out true v = Ok v.
Proof. destruct v; reflexivity. Qed.

Lemma massert_true {A} (m : Mo A) s : (massert true ;; m) s = m s.
Proof. unfold bind, massert, ret. destruct (m s); reflexivity. Qed.

(** *** C96 *)
(** With NULL for the context every function of the client answers MQTTBadParameter
    (MQTT_GetPacketId: 0), and does nothing. *)
Theorem null_context_refused : forall G c s, n_call G false c s = Ret BadParameter s [] /\ n_getPacketId false s = Ret 0 s [].
Proof.
  intros G c s. split; [|reflexivity]. destruct c; try reflexivity.
  - destruct p; reflexivity.
  - destruct ci; reflexivity.
Qed.
Print Assumptions null_context_refused.
Example null_context_case : n_call cfg1 false (NConnect (Some con1) None 1000 true) (client1 (mkEnv [] [] [] [] [] [] [])) = Ret BadParameter (client1 (mkEnv [] [] [] [] [] [] [])) [].
Proof. vm_compute. reflexivity. Qed.

(** the call of CoreModel that a call with all its required pointers is *)
Definition given (c : ncall) : option call :=
  match c with
  | NPublish (Some p) id => Some (COp (OPublish p id))
  | NSubscribe (Some l) n id => Some (COp (OSubscribe (Some l) n id))
  | NUnsubscribe (Some l) n id => Some (COp (OUnsubscribe (Some l) n id))
  | NPing => Some (COp OPing) | NDisconnect => Some (COp ODisconnect) | NCancel id => Some (COp (OCancel id)) | NCheck => Some (COp OCheck)
  | NConnect (Some ci) w t true => Some (CConnect ci w t)
  | NProcess => Some CProcess | NReceive => Some CReceive
  | _ => None
  end.
(** With a context, and NULL for any other required pointer, the answer is
    MQTTBadParameter, nothing is sent, received or asked of the application, and the
    client stays as it was; except that MQTT_Connect on a working connection marks it as
    broken. *)
Theorem null_argument_refused : forall G c s, given c = None ->
  n_call G true c s = Ret BadParameter (match c with NConnect _ _ _ _ => mkSt (transport_broke (s_ctx s)) (s_env s) | _ => s end) [].
Proof.
  intros G c s H. destruct c; try discriminate H.
  - destruct p; [discriminate|]. reflexivity.
  - destruct l; [discriminate|]. reflexivity.
  - destruct l; [discriminate|]. reflexivity.
  - destruct ci; [|reflexivity]. destruct pPresent; [discriminate|]. reflexivity.
Qed.
Print Assumptions null_argument_refused.
Example null_argument_case : let s := after_calls [CConnect con1 None 1000] (client1 (mkEnv [32; 2; 0; 0] [1; 1; 2] (repeat 99 40) (repeat 0 40) [] [] [])) in
  x_status (s_ctx s) = Connected /\ n_call cfg1 true (NPublish None 1) s = Ret BadParameter s [] /\
  exists s', n_call cfg1 true (NConnect None None 1000 true) s = Ret BadParameter s' [] /\ x_status (s_ctx s') = DisconnectPending.
Proof. cbv zeta. split; [vm_compute; reflexivity|]. split; [vm_compute; reflexivity|]. eexists. split; vm_compute; reflexivity. Qed.
(** Refuted: a NULL argument leaves the client as it was. *)
Theorem null_argument_harmless_refuted : exists G c s s', given c = None /\ n_call G true c s = Ret BadParameter s' [] /\ x_status (s_ctx s) = Connected /\ x_status (s_ctx s') = DisconnectPending.
Proof.
  exists cfg1, (NConnect (Some con1) None 1000 false), (after_calls [CConnect con1 None 1000] (client1 (mkEnv [32; 2; 0; 0] [1; 1; 2] (repeat 99 40) (repeat 0 40) [] [] []))).
  eexists. split; [reflexivity|]. split; [vm_compute; reflexivity|]. split; vm_compute; reflexivity.
Qed.
Print Assumptions null_argument_harmless_refuted.

(** With every required pointer given the function is that of CoreModel. *)
Theorem given_arguments_same : forall G c c' s, given c = Some c' -> n_call G true c s = run_call G c' s /\ n_getPacketId true s = getPacketId s.
Proof.
  intros G c c' s H. split; [|exact (massert_true _ s)]. destruct c; try (injection H as <-).
  - destruct p; [|discriminate]. injection H as <-. exact (massert_true _ s).
  - destruct l; [|discriminate]. injection H as <-. exact (massert_true _ s).
  - destruct l; [|discriminate]. injection H as <-. exact (massert_true _ s).
  - exact (massert_true _ s).
  - exact (massert_true _ s).
  - exact (massert_true _ s).
  - reflexivity.
  - destruct ci as [ci|]; [|discriminate]. destruct pPresent; [|discriminate]. injection H as <-.
    unfold n_call, n_connect, run_call. cbn [negb orb]. unfold bind at 1. rewrite massert_true. unfold bind.
    destruct (connect G ci will timeoutMs s) as [[st sp] s1 t1| |]; try reflexivity. rewrite out_given. cbn. rewrite !app_nil_r. reflexivity.
  - exact (massert_true _ s).
  - exact (massert_true _ s).
Qed.
Print Assumptions given_arguments_same.

(** ** The serialiser and the decoders *)

(** The functions of the serialiser with one of their required pointers NULL answer
    MQTTBadParameter; nothing is written and nothing is read. *)
Theorem null_serializer_refused : forall M c will subs count id rl p k (buf : option (option (list Z))) pr ps,
  (c = None \/ pr = false \/ ps = false -> n_getConnectPacketSize c will pr ps = Ok (BadParameter, None)) /\
  (c = None \/ buf = None -> n_serializeConnect M c will rl buf = Ok (BadParameter, buf)) /\
  (subs = None \/ pr = false \/ ps = false -> n_getSubscribePacketSize M subs count pr ps = Ok (BadParameter, None) /\ n_getUnsubscribePacketSize M subs count pr ps = Ok (BadParameter, None)) /\
  (subs = None \/ buf = None -> n_serializeSubscribe M subs count id rl buf = Ok (BadParameter, buf) /\ n_serializeUnsubscribe M subs count id rl buf = Ok (BadParameter, buf)) /\
  (p = None \/ pr = false \/ ps = false -> n_getPublishPacketSize p pr ps = Ok (BadParameter, None)) /\
  (p = None \/ buf = None -> n_serializePublish M p id rl buf = Ok (BadParameter, buf)) /\
  (p = None \/ buf = None \/ ps = false -> n_serializePublishHeader M p id rl buf ps = Ok (BadParameter, buf, None)) /\
  (buf = None -> n_serializeAck buf k id = Ok (BadParameter, None) /\ n_serializeDisconnect buf = Ok (BadParameter, None) /\ n_serializePingreq buf = Ok (BadParameter, None)) /\
  (ps = false -> n_getDisconnectPacketSize ps = Ok (BadParameter, None) /\ n_getPingreqPacketSize ps = Ok (BadParameter, None)).
Proof.
  intros. repeat apply conj.
  - destruct c; [|reflexivity]. intros [H|[H|H]]; [discriminate| |]; subst; [|destruct pr]; reflexivity.
  - destruct c, buf; try reflexivity. intros [H|H]; discriminate.
  - intros [H|[H|H]]; subst; [|destruct subs|destruct subs, pr]; split; reflexivity.
  - destruct buf as [b|]; [|split; reflexivity]. intros [H|H]; [subst|discriminate]. destruct b; split; reflexivity.
  - destruct p; [|reflexivity]. intros [H|[H|H]]; [discriminate| |]; subst; [|destruct pr]; reflexivity.
  - destruct p, buf; try reflexivity. intros [H|H]; discriminate.
  - destruct p, buf; try reflexivity. intros [H|[H|H]]; [discriminate|discriminate|]; subst; reflexivity.
  - intro H. subst. repeat split; reflexivity.
  - intro H. subst. split; reflexivity.
Qed.
Print Assumptions null_serializer_refused.

(** The same for the functions that decode. MQTT_DeserializeAck wants an identifier
    pointer for all types but CONNACK and PINGRESP, a session present pointer for CONNACK. *)
Theorem null_decoder_refused : forall M k pi pf W (recv1 : W -> Z * Z * W) w h b i n nl f fl set,
  (k = None \/ pi = false \/ pf = false -> n_deserializePublish M k pi pf = Ok (BadParameter, None)) /\
  (k = None \/ (exists x, k = Some x /\ (pi = false /\ k_type x <> PKT_CONNACK /\ k_type x <> PKT_PINGRESP \/ pf = false /\ k_type x = PKT_CONNACK)) ->
     n_deserializeAck k pi pf = Ok (BadParameter, None, None)) /\
  (pi = false -> n_getIncomingPacketTypeAndLength recv1 w pi = Ok (BadParameter, None, w)) /\
  (h = None -> n_updateDuplicatePublishFlag h set = (BadParameter, None)) /\
  (b = None \/ i = None \/ pi = false -> n_processIncomingPacketTypeAndLength b i pi = Ok (BadParameter, None)) /\
  (k = None \/ pi = false \/ pf = false -> n_getSubAckStatusCodes k pi pf = Ok (BadParameter, None)) /\
  (n = None \/ f = None \/ pi = false -> n_matchTopic n nl f fl pi = Ok (BadParameter, None)).
Proof.
  intros. repeat apply conj.
  - destruct k; [|reflexivity]. intros [H|[H|H]]; [discriminate| |]; subst; [|destruct pi]; reflexivity.
  - destruct k as [k|]; [|reflexivity]. intros [H|(x & E & H)]; [discriminate|]. injection E as <-. unfold n_deserializeAck.
    destruct H as [(-> & A & B)|(-> & A)].
    + rewrite (proj2 (Z.eqb_neq _ _) A), (proj2 (Z.eqb_neq _ _) B). reflexivity.
    + rewrite A. cbn. destruct pi; reflexivity.
  - intros ->. reflexivity.
  - intros ->. reflexivity.
  - destruct pi; [|reflexivity]. intros [H|[H|H]]; [| |discriminate]; subst; [destruct i|]; reflexivity.
  - destruct k; [|reflexivity]. intros [H|[H|H]]; [discriminate| |]; subst; [|destruct pi]; reflexivity.
  - intro H. unfold n_matchTopic. destruct (absent n || (nl =? 0)) eqn:A; [reflexivity|]. destruct (absent f || (fl =? 0)) eqn:B; [reflexivity|].
    destruct H as [H|[H|H]]; subst; cbn in *; [discriminate|discriminate|reflexivity].
Qed.
Print Assumptions null_decoder_refused.
Example null_decoder_case : n_deserializeAck (Some (mkPkt PKT_PUBACK 2 (Some [0; 7]))) false true = Ok (BadParameter, None, None) /\
  n_deserializeAck (Some (mkPkt PKT_CONNACK 2 (Some [1; 0]))) false true = Ok (Success, None, Some true) /\
  n_getIncomingPacketTypeAndLength (fun n : nat => (1, 48, S n)) 0%nat false = Ok (BadParameter, None, 0%nat).
Proof. repeat split; vm_compute; reflexivity. Qed.

(** With the pointers given these are the functions of SerModel and TopicModel. *)
Theorem given_serializer_same : forall M c will subs count id rl p t b l, subs = Some l ->
  n_getConnectPacketSize (Some c) will true true = Ok (getConnectPacketSize c will) /\
  n_serializeConnect M (Some c) will rl (Some b) = (let! (st, b) := serializeConnect M c will rl b in Ok (st, Some b)) /\
  n_getSubscribePacketSize M subs count true true = getSubscribePacketSize M subs count /\
  n_getUnsubscribePacketSize M subs count true true = getUnsubscribePacketSize M subs count /\
  n_serializeSubscribe M subs count id rl (Some b) = (let! (st, b) := serializeSubscribe M subs count id rl b in Ok (st, Some b)) /\
  n_serializeUnsubscribe M subs count id rl (Some b) = (let! (st, b) := serializeUnsubscribe M subs count id rl b in Ok (st, Some b)) /\
  n_getPublishPacketSize (Some p) true true = Ok (getPublishPacketSize p) /\
  n_serializePublish M (Some p) id rl (Some b) = (let! (st, b) := serializePublish M p id rl b in Ok (st, Some b)) /\
  n_serializePublishHeader M (Some p) id rl (Some b) true = (let! (st, b, n) := serializePublishHeader M p id rl b in Ok (st, Some b, n)) /\
  n_serializeAck (Some b) t id = (let! (st, b) := serializeAck b t id in Ok (st, Some b)) /\
  n_serializeDisconnect (Some b) = (let! (st, b) := serializeDisconnect b in Ok (st, Some b)) /\
  n_serializePingreq (Some b) = (let! (st, b) := serializePingreq b in Ok (st, Some b)) /\
  n_getDisconnectPacketSize true = Ok (Success, Some 2) /\ n_getPingreqPacketSize true = Ok (Success, Some 2).
Proof.
  intros M c will subs count id rl p t b l H. subst.
  assert (E : forall A (m : R (status * option A)), (let! (st, o) := m in let! o := out true o in Ok (st, o)) = m).
  { intros A m. destruct m as [[st o]|]; [|reflexivity]. cbn. rewrite out_given. reflexivity. }
  repeat apply conj; try reflexivity.
  - unfold n_getConnectPacketSize. cbn [negb orb andb]. destruct (getConnectPacketSize c will) as [st o]. rewrite out_given. reflexivity.
  - exact (E _ _).
  - exact (E _ _).
  - unfold n_getPublishPacketSize. cbn [negb orb andb]. destruct (getPublishPacketSize p) as [st o]. rewrite out_given. reflexivity.
  - unfold n_serializePublishHeader. cbn [negb]. destruct (serializePublishHeader M p id rl b) as [[[st b'] n]|]; [|reflexivity]. cbn. rewrite out_given. reflexivity.
Qed.
Print Assumptions given_serializer_same.

(** In MQTT_DeserializeAck a pointer that is not wanted for the type may be NULL: the
    result is the same, and nothing is written through it. *)
Theorem given_decoder_same : forall M k W (recv1 : W -> Z * Z * W) w h set b i n nl f fl pi pf,
  n_deserializePublish M (Some k) true true = deserializePublishApi M k /\
  (pi = true \/ k_type k = PKT_CONNACK \/ k_type k = PKT_PINGRESP -> pf = true \/ k_type k <> PKT_CONNACK -> n_deserializeAck (Some k) pi pf = deserializeAck k) /\
  n_getIncomingPacketTypeAndLength recv1 w true = getIncomingPacketTypeAndLength recv1 w /\
  n_updateDuplicatePublishFlag (Some h) set = (fst (updateDuplicatePublishFlag h set), Some (snd (updateDuplicatePublishFlag h set))) /\
  n_processIncomingPacketTypeAndLength (Some b) (Some i) true = processIncomingPacketTypeAndLength b i /\
  n_getSubAckStatusCodes (Some k) true true = Ok (getSubAckStatusCodes k) /\
  n_matchTopic n nl f fl true = matchTopic n nl f fl.
Proof.
  intros. assert (E : forall A (m : R (status * option A)), (let! (st, o) := m in let! o := out true o in Ok (st, o)) = m).
  { intros A m. destruct m as [[st o]|]; [|reflexivity]. cbn. rewrite out_given. reflexivity. }
  repeat apply conj.
  - unfold n_deserializePublish. cbn [negb orb]. destruct (deserializePublishApi M k) as [[st [[d id]|]]|]; try reflexivity. cbn. rewrite out_given. reflexivity.
  - intros A B. unfold n_deserializeAck.
    assert (C : (negb pi && (negb (k_type k =? PKT_CONNACK) && negb (k_type k =? PKT_PINGRESP))) = false).
    { destruct A as [->|[A|A]]; [reflexivity| |]; rewrite A; cbn; rewrite ?andb_false_r; reflexivity. }
    assert (D : (negb pf && (k_type k =? PKT_CONNACK)) = false).
    { destruct B as [->|B]; [reflexivity|]. rewrite (proj2 (Z.eqb_neq _ _) B), andb_false_r. reflexivity. }
    rewrite C, D. unfold deserializeAck.
    assert (I : pi = false -> k_type k = PKT_CONNACK \/ k_type k = PKT_PINGRESP) by (intros ->; destruct A as [A|A]; [discriminate|exact A]).
    assert (J : pf = false -> k_type k <> PKT_CONNACK) by (intros ->; destruct B as [B|B]; [discriminate|exact B]).
    destruct (k_data k) as [d|]; [|destruct (k_type k =? PKT_PINGRESP); reflexivity].
    destruct (k_type k =? PKT_CONNACK) eqn:T1.
    { destruct (deserializeConnack (k_rem k) d) as [[st sp]|]; [|reflexivity]. cbn. destruct pf; [rewrite out_given; reflexivity|].
      exfalso. apply (J eq_refl). apply Z.eqb_eq. exact T1. }
    apply Z.eqb_neq in T1.
    destruct (k_type k =? PKT_SUBACK) eqn:T2.
    { apply Z.eqb_eq in T2. destruct (deserializeSuback (k_rem k) d) as [[st id]|]; [|reflexivity]. cbn. destruct pi; [rewrite out_given; reflexivity|].
      destruct (I eq_refl) as [X|X]; rewrite X in T2; discriminate. }
    destruct (k_type k =? PKT_PINGRESP) eqn:T3; [reflexivity|]. apply Z.eqb_neq in T3.
    destruct (_ || _); [|reflexivity]. destruct (deserializeSimpleAck (k_rem k) d) as [[st id]|]; [|reflexivity]. cbn. destruct pi; [rewrite out_given; reflexivity|].
    destruct (I eq_refl); contradiction.
  - reflexivity.
  - unfold n_updateDuplicatePublishFlag. destruct (updateDuplicatePublishFlag h set). reflexivity.
  - exact (E _ _).
  - unfold n_getSubAckStatusCodes. cbn [negb andb]. destruct (getSubAckStatusCodes k) as [st o]. rewrite out_given. reflexivity.
  - unfold n_matchTopic. destruct n as [n|]; [|reflexivity]. cbn [absent orb]. destruct (nl =? 0) eqn:A; [unfold matchTopic; rewrite A; reflexivity|].
    destruct f as [f|]; [|unfold matchTopic; rewrite A; reflexivity]. cbn [absent orb]. destruct (fl =? 0) eqn:B; [unfold matchTopic; rewrite A, B; reflexivity|].
    exact (E _ _).
Qed.
Print Assumptions given_decoder_same.

(** ** The state engine *)

(** NULL for the context or a result pointer: MQTTBadParameter, or the identifier 0. *)
Theorem null_state_refused_partial : forall s id q t op c pn, s = None \/ pn = false -> 
  (s = None -> q <> Q0 -> n_reserveState s id q = Ok (BadParameter, None)) /\
  n_updateStatePublish s id op q pn = Ok (BadParameter, None, s) /\
  (s = None -> n_removeStateRecord s id = Ok (BadParameter, None)) /\
  n_updateStateAck s id t op pn = Ok (BadParameter, None, s) /\
  n_pubrelToResend s c pn = Ok (0, c) /\ n_pubrelToResend s None pn = Ok (0, None) /\
  (s = None -> n_publishToResend s c = (0, c)) /\ n_publishToResend s None = (0, None).
Proof.
  intros s id q t op c pn H. repeat apply conj.
  - intros -> Q. unfold n_reserveState. destruct q; [contradiction Q; reflexivity| |]; reflexivity.
  - destruct H as [->| ->]; [reflexivity|]. destruct s; reflexivity.
  - intros ->. reflexivity.
  - destruct H as [->| ->]; [reflexivity|]. destruct s; reflexivity.
  - destruct H as [->| ->]; [reflexivity|]. destruct s, c; reflexivity.
  - destruct s; reflexivity.
  - intros ->. reflexivity.
  - destruct s; reflexivity.
Qed.
Print Assumptions null_state_refused_partial.
(** Refuted: MQTT_ReserveState refuses a NULL context. For QoS 0 it reports success. *)
Theorem null_reserve_refuted : exists id q, n_reserveState None id q = Ok (Success, None).
Proof. exists 1, Q0. reflexivity. Qed.
Print Assumptions null_reserve_refuted.
Theorem given_state_same : forall r id q t op c,
  n_reserveState (Some r) id q = (let! (st, r) := reserveState r id q in Ok (st, Some r)) /\
  n_updateStatePublish (Some r) id op q true = (let! (st, ns, r) := updateStatePublishApi r id op q in Ok (st, ns, Some r)) /\
  n_removeStateRecord (Some r) id = (let! (st, r) := removeStateRecord r id in Ok (st, Some r)) /\
  n_updateStateAck (Some r) id t op true = (let! (st, ns, r) := updateStateAckApi r id t op in Ok (st, ns, Some r)) /\
  n_pubrelToResend (Some r) (Some c) true = Ok (fst (pubrelToResend r c), Some (snd (pubrelToResend r c))) /\
  n_publishToResend (Some r) (Some c) = (fst (publishToResend r c), Some (snd (publishToResend r c))).
Proof.
  intros. repeat apply conj.
  - unfold n_reserveState, reserveState. destruct (qos_beq q Q0); reflexivity.
  - unfold n_updateStatePublish. cbn [negb]. destruct (updateStatePublishApi r id op q) as [[[st ns] r']|]; [|reflexivity]. cbn. rewrite out_given. reflexivity.
  - reflexivity.
  - unfold n_updateStateAck. cbn [negb]. destruct (updateStateAckApi r id t op) as [[[st ns] r']|]; [|reflexivity]. cbn. rewrite out_given. reflexivity.
  - unfold n_pubrelToResend. cbn [negb]. destruct (pubrelToResend r c) as [i c']. rewrite out_given. reflexivity.
  - unfold n_publishToResend. destruct (publishToResend r c) as [i c']. reflexivity.
Qed.
Print Assumptions given_state_same.
