(** What the receive buffer holds when a connection begins. *)
From Verif Require Import Base StateModel StateSpec StateHarness SerModel WireSpec SerHarness CoreModel CoreSpec CoreHarness CoreCases CoreProofs13 CoreProofs14 CoreProofs16 CoreFinal CoreFinal3 Props_Findings Props_Core Props_Loop FreshProofs.

(** *** C101 *)
(** A connection begins with nothing in the receive buffer, if the loops were not called
    without a connection before. *)
Theorem starts_empty_partial : forall G n m l s0 rs s t ci will tmo sp s' t', opened G n m s0 -> loops_connected G l s0 -> run_calls G l s0 = Ret rs s t ->
  connect G ci will tmo s = Ret (Success, sp) s' t' -> pend (s_ctx s') = [].
Proof.
  intros G n m l s0 rs s t ci will tmo sp s' t' Ho Hl H K.
  destruct (begun_inv G n m s) as (R1 & R2 & _); [exists s0, l, rs, t; auto|].
  pose proof (opened_inv G n m s0 Ho) as (Hr & Hc & Hd).
  assert (Hb : blank s0) by (destruct Ho as (buf & retr & e & _ & _ & _ & _ & _ & ->); intros _; reflexivity).
  pose proof (calls_blank G n m l s0 rs s t Hr Hc Hd Hb Hl H) as Bs.
  assert (Hn : x_status (s_ctx s) = NotConnected).
  { destruct (x_status (s_ctx s)) eqn:E; auto; (destruct (connect_when_up G ci will tmo s Success sp s' t') as (_ & _ & _ & Q); [congruence|exact K|]);
      rewrite E in Q; destruct Q as [(_ & _ & Q)|(Q & Q2 & _)]; congruence. }
  assert (E : x_index (s_ctx s') = 0) by (destruct (connect_index G n m ci will tmo s Success sp s' t' R1 R2 K) as [(E & _)|(E & _)]; [rewrite E; now apply Bs|exact E]).
  unfold pend. rewrite E. reflexivity.
Qed.
Print Assumptions starts_empty_partial.
Example starts_empty_case : opened cfg1 3 2 (client1 env_resume) /\ loops_connected cfg1 calls_resume (client1 env_resume) /\
  x_status (s_ctx resume_from) = NotConnected /\ results (calls_resume ++ [conn1]) (client1 env_resume) = repeat Success 6.
Proof.
  split; [|split; [|split]].
  - exists (repeat 0 32), true, env_resume. repeat split; try (vm_compute; congruence); [apply bytes_dec|apply bytes_dec]; vm_compute; reflexivity.
  - vm_compute. repeat split; intros; discriminate.
  - vm_compute. reflexivity.
  - vm_compute. reflexivity.
Qed.

(** In general a new session begins with nothing, a resumed one with what there was. *)
Theorem bytes_at_connect : forall G n m ci will tmo s sp s' t, Begun G n m s -> connect G ci will tmo s = Ret (Success, sp) s' t ->
  sp = Some false /\ pend (s_ctx s') = [] \/ sp = Some true /\ x_index (s_ctx s') = x_index (s_ctx s).
Proof.
  intros G n m ci will tmo s sp s' t HB H. destruct (begun_inv G n m s HB) as (R1 & R2 & _).
  destruct (connect_index G n m ci will tmo s Success sp s' t R1 R2 H) as [(E & K)|(E & _ & K)]; [right; auto|left]. split; auto. unfold pend. rewrite E. reflexivity.
Qed.
Print Assumptions bytes_at_connect.

(** Bytes with which no packet begins are never got rid of: from then on no packet is
    handled. *)
Theorem garbage_stays : forall G n m l s rs s' t, Begun G n m s -> Garbage (pend (s_ctx s)) -> forallb plain l = true -> run_calls G l s = Ret rs s' t -> ~ In RecvFailed rs ->
  items t = [] /\ pend (s_ctx s') = pend (s_ctx s) ++ ins t.
Proof.
  intros G n m l s rs s' t HB (_ & G1 & G2) Hl H Hn. destruct (stream_framed G n m l s rs s' t HB Hl H Hn) as (_ & _ & bytes & F & E).
  assert (Hh : forall h ty rl rest, bytes = h ++ rest -> header h ty rl -> False).
  { intros h ty rl rest -> Hh. rewrite <- app_assoc in E. destruct (app_eq_app _ _ _ _ E) as (x & [(K & _)|(K & _)]).
    - exact (G1 h x ty rl K Hh).
    - rewrite K in Hh. exact (G2 x ty rl Hh). }
  inversion F as [F1 F2|h ty body l0 bytes0 Hd _ _ F1 F2|h ty body l0 bytes0 Hd _ _ F1 F2].
  - subst bytes. split; [reflexivity|]. symmetry. exact E.
  - exfalso. eapply Hh; [reflexivity|exact Hd].
  - exfalso. eapply Hh; [reflexivity|exact Hd].
Qed.
Print Assumptions garbage_stays.

(** The history: MQTT_Disconnect, a pass of the loop that reads the beginning of a packet
    the old connection was about to bring, MQTT_Connect.  The buffer now begins with a byte of
    the CONNACK, the publish that follows is never handled. *)
Definition mixed : list call := [conn1; COp ODisconnect; CReceive; conn1].
Definition mixed_env : env := mkEnv ([32; 2; 0; 0] ++ [48] ++ [32; 2; 1; 0] ++ [48; 4; 0; 1; 97; 5]) [1; 1; 2; 1; 1; 1; 2; 6; 6; 6] (repeat 100 20) (repeat 0 99) [] [] [].
Definition mixed_up : st := after_calls mixed (client1 mixed_env).
Lemma not_first b : ~ first_ok b -> Garbage [b].
Proof.
  intro H. split; [discriminate|]. split.
  - intros h rest t rl E (K & _ & ->). injection E as -> _. contradiction.
  - intros more t rl (K & _ & E). injection E as -> _. contradiction.
Qed.
Theorem starts_empty_refuted : ~ (forall G n m s ci will tmo sp s' t, Begun G n m s -> connect G ci will tmo s = Ret (Success, sp) s' t -> pend (s_ctx s') = []).
Proof.
  intro H. pose (s := after_calls [conn1; COp ODisconnect; CReceive] (client1 mixed_env)).
  assert (B : Begun cfg1 3 2 s) by (apply begun_after; [apply bytes_dec| |]; vm_compute; reflexivity).
  destruct (connect cfg1 con1 None 1000 s) as [r s' t| |] eqn:E; [|vm_compute in E; discriminate E..].
  assert (K : r = (Success, Some true)) by (vm_compute in E; injection E as <- _ _; reflexivity). subst r.
  specialize (H _ _ _ _ _ _ _ _ _ _ B E). vm_compute in E. injection E as <- _. discriminate H.
Qed.
Print Assumptions starts_empty_refuted.
Example mixed_case : Begun cfg1 3 2 mixed_up /\ x_status (s_ctx mixed_up) = Connected /\ pend (s_ctx mixed_up) = [1] /\ Garbage [1] /\
  e_in (s_env mixed_up) = [48; 4; 0; 1; 97; 5] /\ results (repeat CReceive 3) mixed_up = repeat BadResponse 3 /\ items (trace (repeat CReceive 3) mixed_up) = [].
Proof.
  split; [apply begun_after; [apply bytes_dec| |]; vm_compute; reflexivity|]. do 2 (split; [vm_compute; reflexivity|]). split; [|repeat split; vm_compute; reflexivity].
  apply not_first. unfold first_ok. lia.
Qed.
