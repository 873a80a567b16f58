(** Theorems about histories with the network of FullSpec.v in which the server sends messages. *)
From Verif Require Import Base StateModel StateSpec StateHarness SerModel WireSpec SerHarness CoreModel CoreHarness CoreSpec CoreProofs22 ConcModel ConcHarness ConcProofs5 ConcProofs7
  Machine MachSpec MachProofs MachProofs5 MachFacts MachFacts2 MachFinal NetSpec NetFinal OutSpec OutHist InSpec WireProofs ByteSpec ByteProofs ByteProofs2 ByteProofs5 ByteFinal FullSpec FullFinal FullIn.

Lemma good_plain p : pkt_ok p -> (forall id bs, p <> KAgain id bs) -> good p.
Proof.
  intros H Hn. exists (plain p). split; [now apply plain_standard|]. split; [apply plain_bytes|]. split; [destruct p as [|[d [] r t i y]| | | | | |]; reflexivity|].
  intros v rep v' S. destruct p as [|[d [] r t i y]| | | | | |]; cbn [plain] in S; auto. inversion S; subst. now apply t_ignore.
Qed.
Lemma good_again id m : pkt_ok (KPublish m) -> pm_qos m <> Q0 -> good (KAgain id (publish_packet m)).
Proof.
  intros H Hq. exists (KPublish m). split; [split; [exact H|cbn; congruence]|]. split; [reflexivity|]. split; [reflexivity|].
  intros v rep v' S. inversion S; subst. now apply t_ignore.
Qed.
Section Full.
Variables (rt cn : bool) (n m : nat) (k : list tok) (b : mstate).
Hypothesis R : Run rt cn (mkM NotConnected (fresh_session n m) 1 Idle) k b.
Hypothesis O : keeps_copies k.
Lemma run_good : forall x p, In x k -> carries x = Some p -> good p.
Proof.
  intros x p Hx Ex. apply in_split in Hx. destruct Hx as (k1 & k2 & Ek). destruct (machine_facts _ _ _ _ _ _ R) as (F1 & _). specialize (F1 _ _ _ Ek).
  assert (L : legit k1 p) by (destruct x; try discriminate; cbn in Ex, F1; congruence). destruct L as (L1 & L2).
  destruct p; try (apply good_plain; [exact L1|discriminate]). destruct L2 as (_ & L2). apply in_split in L2. destruct L2 as (a & c & ->). rewrite <- app_assoc in Ek.
  destruct (O _ _ _ _ Ek) as (a1 & y & a2 & -> & (v & -> & <-) & _). rewrite <- app_assoc in Ek.
  destruct (run_copies _ _ _ _ _ _ R _ _ _ Ek) as (m' & -> & _ & _ & Hq & Hp). now apply good_again.
Qed.
Lemma full_linked k1 k2 F : k = k1 ++ k2 -> HLinked true k1 F -> exists B, BLinked k1 B /\ h_srv F = bi_srv B.
Proof.
  intros E HF. destruct (full_in_sim _ _ HF) as (B & lv & junk & L & e & HB & S).
  - intros x p Hx. apply run_good. rewrite E. apply in_app_iff. auto.
  - exists B. split; auto. apply S.
Qed.
End Full.
Lemma h_history_in G n m l w s rs w' s' t : legal G n m l w s -> g_big G = false -> c_run_calls G l w s = Ret (Some rs, w') s' t -> careful G true l w s ->
  all_fit G true l w s -> exists k, Says t k /\
  Run (x_retr (s_ctx s)) true (mkM NotConnected (fresh_session n m) 1 Idle) k (mkM (x_status (s_ctx s')) (session_of n m s') (x_nextId (s_ctx s')) Idle) /\
  (same_session k -> keeps_copies k -> forall k1 k2 F id, k = k1 ++ k2 -> HLinked true k1 F ->
   (exists ms rest, h_messages id F = ms ++ rest /\ (length rest <= 1)%nat /\ handed ms (delivered id k1)) /\
   (h_acknowledged id F -> handed (h_messages id F) (delivered id k1))).
Proof.
  intros H1 H2 H4 H5 H3. destruct (b_history_in _ _ _ _ _ _ _ _ _ _ H1 H2 H4 H5 H3) as (k & S & R & K). exists k. split; auto. split; auto. intros O1 O2 k1 k2 F id E HF.
  destruct (full_linked _ _ _ _ _ _ R O2 _ _ _ E HF) as (B & HB & Eb). unfold h_messages, h_acknowledged. rewrite Eb. exact (K O1 _ _ _ _ E HB).
Qed.
Lemma undelayed_linked k F : HLinked false k F -> no_timeouts k -> HLinked true k F /\ Forall (fun s => t_alive s && t_half s = false) (h_up F).
Proof.
  induction 1 as [|k F x F' HF IH S|k F F' HF IH S]; intro Hp.
  - split; [constructor|repeat constructor].
  - destruct IH as (J & U); [intros p C; apply (Hp p), in_app_iff; auto|]. assert (Hx : forall p, x <> Cut p false) by (intros p ->; apply (Hp p), in_app_iff; right; now left).
    destruct S; cbn [h_up] in *.
    + split; [eapply hlinked_client; [exact J|constructor]|]. apply Forall_app. split; auto.
    + destruct e; [|exfalso; eapply Hx; reflexivity]. split; [eapply hlinked_client; [exact J|econstructor; eauto]|]. apply Forall_app. split; auto.
    + apply Forall_app in U. destruct U as (U1 & U2). inversion U2 as [|? ? Us _]; subst. split; [eapply hlinked_client; [exact J|constructor; auto; intros _; exact Us]|].
      apply Forall_app. split; auto. constructor; auto. unfold give. destruct (t_alive s) eqn:Ea; cbn [t_alive t_half andb] in *; auto; try now rewrite Ea.
    + destruct e; [|exfalso; eapply Hx; reflexivity]. apply Forall_app in U. destruct U as (U1 & U2). inversion U2 as [|? ? Us _]; subst. split; [eapply hlinked_client; [exact J|econstructor; eauto; intros _; exact Us]|].
      apply Forall_app. split; auto. constructor; auto. unfold give. destruct (t_alive s) eqn:Ea; cbn [t_alive t_half andb negb] in *; auto; try now rewrite Ea.
    + split; [eapply hlinked_client; [exact J|now constructor]|auto].
    + split; [eapply hlinked_client; [exact J|now constructor]|auto].
  - destruct (IH Hp) as (J & U). split; [eapply hlinked_net; eauto|]. destruct S; cbn [h_up] in *; auto.
    + inversion U; subst. constructor; auto.
    + now inversion U.
    + apply Forall_app in U. destruct U as (U1 & U2). inversion U2; subst. apply Forall_app. split; auto.
Qed.
