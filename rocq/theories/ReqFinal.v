(** Theorems about histories with the connection of ReqSpec.v. *)
From Coq Require Import Permutation.
From Verif Require Import Base StateModel StateSpec StateHarness SerModel WireSpec SerHarness CoreModel CoreHarness CoreSpec CoreFinal2 ConcModel ConcHarness
  Machine MachSpec MachProofs MachProofs5 MachFacts MachFacts2 MachFinal NetSpec OutSpec InSpec WireProofs ByteSpec ByteProofs ByteProofs5 FullSpec FullProofs FullFinal ReqSpec ReqProofs.

Lemma asked_prefix st k R : Asked st k R -> forall k1 k2, k = k1 ++ k2 -> exists R1, Asked st k1 R1.
Proof.
  induction 1 as [|k R x R' HR IH S|k R R' HR IH S]; intros k1 k2 E.
  - symmetry in E. apply app_eq_nil in E. destruct E as (-> & _). exists rnet0. constructor.
  - destruct k2 as [|y k2 _] using rev_ind; [rewrite app_nil_r in E; subst k1; eexists; eapply asked_client; eauto|]. rewrite app_assoc in E. apply app_inj_tail in E. destruct E as (E & _). eauto.
  - eauto.
Qed.
Section Req.
Variables (rt cn : bool) (n m : nat) (k : list tok) (b : mstate).
Hypothesis R : Run rt cn (mkM NotConnected (fresh_session n m) 1 Idle) k b.
Hypothesis O : keeps_copies k.
Lemma run_good2 : forall x p, In x k -> carries x = Some p -> good2 p.
Proof.
  intros x p Hx Ex. apply in_split in Hx. destruct Hx as (k1 & k2 & Ek). destruct (machine_facts _ _ _ _ _ _ R) as (F1 & _). specialize (F1 _ _ _ Ek).
  assert (L : legit k1 p) by (destruct x; try discriminate; cbn in Ex, F1; congruence). destruct L as (L1 & L2).
  destruct p as [mg|mg|i fs|i fs| | |a i|i bs]; try (eexists; split; [apply (plain_standard _ L1); discriminate|]; split; [apply plain_bytes|]; try (destruct mg as [d [] r0 t0 i0 y0]); intros; try discriminate; reflexivity).
  destruct L2 as (_ & L2). apply in_split in L2. destruct L2 as (a & c & ->). rewrite <- app_assoc in Ek.
  destruct (O _ _ _ _ Ek) as (a1 & y & a2 & -> & (v & -> & <-) & _). rewrite <- app_assoc in Ek.
  destruct (run_copies _ _ _ _ _ _ R _ _ _ Ek) as (m' & -> & _ & _ & Hq & Hp). exists (KPublish m'). split; [split; [exact Hp|cbn; congruence]|]. split; [reflexivity|]. cbn. discriminate.
Qed.
Variable Bz : Z.
Hypothesis F : Fed Bz k.
Lemma req_match k1 k2 N : k = k1 ++ k2 -> Asked true k1 N -> answers_match k1.
Proof.
  intros E H. eapply asked_match; [exact H|subst k; eapply fed_prefix; eauto|]. intros x p Hx. apply run_good2. rewrite E. apply in_app_iff. auto.
Qed.
Lemma sent_request k1 p : In p (requests k1) -> In (Sent p) (recent k1).
Proof.
  unfold requests. intro H. apply in_flat_map in H. destruct H as (x & Hx & Hp). destruct x as [q|q e|e]; try contradiction. unfold due_of in Hp. destruct (request q); [|contradiction]. destruct Hp as [<-|[]]. exact Hx.
Qed.
Lemma recent_in l x : In x (recent l) -> In x l.
Proof.
  induction l as [|y l IH] using rev_ind; [auto|]. rewrite recent_snoc. destruct (begins y); [contradiction|]. rewrite !in_app_iff. intros [H|H]; auto.
Qed.
Lemma req_told k1 k2 N : k = k1 ++ k2 -> Asked true k1 N -> told_answers k1.
Proof.
  intros E HN l1 ty body id d r l2 E1 Ht. destruct (machine_facts _ _ _ _ _ _ R) as (F1 & F5 & _).
  assert (Ek : k = l1 ++ Did (ECb ty body id d r) :: (l2 ++ k2)) by (rewrite E, E1, <- app_assoc; reflexivity).
  specialize (F5 _ _ _ Ek). cbn in F5. destruct F5 as (T & a & x & c & -> & <- & _). exists a, c. split; auto.
  assert (E2 : k1 = (a ++ [Did (EPkt ty body)]) ++ c ++ Did (ECb ty body id d r) :: l2) by (rewrite E1, <- !app_assoc; reflexivity).
  destruct (asked_prefix _ _ _ HN _ _ E2) as (N1 & HN1).
  assert (M : answers_match (a ++ [Did (EPkt ty body)])) by (eapply (req_match _ ((c ++ Did (ECb ty body id d r) :: l2) ++ k2)); [|exact HN1]; rewrite E, E2, <- !app_assoc; reflexivity).
  destruct M as (ps & rest & M1 & M2). unfold answers in M2. rewrite recent_snoc in M2. change (begins (Did (EPkt ty body))) with false in M2. cbv iota in M2. rewrite titems_app, filter_app in M2. cbn [titems flat_map app filter item_type] in M2. rewrite Ht in M2.
  apply Forall2_app_inv_r in M2. destruct M2 as (p1 & p2 & _ & M3 & ->). inversion M3 as [|p i ? ? (z & Ha & Hi) M4]; subst. cbn [is_item] in Hi. subst z.
  assert (Hp : In (Sent p) (recent a)).
  { assert (K : In p (requests (a ++ [Did (EPkt ty body)]))) by (eapply Permutation_in; [exact M1|]; apply in_app_iff; left; apply in_app_iff; right; now left).
    apply sent_request in K. rewrite recent_snoc in K. cbn in K. apply in_app_iff in K. destruct K as [K|[K|[]]]; [exact K|discriminate]. }
  assert (Hok : pkt_ok p).
  { apply recent_in, in_split in Hp. destruct Hp as (u & v & Eu). apply (F1 u (Sent p) (v ++ Did (EPkt ty body) :: c ++ Did (ECb ty body id d r) :: l2 ++ k2)). rewrite Eu, <- !app_assoc. cbn [app]. rewrite <- ?app_assoc. reflexivity. }
  inversion Ha as [i fs codes Hl E3 E4|i fs E3 E4|E3 E4]; subst; (split; [|split]); intro X; try discriminate X.
  - exists fs, codes. assert (i = id) as ->; [|auto].
    destruct T as [(m0 & d' & Hm & _)|(_ & [(_ & _ & _ & HH)|[(_ & Hs & _)|(HH & _)]])]; try lia.
    + exfalso. destruct Hm as (_ & Hm & _). unfold publish_first in Hm. destruct (pm_dup m0), (pm_qos m0), (pm_retain m0); cbn in Hm; discriminate.
    + cbn [be16 app suback_result] in Hs. destruct ((_ =? 0) || _); [discriminate|]. injection Hs as _ <-. cbn in Hok. unfold id_ok in Hok. pose proof (Z.div_mod i 256). lia.
  - exists fs. assert (i = id) as ->; [|auto].
    destruct T as [(m0 & d' & Hm & _)|(_ & [(_ & H1 & H2 & HH)|[(HH & _)|(HH & _)]])]; try lia.
    + exfalso. destruct Hm as (_ & Hm & _). unfold publish_first in Hm. destruct (pm_dup m0), (pm_qos m0), (pm_retain m0); cbn in Hm; discriminate.
    + cbn in Hok. destruct Hok as (Hok & _). unfold id_ok in *. clear - H1 H2 Hok. exact (CoreFinal2.be16_inj i id ltac:(lia) ltac:(lia) H2).
  - exact Hp.
Qed.
End Req.
Section Hist.
Variables (G : cfg) (n m : nat) (l : list call) (w : world) (s : st) (rs : list status) (w' : world) (s' : st) (t : list ev) (cn : bool).
Hypotheses (H1 : legal G n m l w s) (H2 : g_big G = false) (H4 : c_run_calls G l w s = Ret (Some rs, w') s' t) (H5 : careful G true l w s).
Lemma req_history : all_fit G cn l w s -> exists k, Says t k /\
  Run (x_retr (s_ctx s)) cn (mkM NotConnected (fresh_session n m) 1 Idle) k (mkM (x_status (s_ctx s')) (session_of n m s') (x_nextId (s_ctx s')) Idle) /\
  (keeps_copies k -> forall k1 k2 N, k = k1 ++ k2 -> Asked true k1 N -> answers_match k1 /\ told_answers k1).
Proof.
  intros H3. destruct (history_fed _ _ _ _ _ _ _ _ _ _ _ H1 H2 H3 H5 H4) as (k & S & R & F). exists k. split; auto. split; auto. intros O k1 k2 N E HN.
  split; [exact (req_match _ _ _ _ _ _ R O _ F _ _ _ E HN)|exact (req_told _ _ _ _ _ _ R O _ F _ _ _ E HN)].
Qed.
End Hist.
Lemma undelayed_asked k N : Asked false k N -> no_timeouts k -> Asked true k N /\ t_alive (r_up N) && t_half (r_up N) = false.
Proof.
  induction 1 as [|k N x N' HN IH S|k N N' HN IH S]; intro Hp.
  - split; [constructor|reflexivity].
  - destruct IH as (J & U); [intros p C; apply (Hp p), in_app_iff; auto|]. assert (Hx : forall p, x <> Cut p false) by (intros p ->; apply (Hp p), in_app_iff; right; now left).
    destruct S as [mg N|mg e b c N Eb Hc|p s du d a rd Ho Hm|p e b c s du d a rd Ho Hm Eb Hc|bs s du d a rd Hr|e N He]; cbn [r_up] in *.
    + split; [eapply asked_client; [exact J|constructor]|reflexivity].
    + destruct e; [|exfalso; eapply Hx; reflexivity]. split; [eapply asked_client; [exact J|econstructor; eauto]|reflexivity].
    + split; [eapply asked_client; [exact J|constructor; auto; intros _; exact U]|]. unfold give. destruct (t_alive s) eqn:Ea; cbn [t_alive t_half andb] in *; auto; try now rewrite Ea.
    + destruct e; [|exfalso; eapply Hx; reflexivity]. split; [eapply asked_client; [exact J|econstructor; eauto; intros _; exact U]|]. unfold give. destruct (t_alive s) eqn:Ea; cbn [t_alive t_half andb negb] in *; auto; try now rewrite Ea.
    + split; [eapply asked_client; [exact J|now constructor]|auto].
    + split; [eapply asked_client; [exact J|now constructor]|auto].
  - destruct (IH Hp) as (J & U). split; [eapply asked_net; eauto|]. destruct S; cbn [r_up t_alive t_half andb] in *; auto.
Qed.
