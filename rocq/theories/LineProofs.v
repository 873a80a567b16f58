(** The packets the server reads from a connection are the first of those sent on it. *)
From Verif Require Import Base StateModel StateSpec StateHarness SerModel WireSpec SerHarness CoreModel CoreHarness CoreSpec ConcModel ConcHarness
  Machine MachSpec MachProofs MachProofs5 MachFacts MachFacts2 MachFinal NetSpec WireProofs ByteSpec ByteProofs FullSpec FullProofs FullFinal LineSpec.

Definition good3 (p : cpkt) : Prop := exists q, standard q /\ understood p q /\ bytes q = bytes p.
Lemma good3_cut p b c : good3 p -> bytes p = b ++ c -> c <> [] -> cut b.
Proof. intros (q & A1 & _ & A2) E H. exists q, c. split; auto. split; auto. congruence. Qed.
Lemma lines_snoc k x : lines (k ++ [x]) = lines_step (lines k) x.
Proof. unfold lines. now rewrite fold_left_app. Qed.
Record lrel (sent : list cpkt) (L : line) (tk qs later : list cpkt) (x : list Z) : Prop := mkLr {
  lr_good : Forall good3 sent;
  lr_sent : sent = tk ++ qs ++ later;
  lr_got : Forall2 understood tk (l_got L);
  lr_cut : cut x;
  lr_all : t_alive (l_up L) = true -> later = [] /\ t_bytes (l_up L) = cat qs ++ x;
  lr_half : t_alive (l_up L) = true -> t_half (l_up L) = false -> x = [];
  lr_pre : prefix (t_bytes (l_up L)) (cat qs ++ x) }.
Definition lrels (sent : list cpkt) (L : line) : Prop := exists tk qs later x, lrel sent L tk qs later x.
Ltac lsimp := cbn [l_up l_got t_bytes t_alive t_half].
Lemma wired_inv k N : Wired true k N -> (forall x p, In x k -> carries x = Some p -> good3 p) -> Forall2 lrels (lines k) N.
Proof.
  induction 1 as [|k N x N' HN IH S|k N N' HN IH S]; intro HG.
  - constructor; [|constructor]. exists [], [], [], []. constructor; lsimp; auto; try discriminate; try apply cut_nil; try constructor. exists []. reflexivity.
  - specialize (IH (fun x p H => HG x p (in_or_app _ _ _ (or_introl H)))). rewrite lines_snoc.
    assert (HGx : forall p, carries x = Some p -> good3 p) by (intro p; apply HG, in_app_iff; right; now left).
    destruct S as [mg N|mg e b c N Eb Hc|p s got N Hp Hm|p e b c s got N Hp Hm Eb Hc|e N]; cbn [lines_step opens]; auto.
    + constructor; auto. exists [], [KConnect mg], [], []. constructor; lsimp; auto; try apply cut_nil; try constructor; cbn [cat map concat]; rewrite ?app_nil_r; auto; try constructor. exists []. cbn [cat map concat]. now rewrite !app_nil_r.
    + constructor; auto. exists [], [], [], b. constructor; lsimp; auto; try discriminate; try (constructor; fail); [eapply good3_cut; eauto; apply HGx; reflexivity|]. exists []. cbn. now rewrite app_nil_r.
    + rewrite Hp. inversion IH as [|sent L ls ? V Vs]; subst. constructor; auto. destruct V as (tk & qs & later & y & [V0 V1 V2 V3 V4 V5 V6]). cbn [l_up l_got] in *.
      assert (Gp : good3 p) by (apply HGx; reflexivity). assert (G' : Forall good3 (sent ++ [p])) by (apply Forall_app; auto).
      destruct s as [sb al ha]. cbn [t_bytes t_alive t_half] in *. unfold may_send in Hm. cbn [t_alive t_half] in Hm. unfold give. cbn [t_alive t_bytes t_half]. destruct al.
      * destruct (V4 eq_refl) as (-> & ->). specialize (Hm eq_refl). cbn [andb] in Hm. subst ha. rewrite (V5 eq_refl eq_refl) in *.
        exists tk, (qs ++ [p]), [], []. constructor; lsimp; auto.
        -- rewrite V1, !app_nil_r. now rewrite app_assoc.
        -- intros _. split; auto. rewrite cat_app. cbn [cat map concat]. now rewrite ?app_nil_r.
        -- exists []. rewrite cat_app. cbn [cat map concat]. now rewrite ?app_nil_r.
      * exists tk, qs, (later ++ [p]), y. constructor; lsimp; auto; try discriminate. rewrite V1. now rewrite <- !app_assoc.
    + rewrite Hp. inversion IH as [|sent L ls ? V Vs]; subst. constructor; auto. destruct V as (tk & qs & later & y & [V0 V1 V2 V3 V4 V5 V6]). cbn [l_up l_got] in *.
      destruct s as [sb al ha]. cbn [t_bytes t_alive t_half] in *. unfold may_send in Hm. cbn [t_alive t_half] in Hm. unfold give. cbn [t_alive t_bytes t_half]. destruct al.
      * destruct (V4 eq_refl) as (-> & ->). specialize (Hm eq_refl). cbn [andb] in Hm. subst ha. rewrite (V5 eq_refl eq_refl) in *.
        exists tk, qs, [], b. rewrite ?app_nil_r in *. constructor; lsimp; rewrite ?app_nil_r; auto; try discriminate.
        -- apply (good3_cut p b c); auto.
        -- exists []. now rewrite app_nil_r.
      * exists tk, qs, later, y. constructor; lsimp; auto; try discriminate.
  - specialize (IH HG). destruct S as [p r al ha got l1 l2 Hp|r r' al ha got l1 l2]; apply Forall2_app_inv_r in IH; destruct IH as (s1 & s2 & F1 & F2 & ->); inversion F2 as [|sent L ls ? V Vs]; subst; (apply Forall2_app; [exact F1|]); constructor; auto;
      destruct V as (tk & qs & later & y & [V0 V1 V2 V3 V4 V5 V6]); cbn [l_up l_got t_bytes t_alive t_half] in *; destruct V6 as (z & V6).
    + rewrite <- app_assoc in V6. destruct qs as [|p' qs]; [exfalso; cbn [cat map concat app] in V6; eapply cut_whole; [exact Hp|exact V3|symmetry; exact V6]|].
      pose proof V0 as HC. rewrite V1 in HC. apply Forall_app in HC. destruct HC as (_ & HC). apply Forall_app in HC. destruct HC as (HC & _). inversion HC as [|? ? Hp' _]; subst.
      destruct Hp' as (q & A1 & A3 & A2). unfold cat in V6. cbn [map concat] in V6. rewrite <- app_assoc, <- A2 in V6. apply bytes_split in V6; auto. destruct V6 as (-> & V6). change (concat (map bytes qs)) with (cat qs) in V6.
      exists (tk ++ [p']), qs, later, y. constructor; lsimp; auto.
      * now rewrite <- app_assoc.
      * apply Forall2_app; auto.
      * intro E. destruct (V4 E) as (-> & K). split; auto. unfold cat in K. cbn [map concat] in K. rewrite <- app_assoc, <- A2 in K. now apply app_inv_head in K.
      * exists z. exact V6.
    + exists tk, qs, later, y. constructor; lsimp; auto; try discriminate. exists (r' ++ z). now rewrite app_assoc.
Qed.
Lemma lrels_ok sent L : lrels sent L -> line_ok sent L.
Proof.
  intros (tk & qs & later & y & [V0 V1 V2 V3 V4 V5 V6]). exists tk, (qs ++ later). split; auto. split; auto. intros Ha Hb. destruct (V4 Ha) as (-> & K). rewrite app_nil_r in *. rewrite Hb in K.
  destruct qs as [|p qs]; auto. exfalso. rewrite V1 in V0. apply Forall_app in V0. destruct V0 as (_ & V0). inversion V0 as [|? ? (q & A1 & _ & A2) _]; subst.
  unfold cat in K. cbn [map concat] in K. symmetry in K. apply app_eq_nil in K. destruct K as (K & _). apply app_eq_nil in K. destruct K as (K & _). rewrite <- A2 in K. now apply (bytes_ne q A1).
Qed.
Section Line.
Variables (rt cn : bool) (n m : nat) (k : list tok) (b : mstate).
Hypothesis R : Run rt cn (mkM NotConnected (fresh_session n m) 1 Idle) k b.
Hypothesis O : keeps_copies k.
Lemma run_good3 : forall x p, In x k -> carries x = Some p -> good3 p.
Proof.
  intros x p Hx Ex. apply in_split in Hx. destruct Hx as (k1 & k2 & Ek). destruct (machine_facts _ _ _ _ _ _ R) as (F1 & _). specialize (F1 _ _ _ Ek).
  assert (L : legit k1 p) by (destruct x; try discriminate; cbn in Ex, F1; congruence). destruct L as (L1 & L2).
  destruct p as [mg|mg|i fs|i fs| | |a i|i bs]; try (eexists; split; [apply (plain_standard _ L1); discriminate|]; split; [reflexivity|apply plain_bytes]).
  destruct L2 as (_ & L2). apply in_split in L2. destruct L2 as (a & c & ->). rewrite <- app_assoc in Ek.
  destruct (O _ _ _ _ Ek) as (a1 & y & a2 & -> & (v & -> & <-) & _). rewrite <- app_assoc in Ek.
  destruct (run_copies _ _ _ _ _ _ R _ _ _ Ek) as (m' & E & _ & _ & Hq & Hp). assert (S : standard (KPublish m')) by (split; [exact Hp|cbn; congruence]).
  exists (KPublish m'). split; auto. split; [split; auto|cbn; congruence].
Qed.
Lemma line_match k1 k2 N : k = k1 ++ k2 -> Wired true k1 N -> Forall2 line_ok (lines k1) N.
Proof.
  intros E H. assert (K : Forall2 lrels (lines k1) N) by (apply wired_inv; auto; intros x p Hx; apply run_good3; rewrite E; apply in_app_iff; auto).
  clear - K. induction K; constructor; auto using lrels_ok.
Qed.
End Line.
Lemma line_history G n m l w s rs w' s' t cn : legal G n m l w s -> g_big G = false -> c_run_calls G l w s = Ret (Some rs, w') s' t -> all_fit G cn l w s ->
  exists k, Says t k /\
  Run (x_retr (s_ctx s)) cn (mkM NotConnected (fresh_session n m) 1 Idle) k (mkM (x_status (s_ctx s')) (session_of n m s') (x_nextId (s_ctx s')) Idle) /\
  (keeps_copies k -> forall k1 k2 N, k = k1 ++ k2 -> Wired true k1 N -> Forall2 line_ok (lines k1) N).
Proof.
  intros H1 H2 H4 H3. destruct (refinement _ _ _ _ _ _ _ _ _ _ _ H1 H2 H3 H4) as (k & S & R). exists k. split; auto. split; auto. intros O k1 k2 N E HN. exact (line_match _ _ _ _ _ _ R O _ _ _ E HN).
Qed.
Lemma undelayed_wired k N : Wired false k N -> no_timeouts k -> Wired true k N /\ Forall (fun L => t_alive (l_up L) && t_half (l_up L) = false) N.
Proof.
  induction 1 as [|k N x N' HN IH S|k N N' HN IH S]; intro Hp.
  - split; [constructor|repeat constructor].
  - destruct IH as (J & U); [intros p C; apply (Hp p), in_app_iff; auto|]. assert (Hx : forall p, x <> Cut p false) by (intros p ->; apply (Hp p), in_app_iff; right; now left).
    destruct S as [mg N|mg e b c N Eb Hc|p s got N Ho Hm|p e b c s got N Ho Hm Eb Hc|e N].
    + split; [eapply wired_client; [exact J|constructor]|constructor; auto].
    + destruct e; [|exfalso; eapply Hx; reflexivity]. split; [eapply wired_client; [exact J|econstructor; eauto]|constructor; auto].
    + inversion U as [|? ? U1 U2]; subst. cbn [l_up] in U1. split; [eapply wired_client; [exact J|constructor; auto; intros _; exact U1]|]. constructor; auto. cbn [l_up]. unfold give. destruct (t_alive s) eqn:Ea; cbn [t_alive t_half andb] in *; auto; try now rewrite Ea.
    + destruct e; [|exfalso; eapply Hx; reflexivity]. inversion U as [|? ? U1 U2]; subst. cbn [l_up] in U1. split; [eapply wired_client; [exact J|econstructor; eauto; intros _; exact U1]|]. constructor; auto. cbn [l_up]. unfold give. destruct (t_alive s) eqn:Ea; cbn [t_alive t_half andb negb] in *; auto; try now rewrite Ea.
    + split; [eapply wired_client; [exact J|constructor]|auto].
  - destruct (IH Hp) as (J & U). split; [eapply wired_net; eauto|]. destruct S; apply Forall_app in U; destruct U as (U1 & U2); inversion U2 as [|? ? U3 U4]; subst; apply Forall_app; (split; [exact U1|]); constructor; auto.
Qed.
