(** A client that takes the packets from the bytes it reads: the server sends. *)
From Verif Require Import Base StateSpec SerModel WireSpec SerHarness CoreModel CoreHarness CoreSpec CoreProofs9 Machine MachSpec NetSpec OutSpec InSpec ByteSpec ByteProofs.

(** ** The server sends *)
Record view2 (k : list tok) (B : binet) (N : inet) (done : list dpkt) : Prop := mkVI {
  vi_up : i_up N = bi_up B;
  vi_sent : bi_sent B = done ++ i_down N;
  vi_cut : i_cut N = bi_cut B;
  vi_srv : i_srv N = bi_srv B;
  vi_ans : i_ans N = bi_ans B;
  vi_read : i_read N = bi_read B;
  vi_tins : bi_read B = tins (recent k);
  vi_items : Forall2 is_item (map wire done) (titems (recent k));
  vi_ok : Forall sendable (map wire (bi_sent B));
  vi_pre : prefix (bi_read B) (stream (bi_ans B) (map wire (bi_sent B)));
  vi_one : bi_ans B <> None -> existsb asks_in (bi_up B) = false;
  vi_fly : Forall (fun f => sendable (wire (DPub (fst f)))) (w_fly (bi_srv B)) }.
Lemma rel_sendable id : sendable (wire (DRel id)).
Proof. split; cbn [wire fst snd]; [|unfold zlen, max_remaining; cbn [be16 length]; lia]. unfold first_ok, is_byte. cbn. lia. Qed.
Lemma pub_sendable m : dpkt_ok (DPub m) -> sendable (wire (DPub m)).
Proof.
  intros ((_ & _ & H) & _). split; cbn [wire fst snd]; [|exact H]. unfold publish_first, first_ok, is_byte, bit. destruct (pm_dup m), (pm_qos m), (pm_retain m); cbn; lia.
Qed.
Lemma dup_sendable m : sendable (wire (DPub m)) -> sendable (wire (DPub (as_dup m))).
Proof.
  intros (_ & H). split; [|exact H]. cbn [wire fst]. unfold publish_first, first_ok, is_byte, bit, as_dup. cbn [pm_dup pm_qos pm_retain]. destruct (pm_qos m), (pm_retain m); cbn; lia.
Qed.
Lemma fly_ok v p rep v' : takes v p rep v' -> Forall (fun f => sendable (wire (DPub (fst f)))) (w_fly v) -> Forall (fun f => sendable (wire (DPub (fst f)))) (w_fly v') /\ Forall sendable (map wire rep).
Proof.
  intros H K. destruct H; cbn [w_fly finish release map]; (split; [|try (constructor; fail)]); auto.
  - rewrite Forall_forall in *. intros x Hx. apply filter_In in Hx. apply K, Hx.
  - rewrite Forall_forall in *. intros x Hx. apply in_map_iff in Hx. destruct Hx as (f & <- & Hf). destruct (pm_id (fst f) =? id); apply (K f Hf).
  - constructor; [apply rel_sendable|constructor].
  - rewrite Forall_forall in *. intros x Hx. apply filter_In in Hx. apply K, Hx.
Qed.
Lemma bytes_linked Bz k B : BLinked k B -> Fed Bz k -> exists N done, Linked k N /\ view2 k B N done.
Proof.
  induction 1 as [|k B x B' HB IH H|k B B' HB IH H]; intro HF.
  - exists inet0, []. split; constructor; auto; try (constructor; fail). exists []. reflexivity.
  - destruct (IH (fed_prefix _ _ _ HF)) as (N & done & HJ & V). destruct V as [V1 V2 V3 V4 V5 V6 V7 V8 V9 V10 V11 V12]. destruct N as [nu nd nc nv na nr]. cbn [i_up i_down i_cut i_srv i_ans i_read] in *.
    destruct H as [mg u d c v a r|mg e u d c v a r|p u d c v a r Hp|p e u d c v a r Hp|bs u d c v a r Hr|e B0 He]; cbn [bi_up bi_sent bi_cut bi_srv bi_ans bi_read] in *; subst.
    + exists (mkInet (u ++ [KConnect mg]) [] false v None []), []. split; [eapply linked_client; [exact HJ|apply k_connect]|]. constructor; rewrite ?recent_snoc; auto; try contradiction. all: try constructor. exists []. reflexivity.
    + exists (mkInet u [] true v None []), []. split; [eapply linked_client; [exact HJ|apply k_connect_cut]|]. constructor; rewrite ?recent_snoc; auto; try contradiction. all: try constructor. exists []. reflexivity.
    + exists (mkInet (if c then u else u ++ [p]) nd c v a (tins (recent k))), done. split; [eapply linked_client; [exact HJ|now apply k_send]|].
      assert (Eb : begins (Sent p) = false) by exact Hp. destruct (item_none (Sent p) I) as (I1 & I2).
      constructor; rewrite ?recent_snoc, ?Eb, ?tins_app, ?titems_app, ?I1, ?I2, ?app_nil_r; cbn [i_up i_down i_cut i_srv i_ans i_read bi_up bi_sent bi_cut bi_srv bi_ans bi_read]; auto.
      intro Ha. specialize (V11 Ha). destruct c; auto. rewrite existsb_app, V11. cbn. now rewrite Hp.
    + exists (mkInet u nd true v a (tins (recent k))), done. split; [eapply linked_client; [exact HJ|now apply k_send_cut]|].
      assert (Eb : begins (Cut p e) = false) by exact Hp. destruct (item_none (Cut p e) I) as (I1 & I2).
      constructor; rewrite ?recent_snoc, ?Eb, ?tins_app, ?titems_app, ?I1, ?I2, ?app_nil_r; cbn [i_up i_down i_cut i_srv i_ans i_read bi_up bi_sent bi_cut bi_srv bi_ans bi_read]; auto.
    + exists (mkInet u nd c v a (tins (recent k) ++ bs)), done. split.
      { eapply linked_client; [exact HJ|]. apply k_read. destruct a as [sp|]; [eapply first4; exact Hr|]. destruct Hr as (q & Hr). cbn [stream] in Hr. symmetry in Hr. apply app_eq_nil in Hr. destruct Hr as (Hr & _). now apply app_eq_nil in Hr. }
      constructor; rewrite ?recent_snoc; change (begins (Did (EIn bs))) with false; cbv iota; rewrite ?tins_app, ?titems_app; cbn [i_up i_down i_cut i_srv i_ans i_read bi_up bi_sent bi_cut bi_srv bi_ans bi_read tins titems flat_map]; rewrite ?app_nil_r; auto.
    + destruct B0 as [u d c v a r]. cbn [bi_up bi_sent bi_cut bi_srv bi_ans bi_read] in *. subst.
      assert (Eb : begins (Did e) = false) by reflexivity.
      assert (Gen : match e with EIn _ | EPkt _ _ | EDrop _ _ => False | _ => True end -> exists N done0, Linked (k ++ [Did e]) N /\ view2 (k ++ [Did e]) (mkBI u (done ++ nd) c v a (tins (recent k))) N done0).
      { intro Hn. exists (mkInet u nd c v a (tins (recent k))), done. split; [eapply linked_client; [exact HJ|apply k_did; destruct e; auto]|].
        destruct (item_none (Did e) ltac:(destruct e; auto)) as (I1 & I2).
        constructor; rewrite ?recent_snoc, ?Eb, ?tins_app, ?titems_app, ?I1, ?I2, ?app_nil_r; cbn [i_up i_down i_cut i_srv i_ans i_read bi_up bi_sent bi_cut bi_srv bi_ans bi_read]; auto. }
      destruct e as [| | | |ty body|ty rl| | | | |]; try (apply Gen; exact I); try contradiction.
      * destruct (proj1 HF k ty body [] eq_refl) as (h & more & Hh & HR).
        destruct (next_packet wire Bz k a done nd h ty body more) as (x & d & -> & Ex); auto.
        exists (mkInet u d c v a (tins (recent k))), (done ++ [x]). split; [eapply linked_client; [exact HJ|]; pose proof (k_packet x u d c v a (tins (recent k))) as Z; rewrite Ex in Z; exact Z|].
        constructor; rewrite ?recent_snoc, ?Eb, ?tins_app, ?titems_app; cbn [i_up i_down i_cut i_srv i_ans i_read bi_up bi_sent bi_cut bi_srv bi_ans bi_read tins titems flat_map]; rewrite ?app_nil_r; auto.
        -- now rewrite <- app_assoc.
        -- rewrite map_app. apply Forall2_app; auto. constructor; [exact Ex|constructor].
      * destruct (proj2 HF k ty rl [] eq_refl) as (h & more & Hh & HR).
        destruct (next_one wire Bz k a done nd h ty rl more) as (x & d & -> & E1 & E2 & _); auto.
        exists (mkInet u d c v a (tins (recent k))), (done ++ [x]). split; [eapply linked_net; [eapply linked_client; [exact HJ|apply k_did; exact I]|exact (w_lose_down u [] x d c v a _)]|].
        constructor; rewrite ?recent_snoc, ?Eb, ?tins_app, ?titems_app; cbn [i_up i_down i_cut i_srv i_ans i_read bi_up bi_sent bi_cut bi_srv bi_ans bi_read tins titems flat_map]; rewrite ?app_nil_r; auto.
        -- now rewrite <- app_assoc.
        -- rewrite map_app. apply Forall2_app; auto. constructor; [split; auto|constructor].
  - destruct (IH HF) as (N & done & HJ & V). destruct V as [V1 V2 V3 V4 V5 V6 V7 V8 V9 V10 V11 V12]. destruct N as [nu nd nc nv na nr]. cbn [i_up i_down i_cut i_srv i_ans i_read] in *.
    destruct H as [p u d c v a r rep v' Hs|u1 p u2 d c v a r Hl|mg u d c v a r W1 W2 W3 W4|id mg rel u d c v a r W1 W2 W3|ty body u d c v a r Hd Ho]; cbn [bi_up bi_sent bi_cut bi_srv bi_ans bi_read] in *; subst.
    + eexists _, done. split; [eapply linked_net; [exact HJ|apply w_take; exact Hs]|].
      constructor; cbn [i_up i_down i_cut i_srv i_ans i_read bi_up bi_sent bi_cut bi_srv bi_ans bi_read]; auto.
      * destruct (existsb asks_in u); auto. now rewrite app_assoc.
      * destruct (existsb asks_in u); auto. rewrite map_app. apply Forall_app. split; auto. now apply (fly_ok _ _ _ _ Hs).
      * cbn [existsb] in V11. destruct (asks_in p && negb (existsb asks_in u)) eqn:Eo.
        -- destruct a as [sp|]; [apply andb_true_iff in Eo; destruct Eo as (Eo & _); rewrite Eo in V11; discriminate V11; discriminate|].
           destruct V10 as (q & V10). cbn [stream] in V10. destruct (tins (recent k)); [eexists; reflexivity|discriminate].
        -- destruct (existsb asks_in u); auto. rewrite map_app, stream_app. now apply prefix_app.
      * cbn [existsb] in V11. destruct (asks_in p && negb (existsb asks_in u)) eqn:Eo.
        -- intros _. apply andb_true_iff in Eo. destruct Eo as (_ & Eo). now destruct (existsb asks_in u).
        -- intro Ha. specialize (V11 Ha). apply orb_false_iff in V11. apply V11.
      * now apply (fly_ok _ _ _ _ Hs).
    + eexists _, done. split; [eapply linked_net; [exact HJ|apply w_lose_up; exact Hl]|].
      constructor; cbn [i_up i_down i_cut i_srv i_ans i_read bi_up bi_sent bi_cut bi_srv bi_ans bi_read]; auto.
      intro Ha. specialize (V11 Ha). rewrite existsb_app in *. cbn [existsb] in V11. apply orb_false_iff in V11. destruct V11 as (-> & V11). apply orb_false_iff in V11. apply V11.
    + eexists _, done. split; [eapply linked_net; [exact HJ|apply (w_new mg); auto]|]. pose proof (pub_sendable _ W2) as Sm.
      constructor; cbn [i_up i_down i_cut i_srv i_ans i_read bi_up bi_sent bi_cut bi_srv bi_ans bi_read]; auto.
      * destruct (existsb asks_in u); auto. now rewrite app_assoc.
      * destruct (existsb asks_in u); auto. rewrite map_app. apply Forall_app. split; auto. constructor; auto.
      * destruct (existsb asks_in u); auto. rewrite map_app, stream_app. now apply prefix_app.
      * cbn [w_fly]. apply Forall_app. split; auto.
    + eexists _, done. split; [eapply linked_net; [exact HJ|apply (w_again id mg rel); auto]|].
      assert (Sm : sendable (wire (if rel then DRel id else DPub (as_dup mg)))).
      { destruct rel; [apply rel_sendable|]. apply dup_sendable. unfold flying in W2. apply find_some in W2. destruct W2 as (W2 & _). rewrite Forall_forall in V12. exact (V12 _ W2). }
      constructor; cbn [i_up i_down i_cut i_srv i_ans i_read bi_up bi_sent bi_cut bi_srv bi_ans bi_read]; auto.
      * now rewrite app_assoc.
      * rewrite map_app. apply Forall_app. split; auto. constructor; auto.
      * rewrite map_app, stream_app. now apply prefix_app.
    + eexists _, done. split; [eapply linked_net; [exact HJ|apply (w_other ty body); auto]|].
      constructor; cbn [i_up i_down i_cut i_srv i_ans i_read bi_up bi_sent bi_cut bi_srv bi_ans bi_read]; auto.
      * now rewrite app_assoc.
      * rewrite map_app. apply Forall_app. split; auto. constructor; auto.
      * rewrite map_app, stream_app. now apply prefix_app.
Qed.
