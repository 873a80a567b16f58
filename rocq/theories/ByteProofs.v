(** A client that takes the packets from the bytes it reads, on the networks of ByteSpec.v. *)
From Verif Require Import Base StateSpec SerModel WireSpec SerHarness CoreModel CoreHarness CoreSpec CoreProofs9 Machine MachSpec NetSpec OutSpec InSpec ByteSpec.

(** ** What was done on the last connection *)
Definition tins (k : list tok) : list Z := flat_map (fun x => match x with Did (EIn bs) => bs | _ => [] end) k.
Lemma tins_app a b : tins (a ++ b) = tins a ++ tins b. Proof. apply flat_map_app. Qed.
Lemma titems_app a b : titems (a ++ b) = titems a ++ titems b. Proof. apply flat_map_app. Qed.
Lemma recent_snoc k x : recent (k ++ [x]) = if begins x then [] else recent k ++ [x].
Proof. unfold recent. rewrite fold_left_app. reflexivity. Qed.
(** the packets are those of the bytes read: 4 bytes of CONNACK, the packets before, this packet *)
Definition reached (Bz : Z) (k : list tok) (h more : list Z) : Prop :=
  exists c bytes, tins (recent k) = c ++ bytes ++ h ++ more /\ length c = 4%nat /\ Frames Bz (titems (recent k)) bytes.
Definition Fed (Bz : Z) (k : list tok) : Prop :=
  (forall k1 ty body k2, k = k1 ++ Did (EPkt ty body) :: k2 -> exists h more, header h ty (zlen body) /\ reached Bz k1 h (body ++ more)) /\
  (forall k1 ty rl k2, k = k1 ++ Did (EDrop ty rl) :: k2 -> exists h more, header h ty rl /\ reached Bz k1 h more).
Lemma fed_prefix Bz a b : Fed Bz (a ++ b) -> Fed Bz a.
Proof. intros (H1 & H2). split; intros k1 ? ? k2 ->; [eapply H1|eapply H2]; rewrite <- app_assoc; reflexivity. Qed.

(** ** Packets and bytes *)
Lemma enc_header p : sendable p -> exists h, enc p = h ++ snd p /\ header h (fst p) (zlen (snd p)).
Proof.
  intros (H1 & H2). exists (fst p :: varlen (zlen (snd p))). split; [reflexivity|]. split; auto. split; [|reflexivity]. unfold zlen in *; lia.
Qed.
Lemma done_bytes Bz its bytes : Frames Bz its bytes -> forall done X Y, Forall2 is_item done its -> Forall sendable done ->
  flat_map enc done ++ X = bytes ++ Y -> bytes = flat_map enc done /\ X = Y.
Proof.
  induction 1 as [|h ty body l bytes H1 H2 H IH|h ty body l bytes H1 H2 H IH]; intros done X Y F S E; inversion F as [|p i d l' Hp F' E1 E2]; subst; [auto|..];
    inversion S as [|p0 d0 Sp S']; subst; destruct (enc_header p Sp) as (h' & E0 & H0); cbn [flat_map] in E; rewrite E0, <- !app_assoc in E.
  - cbn [is_item] in Hp. subst p. cbn [fst snd] in *. destruct (header_det _ _ _ _ _ _ _ _ H0 H1 E) as (-> & _ & _ & E'). apply app_inv_head in E'.
    destruct (IH _ _ _ F' S' E') as (-> & ->). cbn [flat_map]. rewrite E0, <- app_assoc. auto.
  - cbn [is_item] in Hp. destruct Hp as (<- & El). destruct (header_det _ _ _ _ _ _ _ _ H0 H1 E) as (-> & _ & _ & E'). apply app_eq_len in E'; [|unfold zlen in El; lia].
    destruct E' as (<- & E'). destruct (IH _ _ _ F' S' E') as (-> & ->). cbn [flat_map]. rewrite E0, <- app_assoc. auto.
Qed.
Section Next.
Context {T : Type}.
Variable w : T -> Z * list Z.
Lemma next_one Bz k ans done down h ty rl more : Forall sendable (map w (done ++ down)) -> Forall2 is_item (map w done) (titems (recent k)) ->
  prefix (tins (recent k)) (stream ans (map w (done ++ down))) -> reached Bz k h more -> header h ty rl ->
  exists x d, down = x :: d /\ fst (w x) = ty /\ zlen (snd (w x)) = rl /\ exists a b, snd (w x) ++ a = more ++ b.
Proof.
  intros S F (r & P) (c & bytes & E & Lc & Fr) Hh. rewrite E in P. destruct ans as [sp|]; [|destruct c; discriminate]. cbn [stream] in P. rewrite <- !app_assoc in P.
  apply app_eq_len in P; [|now rewrite Lc]. destruct P as (_ & P). rewrite map_app in S, P. apply Forall_app in S. destruct S as (S1 & S2). rewrite flat_map_app in P.
  destruct (done_bytes _ _ _ Fr _ _ _ F S1 P) as (_ & P'). destruct down as [|x d]; [cbn [map flat_map] in P'; destruct h as [|z h]; [apply header_len in Hh; unfold zlen in Hh; cbn [length] in Hh; lia|discriminate]|]. exists x, d. split; auto.
  cbn [map flat_map] in P'. inversion S2 as [|? ? Sx _]; subst. destruct (enc_header _ Sx) as (h' & E0 & H0). rewrite E0, <- app_assoc in P'.
  destruct (header_det _ _ _ _ _ _ _ _ H0 Hh P') as (_ & -> & -> & P2). split; auto. split; auto. eexists _, _. exact P2.
Qed.
Lemma next_packet Bz k ans done down h ty body more : Forall sendable (map w (done ++ down)) -> Forall2 is_item (map w done) (titems (recent k)) ->
  prefix (tins (recent k)) (stream ans (map w (done ++ down))) -> reached Bz k h (body ++ more) -> header h ty (zlen body) ->
  exists x d, down = x :: d /\ w x = (ty, body).
Proof.
  intros S F P R H. destruct (next_one _ _ _ _ _ _ _ _ _ S F P R H) as (x & d & E & E1 & E2 & a & b & E3). exists x, d. split; auto.
  rewrite <- app_assoc in E3. apply app_eq_len in E3; [|unfold zlen in E2; lia]. destruct (w x) as (u, v). cbn [fst snd] in *. destruct E3. congruence.
Qed.
End Next.
Lemma first4 r a b : prefix r ([32; 2; a; 0] ++ b) -> firstn 4 r = firstn (length r) [32; 2; a; 0].
Proof.
  intros (x & E). assert (K : firstn (length r) ([32; 2; a; 0] ++ b) = r) by (rewrite E, firstn_app, Nat.sub_diag, firstn_all; apply app_nil_r).
  rewrite <- K at 1. rewrite firstn_firstn. destruct (Nat.le_gt_cases (length r) 4) as [L|L].
  - replace (Nat.min 4 (length r)) with (length r) by lia. rewrite firstn_app. cbn [length]. replace (length r - 4)%nat with 0%nat by lia. apply app_nil_r.
  - replace (Nat.min 4 (length r)) with 4%nat by lia. rewrite (firstn_all2 [32; 2; a; 0]) by (cbn [length]; lia). reflexivity.
Qed.
Lemma prefix_app {A} (a b c : list A) : prefix a b -> prefix a (b ++ c).
Proof. intros (r & ->). exists (r ++ c). now rewrite app_assoc. Qed.
Lemma stream_app ans a b : stream ans (a ++ b) = stream ans a ++ match ans with Some _ => flat_map enc b | None => [] end.
Proof. destruct ans; cbn [stream]; auto. now rewrite flat_map_app, app_assoc. Qed.

(** ** The client sends *)
Record view1 (k : list tok) (B : bnet) (N : net) (done : list (Z * list Z)) : Prop := mkV {
  vw_up : n_up N = b_up B;
  vw_sent : b_sent B = done ++ n_down N;
  vw_cut : n_cut N = b_cut B;
  vw_srv : n_srv N = b_srv B;
  vw_ans : n_ans N = b_ans B;
  vw_read : n_read N = b_read B;
  vw_tins : b_read B = tins (recent k);
  vw_items : Forall2 is_item done (titems (recent k));
  vw_ok : Forall sendable (b_sent B);
  vw_pre : prefix (b_read B) (stream (b_ans B) (b_sent B));
  vw_one : b_ans B <> None -> existsb opens (b_up B) = false }.
Lemma reply_ok v p rep v' : serves v p rep v' -> Forall sendable rep.
Proof.
  assert (K : forall ty id, ty = 64 \/ ty = 80 \/ ty = 112 -> sendable (ty, be16 id)).
  { intros ty id H. split; cbn [fst snd]; [|unfold zlen, max_remaining; cbn [be16 length]; lia]. unfold first_ok, is_byte. destruct H as [->|[->| ->]]; cbn; lia. }
  destruct 1; apply Forall_forall; intros x Hx; cbn [In] in Hx; destruct Hx as [<-|[]] || destruct Hx; apply K; tauto.
Qed.
Lemma begins_opens x : begins x = match carries x with Some p => opens p | None => false end. Proof. reflexivity. Qed.
Lemma item_none x : match x with Did (EIn _) | Did (EPkt _ _) | Did (EDrop _ _) => False | _ => True end -> tins [x] = [] /\ titems [x] = [].
Proof. destruct x as [| |[]]; cbn; auto; contradiction. Qed.
Lemma bytes_joint Bz k B : BJoint k B -> Fed Bz k -> exists N done, Joint k N /\ view1 k B N done.
Proof.
  induction 1 as [|k B x B' HB IH H|k B B' HB IH H]; intro HF.
  - exists net0, []. split; constructor; auto; try (constructor; fail). exists []. reflexivity.
  - destruct (IH (fed_prefix _ _ _ HF)) as (N & done & HJ & V). destruct V as [V1 V2 V3 V4 V5 V6 V7 V8 V9 V10 V11]. destruct N as [nu nd nc nv na nr]. cbn [n_up n_down n_cut n_srv n_ans n_read] in *.
    destruct H as [mg u d c v a r|mg e u d c v a r|p u d c v a r Hp|p e u d c v a r Hp|bs u d c v a r Hr|e B0 He]; cbn [b_up b_sent b_cut b_srv b_ans b_read] in *; subst.
    + exists (mkNet (u ++ [KConnect mg]) [] false v None []), []. split; [eapply joint_client; [exact HJ|apply c_connect]|]. constructor; rewrite ?recent_snoc; auto; try contradiction. all: try constructor. exists []. reflexivity.
    + exists (mkNet u [] true v None []), []. split; [eapply joint_client; [exact HJ|apply c_connect_cut]|]. constructor; rewrite ?recent_snoc; auto; try contradiction. all: try constructor. exists []. reflexivity.
    + exists (mkNet (if c then u else u ++ [p]) nd c v a (tins (recent k))), done. split; [eapply joint_client; [exact HJ|now apply c_send]|].
      assert (Eb : begins (Sent p) = false) by exact Hp. destruct (item_none (Sent p) I) as (I1 & I2).
      constructor; rewrite ?recent_snoc, ?Eb, ?tins_app, ?titems_app, ?I1, ?I2, ?app_nil_r; cbn [n_up n_down n_cut n_srv n_ans n_read b_up b_sent b_cut b_srv b_ans b_read]; auto.
      intro Ha. specialize (V11 Ha). destruct c; auto. rewrite existsb_app, V11. cbn. now rewrite Hp.
    + exists (mkNet u nd true v a (tins (recent k))), done. split; [eapply joint_client; [exact HJ|now apply c_send_cut]|].
      assert (Eb : begins (Cut p e) = false) by exact Hp. destruct (item_none (Cut p e) I) as (I1 & I2).
      constructor; rewrite ?recent_snoc, ?Eb, ?tins_app, ?titems_app, ?I1, ?I2, ?app_nil_r; cbn [n_up n_down n_cut n_srv n_ans n_read b_up b_sent b_cut b_srv b_ans b_read]; auto.
    + exists (mkNet u nd c v a (tins (recent k) ++ bs)), done. split.
      { eapply joint_client; [exact HJ|]. apply c_read. destruct a as [sp|]; [eapply first4; exact Hr|]. destruct Hr as (q & Hr). cbn [stream] in Hr. symmetry in Hr. apply app_eq_nil in Hr. destruct Hr as (Hr & _). now apply app_eq_nil in Hr. }
      constructor; rewrite ?recent_snoc; change (begins (Did (EIn bs))) with false; cbv iota; rewrite ?tins_app, ?titems_app; cbn [n_up n_down n_cut n_srv n_ans n_read b_up b_sent b_cut b_srv b_ans b_read tins titems flat_map]; rewrite ?app_nil_r; auto.
    + destruct B0 as [u d c v a r]. cbn [b_up b_sent b_cut b_srv b_ans b_read] in *. subst.
      assert (Eb : begins (Did e) = false) by reflexivity.
      assert (Gen : match e with EIn _ | EPkt _ _ | EDrop _ _ => False | _ => True end -> exists N done0, Joint (k ++ [Did e]) N /\ view1 (k ++ [Did e]) (mkB u (done ++ nd) c v a (tins (recent k))) N done0).
      { intro Hn. exists (mkNet u nd c v a (tins (recent k))), done. split; [eapply joint_client; [exact HJ|apply c_did; destruct e; auto]|].
        destruct (item_none (Did e) ltac:(destruct e; auto)) as (I1 & I2).
        constructor; rewrite ?recent_snoc, ?Eb, ?tins_app, ?titems_app, ?I1, ?I2, ?app_nil_r; cbn [n_up n_down n_cut n_srv n_ans n_read b_up b_sent b_cut b_srv b_ans b_read]; auto. }
      destruct e as [| | | |ty body|ty rl| | | | |]; try (apply Gen; exact I); try contradiction.
      * destruct (proj1 HF k ty body [] eq_refl) as (h & more & Hh & HR).
        destruct (next_packet (fun x => x) Bz k a done nd h ty body more) as (x & d & -> & ->); auto; try (now rewrite map_id).
        exists (mkNet u d c v a (tins (recent k))), (done ++ [(ty, body)]). split; [eapply joint_client; [exact HJ|apply c_packet]|].
        constructor; rewrite ?recent_snoc, ?Eb, ?tins_app, ?titems_app; cbn [n_up n_down n_cut n_srv n_ans n_read b_up b_sent b_cut b_srv b_ans b_read tins titems flat_map]; rewrite ?app_nil_r; auto.
        -- now rewrite <- app_assoc.
        -- apply Forall2_app; auto. constructor; [reflexivity|constructor].
      * destruct (proj2 HF k ty rl [] eq_refl) as (h & more & Hh & HR).
        destruct (next_one (fun x => x) Bz k a done nd h ty rl more) as (x & d & -> & E1 & E2 & _); auto; try (now rewrite map_id).
        exists (mkNet u d c v a (tins (recent k))), (done ++ [x]). split; [eapply joint_net; [eapply joint_client; [exact HJ|apply c_did; exact I]|exact (n_lose_down u [] x d c v a _)]|].
        constructor; rewrite ?recent_snoc, ?Eb, ?tins_app, ?titems_app; cbn [n_up n_down n_cut n_srv n_ans n_read b_up b_sent b_cut b_srv b_ans b_read tins titems flat_map]; rewrite ?app_nil_r; auto.
        -- now rewrite <- app_assoc.
        -- apply Forall2_app; auto. constructor; [split; auto|constructor].
  - destruct (IH HF) as (N & done & HJ & V). destruct V as [V1 V2 V3 V4 V5 V6 V7 V8 V9 V10 V11]. destruct N as [nu nd nc nv na nr]. cbn [n_up n_down n_cut n_srv n_ans n_read] in *.
    destruct H as [p u d c v a r rep v' Hs|u1 p u2 d c v a r Hl|ty body u d c v a r N1 N2 N3 Ho]; cbn [b_up b_sent b_cut b_srv b_ans b_read] in *; subst.
    + eexists _, done. split; [eapply joint_net; [exact HJ|apply n_serve; exact Hs]|].
      constructor; cbn [n_up n_down n_cut n_srv n_ans n_read b_up b_sent b_cut b_srv b_ans b_read]; auto.
      * destruct (existsb opens u); auto. now rewrite app_assoc.
      * destruct (existsb opens u); auto. apply Forall_app. split; auto. eapply reply_ok; eauto.
      * cbn [existsb] in V11. destruct (opens p && negb (existsb opens u)) eqn:Eo.
        -- destruct a as [sp|]; [apply andb_true_iff in Eo; destruct Eo as (Eo & _); rewrite Eo in V11; discriminate V11; discriminate|].
           destruct V10 as (q & V10). cbn [stream] in V10. destruct (tins (recent k)); [eexists; reflexivity|discriminate].
        -- destruct (existsb opens u); auto. rewrite stream_app. now apply prefix_app.
      * cbn [existsb] in V11. destruct (opens p && negb (existsb opens u)) eqn:Eo.
        -- intros _. apply andb_true_iff in Eo. destruct Eo as (_ & Eo). now destruct (existsb opens u).
        -- intro Ha. specialize (V11 Ha). apply orb_false_iff in V11. apply V11.
    + eexists _, done. split; [eapply joint_net; [exact HJ|apply n_lose_up; exact Hl]|].
      constructor; cbn [n_up n_down n_cut n_srv n_ans n_read b_up b_sent b_cut b_srv b_ans b_read]; auto.
      intro Ha. specialize (V11 Ha). rewrite existsb_app in *. cbn [existsb] in V11. apply orb_false_iff in V11. destruct V11 as (-> & V11). apply orb_false_iff in V11. apply V11.
    + eexists _, done. split; [eapply joint_net; [exact HJ|apply (n_other ty body); auto]|].
      constructor; cbn [n_up n_down n_cut n_srv n_ans n_read b_up b_sent b_cut b_srv b_ans b_read]; auto.
      * now rewrite app_assoc.
      * apply Forall_app. split; auto.
      * rewrite stream_app. now apply prefix_app.
Qed.
