(** The answers the client takes from a connection belong to the requests it sent on it. *)
From Coq Require Import Permutation.
From Verif Require Import Base StateSpec SerModel WireSpec SerHarness CoreModel CoreHarness CoreSpec CoreProofs9 ConcModel Machine MachSpec NetSpec OutSpec InSpec WireProofs ByteSpec ByteProofs FullSpec FullProofs ReqSpec.

(** the server reads no other request than that sent *)
Definition good2 (p : cpkt) : Prop := exists q, standard q /\ bytes q = bytes p /\ (request p || request q = true -> q = p).
Definition conn_step (acc : list cpkt) (x : tok) : list cpkt :=
  match x with Sent p => if opens p then [p] else acc ++ [p] | Cut p _ => if opens p then [] else acc | Did _ => acc end.
(** packets sent on the last connection *)
Definition conn (k : list tok) : list cpkt := fold_left conn_step k [].
Lemma conn_snoc k x : conn (k ++ [x]) = conn_step (conn k) x.
Proof. unfold conn. now rewrite fold_left_app. Qed.
Lemma conn_requests k : flat_map due_of (conn k) = requests k.
Proof.
  induction k as [|x k IH] using rev_ind; [reflexivity|]. unfold requests in *. rewrite conn_snoc, recent_snoc. destruct x as [p|p e|e]; cbn [conn_step begins carries].
  - destruct (opens p) eqn:Eo; cbn [flat_map].
    + destruct p; try discriminate Eo; reflexivity.
    + rewrite !flat_map_app, IH. reflexivity.
  - destruct (opens p); [reflexivity|]. rewrite flat_map_app, IH. cbn [flat_map]. now rewrite !app_nil_r.
  - rewrite flat_map_app, IH. cbn [flat_map]. now rewrite !app_nil_r.
Qed.
Lemma conn_good k : (forall x p, In x k -> carries x = Some p -> good2 p) -> Forall good2 (conn k).
Proof.
  induction k as [|x k IH] using rev_ind; intro H; [constructor|]. rewrite conn_snoc. assert (K : Forall good2 (conn k)) by (apply IH; intros; eapply H; eauto; apply in_app_iff; auto).
  destruct x as [p|p e|e]; cbn [conn_step]; auto; [|destruct (opens p); auto]. assert (Hp : good2 p) by (eapply (H (Sent p)); [apply in_app_iff; right; now left|reflexivity]).
  destruct (opens p); [repeat constructor; auto|]. apply Forall_app. split; auto.
Qed.
Lemma due_same p q : good2 p -> standard q -> bytes q = bytes p -> due_of q = due_of p.
Proof.
  intros (q0 & A1 & A2 & A3) H E. assert (q0 = q) as ->. { rewrite <- A2 in E. rewrite <- (app_nil_r (bytes q)), <- (app_nil_r (bytes q0)) in E. apply bytes_split in E; auto. destruct E; auto. }
  unfold due_of. destruct (request p || request q) eqn:Er; [now rewrite (A3 eq_refl)|]. apply orb_false_iff in Er. destruct Er as (-> & ->). reflexivity.
Qed.
Lemma good2_cut p b c : good2 p -> bytes p = b ++ c -> c <> [] -> cut b.
Proof. intros (q & A1 & A2 & _) E H. exists q, c. split; auto. split; auto. congruence. Qed.
Definition is_ans (x : Z * list Z) : bool := answers_type (fst x).
Record asks (k : list tok) (R : rnet) (tk qs later : list cpkt) (x : list Z) (ps : list cpkt) (done down : list (Z * list Z)) : Prop := mkAs {
  as_conn : conn k = tk ++ qs ++ later;
  as_cut : cut x;
  as_all : t_alive (r_up R) = true -> later = [] /\ t_bytes (r_up R) = cat qs ++ x;
  as_half : t_alive (r_up R) = true -> t_half (r_up R) = false -> x = [];
  as_pre : prefix (t_bytes (r_up R)) (cat qs ++ x);
  as_due : Permutation (ps ++ r_due R) (flat_map due_of tk);
  as_ans : Forall2 answer_to ps (filter is_ans (r_sent R));
  as_sent : r_sent R = done ++ down;
  as_tins : r_read R = tins (recent k);
  as_items : Forall2 is_item done (titems (recent k));
  as_ok : Forall sendable (r_sent R);
  as_stream : prefix (r_read R) (stream (r_ans R) (r_sent R)) }.
Ltac crush := cbn [r_up r_due r_sent r_ans r_read t_bytes t_alive t_half].
Lemma asked_inv Bz k R : Asked true k R -> Fed Bz k -> (forall x p, In x k -> carries x = Some p -> good2 p) ->
  exists tk qs later x ps done down, asks k R tk qs later x ps done down.
Proof.
  induction 1 as [|k R x R' HR IH H|k R R' HR IH H]; intros HF HG.
  - exists [], [], [], [], [], [], []. constructor; crush; auto; try discriminate; try apply cut_nil; try constructor; exists []; reflexivity.
  - destruct IH as (tk & qs & later & y & ps & done & down & V); [eapply fed_prefix; eauto|intros; eapply HG; eauto; apply in_app_iff; auto|].
    destruct V as [V1 V2 V3 V4 V5 V6 V7 V8 V9 V10 V11 V12].
    assert (HGx : forall p, carries x = Some p -> good2 p) by (intro p; apply HG, in_app_iff; right; now left).
    destruct H as [mg R|mg e b c R Eb Hc|p s du d a rd Hp Hm|p e b c s du d a rd Hp Hm Eb Hc|bs s du d a rd Hr|e R He].
    + exists [], [KConnect mg], [], [], [], [], []. constructor; rewrite ?recent_snoc, ?conn_snoc; crush; auto; try apply cut_nil; try constructor; cbn [cat map concat]; rewrite ?app_nil_r; auto; exists []; now rewrite ?app_nil_r.
    + exists [], [], [], b, [], [], []. constructor; rewrite ?recent_snoc, ?conn_snoc; crush; auto; try discriminate; try (constructor; fail); [eapply good2_cut; eauto; apply HGx; reflexivity|..]; exists []; cbn; now rewrite ?app_nil_r.
    + cbn [r_up r_due r_sent r_ans r_read] in *. assert (Eb : begins (Sent p) = false) by exact Hp. destruct (item_none (Sent p) I) as (I1 & I2).
      destruct s as [sb al ha]. cbn [t_bytes t_alive t_half] in *. unfold may_send in Hm. cbn [t_alive t_half] in Hm. destruct al.
      * destruct (V3 eq_refl) as (-> & ->). specialize (Hm eq_refl). cbn [andb] in Hm. subst ha. rewrite (V4 eq_refl eq_refl) in *. unfold give. cbn [t_alive t_bytes t_half].
        exists tk, (qs ++ [p]), [], [], ps, done, down. constructor; rewrite ?recent_snoc, ?conn_snoc, ?Eb, ?tins_app, ?titems_app, ?I1, ?I2, ?app_nil_r; crush; auto.
        -- cbn [conn_step]. rewrite Hp, V1, app_nil_r. now rewrite app_assoc.
        -- intros _. split; auto. rewrite cat_app. cbn [cat map concat]. now rewrite ?app_nil_r.
        -- exists []. rewrite cat_app. cbn [cat map concat]. now rewrite ?app_nil_r.
      * unfold give. cbn [t_alive]. exists tk, qs, (later ++ [p]), y, ps, done, down. constructor; rewrite ?recent_snoc, ?conn_snoc, ?Eb, ?tins_app, ?titems_app, ?I1, ?I2, ?app_nil_r; crush; auto; try discriminate.
        cbn [conn_step]. rewrite Hp, V1. now rewrite <- !app_assoc.
    + cbn [r_up r_due r_sent r_ans r_read] in *. assert (Ebg : begins (Cut p e) = false) by exact Hp. destruct (item_none (Cut p e) I) as (I1 & I2).
      destruct s as [sb al ha]. cbn [t_bytes t_alive t_half] in *. unfold may_send in Hm. cbn [t_alive t_half] in Hm. destruct al.
      * destruct (V3 eq_refl) as (-> & ->). specialize (Hm eq_refl). cbn [andb] in Hm. subst ha. rewrite (V4 eq_refl eq_refl) in *. unfold give. cbn [t_alive t_bytes t_half].
        exists tk, qs, [], b, ps, done, down. constructor; rewrite ?recent_snoc, ?conn_snoc, ?Ebg, ?tins_app, ?titems_app, ?I1, ?I2; rewrite ?app_nil_r in *; crush; auto; try discriminate.
        -- cbn [conn_step]. rewrite Hp. exact V1.
        -- apply (good2_cut p b c); auto.
        -- exists []. now rewrite app_nil_r.
      * unfold give. cbn [t_alive]. exists tk, qs, later, y, ps, done, down. constructor; rewrite ?recent_snoc, ?conn_snoc, ?Ebg, ?tins_app, ?titems_app, ?I1, ?I2, ?app_nil_r; crush; auto; try discriminate.
        cbn [conn_step]. rewrite Hp. exact V1.
    + cbn [r_up r_due r_sent r_ans r_read] in *. exists tk, qs, later, y, ps, done, down. constructor; rewrite ?recent_snoc, ?conn_snoc; change (begins (Did (EIn bs))) with false; cbv iota; rewrite ?tins_app, ?titems_app; crush; cbn [tins titems flat_map]; rewrite ?app_nil_r; auto.
      now rewrite V9.
    + assert (Ebg : begins (Did e) = false) by reflexivity.
      assert (Gen : match e with EIn _ | EPkt _ _ | EDrop _ _ => False | _ => True end -> asks (k ++ [Did e]) R tk qs later y ps done down).
      { intro Hn. destruct (item_none (Did e) ltac:(destruct e; auto)) as (I1 & I2). constructor; rewrite ?recent_snoc, ?conn_snoc, ?Ebg, ?tins_app, ?titems_app, ?I1, ?I2, ?app_nil_r; auto. }
      rewrite V8 in V11, V12. rewrite V9 in V12.
      destruct e as [| | | |ty body|ty rl| | | | |]; try (do 7 eexists; apply Gen; exact I); try contradiction.
      * destruct (proj1 HF k ty body [] eq_refl) as (h & more & Hh & HRe).
        destruct (next_packet (fun x => x) Bz k (r_ans R) done down h ty body more) as (z & d & -> & ->); auto; try (now rewrite map_id).
        exists tk, qs, later, y, ps, (done ++ [(ty, body)]), d. constructor; rewrite ?recent_snoc, ?conn_snoc, ?Ebg, ?tins_app, ?titems_app; cbn [tins titems flat_map]; rewrite ?app_nil_r; auto.
        -- now rewrite <- app_assoc.
        -- apply Forall2_app; auto. constructor; [reflexivity|constructor].
        -- now rewrite V8.
        -- now rewrite V8, V9.
      * destruct (proj2 HF k ty rl [] eq_refl) as (h & more & Hh & HRe).
        destruct (next_one (fun x => x) Bz k (r_ans R) done down h ty rl more) as (z & d & -> & E1 & E2 & _); auto; try (now rewrite map_id).
        exists tk, qs, later, y, ps, (done ++ [z]), d. constructor; rewrite ?recent_snoc, ?conn_snoc, ?Ebg, ?tins_app, ?titems_app; cbn [tins titems flat_map]; rewrite ?app_nil_r; auto.
        -- now rewrite <- app_assoc.
        -- apply Forall2_app; auto. constructor; [split; auto|constructor].
        -- now rewrite V8.
        -- now rewrite V8, V9.
  - destruct (IH HF HG) as (tk & qs & later & y & ps & done & down & V). destruct V as [V1 V2 V3 V4 V5 V6 V7 V8 V9 V10 V11 V12].
    pose proof (conn_good _ HG) as HC.
    destruct H as [p r al ha du d a rd sp Hp|p z u du1 du2 d a rd Ha Hz|r r' al ha du d a rd|ty body u du d a rd Ht Hz]; cbn [r_up r_due r_sent r_ans r_read t_bytes t_alive t_half] in *.
    + destruct V5 as (z & V5). rewrite <- app_assoc in V5. destruct qs as [|p' qs]; [exfalso; cbn [cat map concat app] in V5; eapply cut_whole; [exact Hp|exact V2|symmetry; exact V5]|].
      rewrite V1 in HC. apply Forall_app in HC. destruct HC as (_ & HC). apply Forall_app in HC. destruct HC as (HC & _). inversion HC as [|? ? Hp' _]; subst.
      pose proof Hp' as (q & A1 & A2 & A3). unfold cat in V5. cbn [map concat] in V5. rewrite <- app_assoc, <- A2 in V5. apply bytes_split in V5; auto. destruct V5 as (-> & V5). change (concat (map bytes qs)) with (cat qs) in V5.
      exists (tk ++ [p']), qs, later, y, ps, done, down. constructor; crush; auto.
      * rewrite V1. now rewrite <- app_assoc.
      * intro E. destruct (V3 E) as (-> & K). split; auto. unfold cat in K. cbn [map concat] in K. rewrite <- app_assoc, <- A2 in K. now apply app_inv_head in K.
      * exists z. exact V5.
      * rewrite flat_map_app. cbn [flat_map]. rewrite app_nil_r, app_assoc, (due_same p' p Hp' Hp A2). now apply Permutation_app_tail.
      * destruct a as [sp0|]; auto. destruct V12 as (q & V12). cbn [stream] in V12. destruct (tins (recent k)); [eexists; reflexivity|discriminate].
    + exists tk, qs, later, y, (ps ++ [p]), done, (down ++ [z]). constructor; crush; auto.
      * rewrite <- V6, <- !app_assoc. apply Permutation_app_head. cbn [app]. apply Permutation_middle.
      * rewrite filter_app. apply Forall2_app; auto. cbn [filter]. assert (is_ans z = true) as -> by (destruct Ha; reflexivity). constructor; [exact Ha|constructor].
      * rewrite V8. now rewrite <- app_assoc.
      * apply Forall_app. split; auto.
      * rewrite stream_app. now apply prefix_app.
    + exists tk, qs, later, y, ps, done, down. constructor; crush; auto; try discriminate. destruct V5 as (z & V5). exists (r' ++ z). now rewrite app_assoc.
    + exists tk, qs, later, y, ps, done, (down ++ [(ty, body)]). constructor; crush; auto.
      * rewrite filter_app. cbn [filter is_ans fst]. unfold is_ans. cbn [fst]. rewrite Ht. now rewrite app_nil_r.
      * rewrite V8. now rewrite <- app_assoc.
      * apply Forall_app. split; auto.
      * rewrite stream_app. now apply prefix_app.
Qed.
Lemma filter_items done its : Forall2 is_item done its -> Forall2 is_item (filter is_ans done) (filter (fun i => answers_type (item_type i)) its).
Proof.
  induction 1 as [|x i d l H Hs IH]; [constructor|]. cbn [filter]. assert (is_ans x = answers_type (item_type i)) as -> by (unfold is_ans; destruct i; cbn in *; [subst x; reflexivity|destruct H as (-> & _); reflexivity]).
  destruct (answers_type (item_type i)); auto.
Qed.
Lemma answered_zip ps : forall xs its, Forall2 answer_to ps xs -> Forall2 is_item xs its -> Forall2 answered_by ps its.
Proof.
  induction ps as [|p ps IH]; intros xs its H1 H2; inversion H1; subst; inversion H2; subst; constructor; eauto. eexists; eauto.
Qed.
Lemma asked_match Bz k R : Asked true k R -> Fed Bz k -> (forall x p, In x k -> carries x = Some p -> good2 p) -> answers_match k.
Proof.
  intros HR HF HG. destruct (asked_inv _ _ _ HR HF HG) as (tk & qs & later & y & ps & done & down & V). destruct V as [V1 V2 V3 V4 V5 V6 V7 V8 V9 V10 V11 V12].
  rewrite V8, filter_app in V7. apply Forall2_app_inv_r in V7. destruct V7 as (ps1 & ps2 & K1 & K2 & ->). unfold answers_match.
  exists ps1, ((ps2 ++ r_due R) ++ flat_map due_of (qs ++ later)). split.
  - rewrite <- conn_requests, V1, (flat_map_app due_of tk (qs ++ later)). rewrite app_assoc. apply Permutation_app_tail. rewrite app_assoc. exact V6.
  - unfold answers. eapply answered_zip; [exact K1|now apply filter_items].
Qed.
