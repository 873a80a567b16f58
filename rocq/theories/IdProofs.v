(** Packet identifiers and the publishes in flight. *)
From Verif Require Import Base StateModel StateSpec StateHarness SerModel WireSpec SerHarness CoreModel CoreSpec CoreHarness CoreCases
  CoreProofs CoreProofs2 CoreProofs21 CoreProofs22 CoreFinal2.

(** the last [k] elements *)
Definition lastn {A} (k : nat) (l : list A) : list A := skipn (length l - k) l.
(** the identifiers already handed out when 65534 more have been: all but one *)
Definition recent : nat := Z.to_nat 65534.

Lemma counted_next l : forall a b, counted a l b -> 1 <= a <= 65535 -> b = (a - 1 + zlen l) mod 65535 + 1.
Proof.
  induction l as [|x l IH]; intros a b H Ha; cbn [counted] in H.
  - subst b. unfold zlen. cbn. rewrite Z.mod_small; lia.
  - destruct H as (-> & H). assert (Hn : 1 <= next_id a <= 65535) by (unfold next_id; destruct (a =? 65535) eqn:E; lia).
    rewrite (IH _ _ H Hn). unfold zlen, next_id. cbn [length]. destruct (a =? 65535) eqn:E.
    + apply Z.eqb_eq in E. subst a. replace (65535 - 1 + Z.of_nat (S (length l))) with (Z.of_nat (length l) + 1 * 65535) by lia. rewrite Z_mod_plus_full. reflexivity.
    + f_equal. f_equal. lia.
Qed.
Lemma nth_skip {A} (d : A) k : forall l i, nth i (skipn k l) d = nth (k + i) l d.
Proof. induction k as [|k IH]; intros l i; [reflexivity|]. destruct l as [|x l]; [destruct i; reflexivity|apply IH]. Qed.
Lemma next_not_recent l a b : counted a l b -> 1 <= a <= 65535 -> ~ In b (lastn recent l).
Proof.
  intros H Ha Hin. unfold lastn in Hin. destruct (In_nth _ _ 0 Hin) as (i & Hi & E). rewrite skipn_length in Hi.
  rewrite nth_skip in E.
  rewrite (counted_nth _ _ _ _ H Ha) in E by lia. rewrite (counted_next _ _ _ H Ha) in E. unfold zlen, recent in *.
  set (L := length l) in *. assert (E2 : (a - 1 + Z.of_nat (L - Z.to_nat 65534 + i)) mod 65535 = (a - 1 + Z.of_nat L) mod 65535) by lia.
  assert (0 < Z.of_nat L - Z.of_nat (L - Z.to_nat 65534 + i) < 65535) by lia.
  clear - E2 H0. lia.
Qed.
Lemma fresh_id G n m l s0 rs s t st s' t' id : opened G n m s0 -> run_calls G l s0 = Ret rs s t -> run_call G (COp OGetId) s = Ret st s' t' -> given t' = [id] ->
  ~ In id (lastn recent (given t)).
Proof.
  intros Ho H Hg Ei. assert (Hb : Begun G n m s0) by (exists s0, [], [], []; auto). pose proof (begun_nextId _ _ _ _ Hb) as H0. pose proof (i_calls G l _ _ _ _ H H0) as (Hc & _).
  assert (id = x_nextId (s_ctx s)).
  { cbn [run_call run_op] in Hg. apply bind_inv in Hg. destruct Hg as (a & s1 & t1 & t2 & Hg & Hr & ->). apply ret_inv in Hr. destruct Hr as (_ & _ & ->). rewrite app_nil_r in Ei.
    unfold getPacketId in Hg. apply bind_inv in Hg. destruct Hg as (c & s2 & t3 & t4 & Hg1 & Hg & ->). apply getc_inv in Hg1. destruct Hg1 as (-> & -> & ->).
    apply bind_inv in Hg. destruct Hg as (u & s3 & t5 & t6 & Hg1 & Hg & ->). apply modc_inv in Hg1. destruct Hg1 as (_ & ->).
    apply bind_inv in Hg. destruct Hg as (u' & s4 & t7 & t8 & Hg1 & Hg & ->). apply emit_inv in Hg1. destruct Hg1 as (_ & ->). apply ret_inv in Hg. destruct Hg as (_ & _ & ->).
    cbn in Ei. congruence. }
  subst id. eapply next_not_recent; eauto.
Qed.
Lemma fresh_unused G n m l s0 rs s t st s' t' id : opened G n m s0 -> run_calls G l s0 = Ret rs s t -> run_call G (COp OGetId) s = Ret st s' t' -> given t' = [id] ->
  ~ In id (lastn recent (given t)) /\
  ((forall f, In f (outgoing s) -> In (f_id f) (lastn recent (given t))) -> in_flight (outgoing s) id = false).
Proof.
  intros Ho H Hg Ei. pose proof (fresh_id _ _ _ _ _ _ _ _ _ _ _ _ Ho H Hg Ei) as Hn. split; [exact Hn|]. intro Hf.
  unfold in_flight. destruct (existsb _ (outgoing s)) eqn:E; [|reflexivity]. exfalso. apply existsb_exists in E. destruct E as (f & Hin & Ef). apply Z.eqb_eq in Ef.
  apply Hn. rewrite <- Ef. auto.
Qed.
(** many calls of MQTT_GetPacketId *)
Lemma get_ids G k : forall s, 1 <= x_nextId (s_ctx s) <= 65535 -> exists x t,
  run_calls G (repeat (COp OGetId) k) s = Ret (repeat Success k) (mkSt (set_nextId (s_ctx s) x) (s_env s)) t /\ x = (x_nextId (s_ctx s) - 1 + Z.of_nat k) mod 65535 + 1.
Proof.
  induction k as [|k IH]; intros [c e] Hx; cbn [s_ctx s_env] in *.
  - exists (x_nextId c), []. split; [destruct c; reflexivity|]. cbn. rewrite Z.mod_small; lia.
  - set (y := if x_nextId c =? 65535 then 1 else u16 (x_nextId c + 1)).
    assert (Hy : 1 <= y <= 65535 /\ y = (x_nextId c - 1 + 1) mod 65535 + 1).
    { unfold y, u16. destruct (x_nextId c =? 65535) eqn:E; [apply Z.eqb_eq in E; rewrite E; cbn; lia|]. rewrite Z.mod_small by lia. rewrite Z.mod_small by lia. lia. }
    destruct (IH (mkSt (set_nextId c y) e)) as (x & t & E & Ex); [apply Hy|]. cbn [s_ctx s_env] in E, Ex.
    exists x, ([EId (x_nextId c)] ++ t). split.
    + cbn [repeat run_calls run_call run_op]. unfold bind at 1 2, getPacketId at 1. cbn [bind getc modc emit ret s_ctx s_env]. fold y.
      unfold bind. rewrite E. cbn [ret app]. now rewrite app_nil_r.
    + rewrite Ex. cbn [x_nextId set_nextId]. destruct Hy as (_ & Hy). rewrite Hy.
      replace ((x_nextId c - 1 + 1) mod 65535 + 1 - 1 + Z.of_nat k) with ((x_nextId c - 1 + 1) mod 65535 + Z.of_nat k) by lia. rewrite Zplus_mod_idemp_l. f_equal. f_equal. lia.
Qed.
