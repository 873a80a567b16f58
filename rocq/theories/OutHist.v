(** QoS 1 messages: histories of the client. *)
From Verif Require Import Base StateModel StateSpec StateHarness SerModel WireSpec SerHarness CoreModel CoreHarness ConcModel ConcHarness ConcProofs7
  Machine MachSpec MachProofs MachProofs5 MachFinal NetSpec OutSpec OutProofs4 OutFinal OutSeq.

(** the run of the machine of a history from [s] to [s'] *)
Definition machine_run (n m : nat) (s s' : st) (k : list tok) : Prop :=
  Run (x_retr (s_ctx s)) false (mkM NotConnected (fresh_session n m) 1 Idle) k (mkM (x_status (s_ctx s')) (session_of n m s') (x_nextId (s_ctx s')) Idle).

Lemma threads_out G n m l w s rs w' s' t : legal G n m l w s -> g_big G = false -> all_fit G false l w s -> c_run_calls G l w s = Ret (Some rs, w') s' t -> undisturbed t ->
  exists k, Says t k /\ machine_run n m s s' k /\ (one_session k -> no_dups k -> keeps_copies k -> delivered1 k (session_of n m s') /\ confirmed1 k).
Proof.
  intros H1 H2 H3 H4 U. destruct (refinement _ _ _ _ _ _ _ _ _ _ _ H1 H2 H3 H4) as (k & S & R). exists k. split; auto. split; auto. intros O1 O2 O3.
  destruct (least_once _ _ _ _ _ R O1 O2 O3 (says_undisturbed _ _ S U)) as (A & B & C). split; [split|]; auto.
Qed.
Lemma alone_out G n m l s rs s' t : opened G n m s -> 3 <= g_maxvec G -> cbs_sound (s_env s) -> Forall call_sound l -> g_big G = false ->
  all_fit G false l (mkW false []) s -> run_calls G l s = Ret rs s' t ->
  exists k, Says t k /\ machine_run n m s s' k /\ (one_session k -> no_dups k -> keeps_copies k -> delivered1 k (session_of n m s') /\ confirmed1 k).
Proof.
  intros H1 H2 H3 H4 H5 H6 H7. destruct (refinement_seq _ _ _ _ _ _ _ _ _ H1 H2 H3 H4 H5 H6 H7) as (k & S & R). exists k. split; auto. split; auto. intros O1 O2 O3.
  destruct (opened_fresh _ _ _ _ _ _ _ _ H1 H7) as (_ & U).
  destruct (least_once _ _ _ _ _ R O1 O2 O3 (says_undisturbed _ _ S U)) as (A & B & C). split; [split|]; auto.
Qed.
(** copies fetched, without other threads *)
Lemma alone_fetches G n m l s rs s' t : opened G n m s -> 3 <= g_maxvec G -> cbs_sound (s_env s) -> Forall call_sound l -> g_big G = false ->
  all_fit G true l (mkW false []) s -> run_calls G l s = Ret rs s' t -> forall a id r c, t = a ++ ERetrieve id r :: c ->
  exists v ok, copy_of id v /\ since (eq (EStore id v ok)) (fun e => e <> EClear id) a.
Proof.
  intros H1 H2 H3 H4 H5 H6 E. destruct (alone_nest (nest G) l (mkW false []) s eq_refl eq_refl (Forall_nil _)) as (w' & E2).
  unfold bind in E2. rewrite nest_same, E in E2. apply (completed_retrieves (nest G) n m l (mkW false []) s s').
  - split; [|split; [exact H5|split; [exact H6|]]].
    + split; [destruct G; exact H1|]. split; [exact H2|]. split; [exact H3|]. split; [exact H4|]. split; [reflexivity|constructor].
    + exists rs, w'. rewrite E2. cbn. now rewrite app_nil_r.
  - eapply opened_fresh; eauto.
Qed.
