(** Histories of the client, seen through the machine of Machine.v: discarded sessions. *)
From Verif Require Import Base StateModel StateSpec StateHarness SerModel WireSpec SerHarness CoreModel CoreHarness CoreSpec ConcModel ConcHarness
  Machine MachSpec MachSpec2 MachProofs MachProofs5 MachFacts MachFacts2 MachFacts3 MachFinal.

Lemma completed_kept G n m l w s s' t : completed G n m l w s s' t -> exists k, spells t k /\
  forall k1 x k2 id, k = k1 ++ x :: k2 -> used k1 ->
    ((exists bs, carries x = Some (KAgain id bs)) -> since (was_stored id) (fun x => ~ cleans x) k1) /\
    (carries x = Some (KAck Pubrel id) -> since (eq (Did (EPkt 80 (be16 id)))) (fun x => ~ cleans x) k1).
Proof.
  intro E. destruct (completed_run _ _ _ _ _ _ _ _ E) as (k & S & R). exists k. destruct (machine_facts _ _ _ _ _ _ R) as (F1 & _). split.
  - split; [exact S|]. intros k1 x k2 p Ek Ex. specialize (F1 _ _ _ Ek). assert (L : legit k1 p) by (destruct x; try discriminate; cbn in Ex, F1; congruence).
    destruct L as (L1 & L2). split; auto. intros id bs ->. cbn in L2. split; apply L2.
  - intros k1 x k2 id Ek U. pose proof (sessions_kept _ _ _ _ _ _ R _ _ _ Ek U) as F. split.
    + intros (bs & Ex). rewrite Ex in F. exact F.
    + intro Ex. rewrite Ex in F. exact F.
Qed.
