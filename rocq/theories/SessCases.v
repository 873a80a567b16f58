(** Concrete histories for Props_Sess.v. *)
From Verif Require Import Base StateModel StateSpec StateHarness SerModel WireSpec SerHarness CoreModel CoreSpec CoreHarness CoreCases CoreFinal3 Props_Findings
  ConcModel ConcHarness ConcCases Machine MachSpec MachSpec2 MachProofs MachProofs5 MachFinal MachCases NetCases.

Definition clean_con : coninfo := mkCon true 60 (Some [97; 98; 99]) 3 None 0 None 0.
Definition clean_msg : connect_msg := mkConnect true 60 [97; 98; 99] None None None.
Definition conn_clean : call := CConnect clean_con None 1000.
Definition clean_bytes : list Z := [16; 15; 0; 4; 77; 81; 84; 84; 4; 2; 0; 60; 0; 3; 97; 98; 99].

(** answers to a clean and to another CONNECT are lost *)
Definition lost_env : env := mkEnv ([32; 2; 0; 0] ++ [32; 2; 1; 0]) [1; 1; 2; -1; -1; 1; 1; 2]
  (repeat 100 20) (repeat 0 99) [] (repeat true 9) [Some (publish_packet (with_dup (pub1_msg Q1 7)))].
Definition lost_calls : list call := [conn1; COp (OPublish (pub1 Q1) 7); COp ODisconnect; conn_clean; conn1; conn1].
Definition lost_toks : list tok :=
  [Sent (KConnect con1_msg); Did (EIn [32]); Did (EIn [2]); Did (EIn [0; 0]); Did (EStore 7 [[58; 7; 0; 1]; [97]; [0; 7]; [1; 2]] true); Sent (KPublish (pub1_msg Q1 7)); Sent KDisconnect;
   Sent (KConnect clean_msg); Did EInErr; Sent (KConnect con1_msg); Did EInErr;
   Sent (KConnect con1_msg); Did (EIn [32]); Did (EIn [2]); Did (EIn [1; 0]); Did (ERetrieve 7 (Some [58; 7; 0; 1; 97; 0; 7; 1; 2]))].
Definition lost_trace : list ev :=
  [EOut con_bytes; EIn [32]; EIn [2]; EIn [0; 0]; EStore 7 [[58; 7; 0; 1]; [97]; [0; 7]; [1; 2]] true; EOut [50; 7; 0; 1; 97; 0; 7; 1; 2]; EOut [224; 0];
   EOut clean_bytes; EInErr; EOut con_bytes; EInErr; EOut con_bytes; EIn [32]; EIn [2]; EIn [1; 0];
   ERetrieve 7 (Some [58; 7; 0; 1; 97; 0; 7; 1; 2]); EOut [58; 7; 0; 1; 97; 0; 7; 1; 2]].
Lemma lost_says : Says lost_trace (lost_toks ++ [Sent (KAgain 7 (publish_packet (with_dup (pub1_msg Q1 7))))]).
Proof.
  unfold lost_trace, lost_toks. cbn [app]. apply (says_one (KConnect con1_msg)). do 4 (apply says_did; [reflexivity|]). apply (says_one (KPublish (pub1_msg Q1 7))). apply (says_one KDisconnect).
  apply (says_one (KConnect clean_msg)). apply says_did; [reflexivity|]. apply (says_one (KConnect con1_msg)). apply says_did; [reflexivity|]. apply (says_one (KConnect con1_msg)).
  do 4 (apply says_did; [reflexivity|]). apply (says_one (KAgain 7 [58; 7; 0; 1; 97; 0; 7; 1; 2])). constructor.
Qed.

(** a clean session, and another session after it *)
Definition next_env : env := mkEnv ([32; 2; 0; 0] ++ [32; 2; 0; 0] ++ [32; 2; 0; 0] ++ [32; 2; 1; 0]) [1; 1; 2; 1; 1; 2; 1; 1; 2; 1; 1; 2]
  (repeat 100 20) (repeat 0 99) [] (repeat true 9) [Some (publish_packet (with_dup (pub1_msg Q1 9)))].
Definition next_calls : list call := [conn1; COp (OPublish (pub1 Q1) 7); COp ODisconnect; conn_clean; COp ODisconnect; conn1; COp (OPublish (pub1 Q1) 9); COp ODisconnect; conn1].
Definition next_toks : list tok :=
  [Sent (KConnect con1_msg); Did (EIn [32]); Did (EIn [2]); Did (EIn [0; 0]); Did (EStore 7 [[58; 7; 0; 1]; [97]; [0; 7]; [1; 2]] true); Sent (KPublish (pub1_msg Q1 7)); Sent KDisconnect;
   Sent (KConnect clean_msg); Did (EIn [32]); Did (EIn [2]); Did (EIn [0; 0]); Did (EClear 7); Sent KDisconnect;
   Sent (KConnect con1_msg); Did (EIn [32]); Did (EIn [2]); Did (EIn [0; 0]); Did (EStore 9 [[58; 7; 0; 1]; [97]; [0; 9]; [1; 2]] true); Sent (KPublish (pub1_msg Q1 9)); Sent KDisconnect;
   Sent (KConnect con1_msg); Did (EIn [32]); Did (EIn [2]); Did (EIn [1; 0]); Did (ERetrieve 9 (Some [58; 7; 0; 1; 97; 0; 9; 1; 2])); Sent (KAgain 9 [58; 7; 0; 1; 97; 0; 9; 1; 2])].
Definition next_trace : list ev :=
  [EOut con_bytes; EIn [32]; EIn [2]; EIn [0; 0]; EStore 7 [[58; 7; 0; 1]; [97]; [0; 7]; [1; 2]] true; EOut [50; 7; 0; 1; 97; 0; 7; 1; 2]; EOut [224; 0];
   EOut clean_bytes; EIn [32]; EIn [2]; EIn [0; 0]; EClear 7; EOut [224; 0];
   EOut con_bytes; EIn [32]; EIn [2]; EIn [0; 0]; EStore 9 [[58; 7; 0; 1]; [97]; [0; 9]; [1; 2]] true; EOut [50; 7; 0; 1; 97; 0; 9; 1; 2]; EOut [224; 0];
   EOut con_bytes; EIn [32]; EIn [2]; EIn [1; 0]; ERetrieve 9 (Some [58; 7; 0; 1; 97; 0; 9; 1; 2]); EOut [58; 7; 0; 1; 97; 0; 9; 1; 2]].
Lemma next_says : Says next_trace next_toks.
Proof.
  unfold next_trace, next_toks. apply (says_one (KConnect con1_msg)). do 4 (apply says_did; [reflexivity|]). apply (says_one (KPublish (pub1_msg Q1 7))). apply (says_one KDisconnect).
  apply (says_one (KConnect clean_msg)). do 4 (apply says_did; [reflexivity|]). apply (says_one KDisconnect). apply (says_one (KConnect con1_msg)).
  do 4 (apply says_did; [reflexivity|]). apply (says_one (KPublish (pub1_msg Q1 9))). apply (says_one KDisconnect). apply (says_one (KConnect con1_msg)).
  do 4 (apply says_did; [reflexivity|]). apply (says_one (KAgain 9 [58; 7; 0; 1; 97; 0; 9; 1; 2])). constructor.
Qed.
Lemma next_completed : completed cfg1 3 2 next_calls (mkW false []) (client1 next_env) (c_after next_calls (mkW false []) (client1 next_env)) next_trace.
Proof.
  destruct (completed_client next_calls (mkW false []) next_env) as (rs & t & E & C); [legal1|fits1|vm_compute; discriminate|].
  replace next_trace with t; [exact C|]. assert (E2 : c_trace next_calls (mkW false []) (client1 next_env) = Some (repeat Success 9, next_trace)) by (vm_compute; reflexivity). congruence.
Qed.
(** a check of [used] *)
Definition is_clean (x : tok) : bool := match x with Sent (KConnect m) => cm_clean m | _ => false end.
Fixpoint idle_clean (l : list tok) : bool :=
  match l with
  | [] => true
  | x :: l => match carries x with None => idle_clean l | Some (KConnect _) => false | Some _ => true end
  end.
Fixpoint usedb (l : list tok) : bool := match l with [] => true | x :: l => (if is_clean x then idle_clean l else true) && usedb l end.
Lemma idle_sound b : forall y c, idle_clean (b ++ y :: c) = true -> connects y -> Exists (fun z => carries z <> None) b.
Proof.
  induction b as [|x b IH]; intros y c H (m & Hy); cbn in H.
  - rewrite Hy in H. discriminate.
  - destruct (carries x) eqn:E; [apply Exists_cons_hd; congruence|]. apply Exists_cons_tl. eapply IH; eauto. exists m. exact Hy.
Qed.
Lemma usedb_sound l : usedb l = true -> used l.
Proof.
  intros H a x b y c E (m & -> & Hm) Hy. subst l. induction a as [|z a IH]; cbn in H; apply andb_true_iff in H; destruct H as (H1 & H2).
  - rewrite Hm in H1. eapply idle_sound; eauto.
  - auto.
Qed.
Lemma next_used : used next_toks.
Proof. apply usedb_sound. reflexivity. Qed.
