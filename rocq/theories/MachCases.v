(** Concrete histories for the Examples of Props_Mach.v. *)
From Verif Require Import Base StateModel StateSpec StateHarness SerModel WireSpec SerHarness CoreModel CoreSpec CoreHarness CoreCases CoreFinal3 Props_Findings
  ConcModel ConcHarness ConcCases Machine MachSpec MachProofs MachProofs5 MachFinal.

(** other threads publish (ids 8 and 7), ping and take an identifier while the loop
    receives a QoS 2 publish and the PUBREC of 8; then the session is resumed *)
Definition tour_env : env := mkEnv ([32; 2; 0; 0] ++ [52; 6; 0; 1; 97; 0; 9; 5] ++ [80; 2; 0; 8] ++ [32; 2; 1; 0]) [1; 1; 2; 8; 4; 1; 1; 2]
  (repeat 100 20) (repeat 0 99) [[OGetId]] (repeat true 9) [Some (publish_packet (with_dup (pub1_msg Q1 7)))].
Definition tour_calls : list call := [conn1; CProcess; CProcess; COp ODisconnect; conn1].
Definition tour_world : world := mkW false (repeat [] 6 ++ [[OPublish (pub1 Q2) 8; OGetId]] ++ repeat [] 6 ++ [[OPing; OPublish (pub1 Q1) 7]]).
Definition con_bytes : list Z := [16; 15; 0; 4; 77; 81; 84; 84; 4; 0; 0; 60; 0; 3; 97; 98; 99].
Definition tour_trace : list ev :=
  [EOut con_bytes; EIn [32]; EIn [2]; EIn [0; 0]; EIn [52; 6; 0; 1; 97; 0; 9; 5];
   EStore 8 [[60; 7; 0; 1]; [97]; [0; 8]; [1; 2]] true; EOut [52; 7; 0; 1; 97; 0; 8; 1; 2]; EId 1;
   EPkt 52 [0; 1; 97; 0; 9; 5]; ECb 52 [0; 1; 97; 0; 9; 5] 9 (Some (mkDpub Q2 false false 2 1 (Some 5) 1)) Success; EId 2; EOut [80; 2; 0; 9];
   EOut [192; 0]; EStore 7 [[58; 7; 0; 1]; [97]; [0; 7]; [1; 2]] true; EOut [50; 7; 0; 1; 97; 0; 7; 1; 2];
   EIn [80; 2; 0; 8]; EPkt 80 [0; 8]; EClear 8; ECb 80 [0; 8] 8 None Success; EOut [98; 2; 0; 8];
   EOut [224; 0]; EOut con_bytes; EIn [32]; EIn [2]; EIn [1; 0];
   EOut [98; 2; 0; 8]; ERetrieve 7 (Some [58; 7; 0; 1; 97; 0; 7; 1; 2]); EOut [58; 7; 0; 1; 97; 0; 7; 1; 2]].

Lemma completed_client l w e : legal cfg1 3 2 l w (client1 e) -> all_fit cfg1 true l w (client1 e) -> c_trace l w (client1 e) <> None ->
  exists rs t, c_trace l w (client1 e) = Some (rs, t) /\ completed cfg1 3 2 l w (client1 e) (c_after l w (client1 e)) t.
Proof.
  intros H F K. unfold c_trace, c_after, completed in *. destruct (c_run_calls cfg1 l w (client1 e)) as [[[rs|] w'] s' t| |]; try contradiction.
  exists rs, t. split; auto. split; auto. split; [reflexivity|]. split; auto. eauto.
Qed.
Ltac fits1 := split; [|split]; repeat constructor; cbn; try lia; vm_compute; congruence.
Lemma tour_completed : completed cfg1 3 2 tour_calls tour_world (client1 tour_env) (c_after tour_calls tour_world (client1 tour_env)) tour_trace.
Proof.
  destruct (completed_client tour_calls tour_world tour_env) as (rs & t & E & C); [legal1|fits1|vm_compute; discriminate|].
  replace tour_trace with t; [exact C|]. assert (E2 : c_trace tour_calls tour_world (client1 tour_env) = Some (repeat Success 5, tour_trace)) by (vm_compute; reflexivity). congruence.
Qed.

(** a check of [tidy] *)
Fixpoint unclear (seen : list Z) (t : list ev) : bool :=
  match t with
  | [] | EIn _ :: _ | EPkt _ _ :: _ => true
  | EStore id _ _ :: t => unclear (id :: seen) t
  | EClear id :: t => negb (existsb (Z.eqb id) seen) && unclear seen t
  | _ :: t => unclear seen t
  end.
Fixpoint tidyb (t : list ev) : bool := match t with [] => true | EPkt _ _ :: t => unclear [] t && tidyb t | _ :: t => tidyb t end.
Lemma unclear_sound b : forall seen id c, unclear seen (b ++ EClear id :: c) = true -> Forall (fun e => ~ reading e) b -> ~ In id seen /\ ~ Exists (stores id) b.
Proof.
  induction b as [|e b IH]; intros seen id c H K.
  - cbn in H. apply andb_true_iff in H. destruct H as (H & _). split; [|intro C; inversion C]. intro C. rewrite (proj2 (existsb_exists _ _)) in H; [discriminate|]. exists id. split; auto. lia.
  - inversion K; subst. cbn [app unclear] in H. destruct e; try (exfalso; apply H2; exact I); try (destruct (IH _ _ _ H H3) as (A & B); split; auto; intro C; inversion C; subst; auto; destruct H1 as (v & ok & D); discriminate).
    + destruct (IH _ _ _ H H3) as (A & B). split; [intro C; apply A; now right|]. intro C. inversion C; subst; auto. destruct H1 as (v & o & D). apply A. left. congruence.
    + apply andb_true_iff in H. destruct H as (_ & H). destruct (IH _ _ _ H H3) as (A & B). split; auto. intro C. inversion C; subst; auto. destruct H1 as (v & ok & D); discriminate.
Qed.
Lemma tidyb_sound t : tidyb t = true -> tidy t.
Proof.
  intros H a ty id b c E Hb. subst t. induction a as [|e a IH].
  - cbn [app tidyb] in H. apply andb_true_iff in H. destruct H as (H & _). now apply unclear_sound in H.
  - apply IH. cbn [app tidyb] in H. destruct e; auto. apply andb_true_iff in H. apply H.
Qed.
