(** The receive loop with the callback as a parameter. *)
From Verif Require Import Base StateModel SerModel CoreModel NestModel.

Lemma nest_same G mk : n_receiveSingleIteration G (callback G) mk = receiveSingleIteration G mk.
Proof. reflexivity. Qed.
Lemma nest_process G : n_processLoop G (callback G) = processLoop G.
Proof. reflexivity. Qed.
Lemma nest_receive G : n_receiveLoop G (callback G) = receiveLoop G.
Proof. reflexivity. Qed.
(** a failed recv ends the pass at once *)
Lemma nest_error G cb mk s x rest : e_recvs (s_env s) = x :: rest -> x < 0 -> 0 <= x_index (s_ctx s) <= zlen (x_buf (s_ctx s)) -> zlen (x_buf (s_ctx s)) < g_M G ->
  n_receiveSingleIteration G cb mk s = Ret RecvFailed (mkSt (transport_broke (s_ctx s)) (env_recv (s_env s) (e_in (s_env s)) rest)) [EInErr].
Proof.
  intros E Hx Hi HM. destruct s as [c e]. cbn [s_ctx s_env] in *. unfold n_receiveSingleIteration. unfold bind at 1. cbn [getc s_ctx].
  set (i := x_index c) in *. assert (Em : (zlen (x_buf c) - i) mod g_M G = zlen (x_buf c) - i) by (apply Z.mod_small; lia). rewrite Em.
  assert (Eb : store_at (x_buf c) i [] = x_buf c).
  { unfold store_at. cbn [app length]. rewrite Nat.add_0_r. apply firstn_skipn. }
  assert (Er : recv_into i (zlen (x_buf c) - i) (mkSt c e) = Ret x (mkSt c (env_recv e (e_in e) rest)) [EInErr]).
  { unfold recv_into, bind, getc, massert, trecv. cbn [s_ctx s_env].
    assert (((0 <=? i) && (0 <=? zlen (x_buf c) - i) && (i + (zlen (x_buf c) - i) <=? zlen (x_buf c))) = true) as -> by lia.
    cbn [s_ctx s_env ret]. rewrite E. assert (x <? 0 = true) as -> by lia. cbn [modc s_ctx s_env app ret]. rewrite Eb. destruct c; reflexivity. }
  unfold bind at 1. rewrite Er. assert (H0 : x <? 0 = true) by lia. assert (H1 : x =? 0 = false) by lia.
  rewrite H0, H1. cbn [andb]. unfold bind. cbn [modc ret getc s_ctx s_env app status_beq negb]. reflexivity.
Qed.
