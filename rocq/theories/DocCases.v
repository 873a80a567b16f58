(** Runs that end in each status (C118). *)
From Verif Require Import Base StateModel StateSpec StateHarness SerModel WireSpec SerHarness CoreModel CoreSpec CoreHarness CoreCases DocSpec.

(** two calls of the same function *)
Definition same_function (a b : call) : bool :=
  match a, b with
  | COp (OPublish _ _), COp (OPublish _ _) | COp (OSubscribe _ _ _), COp (OSubscribe _ _ _) | COp (OUnsubscribe _ _ _), COp (OUnsubscribe _ _ _)
  | COp OPing, COp OPing | COp ODisconnect, COp ODisconnect | COp OGetId, COp OGetId | COp (OCancel _), COp (OCancel _) | COp OCheck, COp OCheck
  | CConnect _ _ _, CConnect _ _ _ | CProcess, CProcess | CReceive, CReceive => true
  | _, _ => false
  end.
(** earlier calls, environment, call and its status *)
Definition doc_run : Type := list call * env * call * status.
Definition doc_check (r : doc_run) : bool :=
  let '(l, e, c, st) := r in
  ended l (client1 e) && forallb (fun b => (0 <=? b) && (b <? 256)) (e_in e) && negb (existsb (existsb is_disc) (e_cbs e)) &&
  match run_call cfg1 c (after_calls l (client1 e)) with Ret x _ _ => status_beq x st | _ => false end.

Definition d_conn : call := CConnect con1 None 1000.
Definition d_pub (q : qos) (id : Z) : call := COp (OPublish (pub1 q) id).
Definition d_dup : call := COp (OPublish (mkPub Q2 false true (Some [97]) 1 (Some [1; 2]) 2) 7).
Definition d_subs : option (list subinfo) := Some [mkSub Q1 (Some [97]) 1].
Definition d_sub (n : Z) : call := COp (OSubscribe d_subs n 5).
Definition d_unsub (n : Z) : call := COp (OUnsubscribe d_subs n 5).
(** the server sends CONNACK and then [inp], the transport delivers up to 32 bytes a time, and takes [sends] *)
Definition d_env (inp sends : list Z) : env := mkEnv ([32; 2; 0; 0] ++ inp) ([1; 1; 2] ++ repeat 32 5) sends (repeat 0 60) [] [true; true; true] [].
Definition d_ok : env := d_env [] (repeat 100 8).
(** the second packet meets an error of the transport *)
Definition d_bad : env := d_env [] [100; -1].
Definition d_fresh (inp recvs : list Z) : env := mkEnv inp recvs (repeat 100 5) (repeat 0 60) [] [] [].
(** a QoS 1 publish and three QoS 2 publishes *)
Definition d_in1 : list Z := [50; 5; 0; 1; 97; 0; 9].
Definition d_in2 (id : Z) : list Z := [52; 5; 0; 1; 97; 0; id].
Definition d_slow (inp recvs sends : list Z) : env := mkEnv ([32; 2; 0; 0] ++ inp) ([1; 1; 2] ++ recvs) sends (repeat 0 60) [] [true; true] [].

Definition doc_op_runs : list doc_run :=
  [ ([d_conn], d_ok, d_pub Q1 7, Success);
    ([d_conn], d_ok, d_pub Q1 0, BadParameter);
    ([], d_ok, d_pub Q1 7, StNotConnected);
    ([d_conn; COp OPing], d_bad, d_pub Q1 7, StDisconnectPending);
    ([d_conn; d_pub Q1 1; d_pub Q1 2; d_pub Q1 3], d_ok, d_pub Q1 4, NoMemory);
    ([d_conn; d_pub Q1 7], d_ok, d_pub Q1 7, StateCollision);
    ([d_conn], mkEnv [32; 2; 0; 0] [1; 1; 2] [100; 100] (repeat 0 60) [] [false] [], d_pub Q1 7, PublishStoreFailed);
    ([d_conn], d_bad, d_pub Q1 7, SendFailed);
    ([d_conn; d_pub Q2 7; CProcess], d_env [80; 2; 0; 7] (repeat 100 8), d_dup, IllegalState);
    ([d_conn], d_ok, d_sub 1, Success); ([d_conn], d_ok, d_sub 0, BadParameter); ([], d_ok, d_sub 1, StNotConnected);
    ([d_conn; COp OPing], d_bad, d_sub 1, StDisconnectPending); ([d_conn], d_bad, d_sub 1, SendFailed);
    ([d_conn], d_ok, d_unsub 1, Success); ([d_conn], d_ok, d_unsub 0, BadParameter); ([], d_ok, d_unsub 1, StNotConnected);
    ([d_conn; COp OPing], d_bad, d_unsub 1, StDisconnectPending); ([d_conn], d_bad, d_unsub 1, SendFailed);
    ([d_conn], d_ok, COp OPing, Success); ([], d_ok, COp OPing, StNotConnected);
    ([d_conn; COp OPing], d_bad, COp OPing, StDisconnectPending); ([d_conn], d_bad, COp OPing, SendFailed);
    ([d_conn], d_ok, COp ODisconnect, Success); ([], d_ok, COp ODisconnect, StNotConnected); ([d_conn], d_bad, COp ODisconnect, SendFailed);
    ([], d_ok, COp OGetId, Success);
    ([d_conn; d_pub Q1 7], d_ok, COp (OCancel 7), Success); ([], d_ok, COp (OCancel 7), BadParameter);
    ([], d_ok, COp OCheck, StNotConnected); ([d_conn], d_ok, COp OCheck, StConnected); ([d_conn; COp OPing], d_bad, COp OCheck, StDisconnectPending) ].
Definition doc_connect_runs : list doc_run :=
  [ ([], d_ok, d_conn, Success);
    ([], d_ok, CConnect (mkCon false 60 (Some []) 0 None 0 None 0) None 1000, BadParameter);
    ([d_conn], d_ok, d_conn, StConnected);
    ([d_conn; COp OPing], d_bad, d_conn, StDisconnectPending);
    ([], mkEnv [] [] [-1] (repeat 0 20) [] [] [], d_conn, SendFailed);
    ([], d_fresh [] [-1], d_conn, RecvFailed);
    ([], d_fresh [] (repeat 0 20), CConnect con1 None 0, NoDataAvailable);
    ([], d_fresh [208; 0] [1; 1], d_conn, BadResponse);
    ([], d_fresh [32; 2; 0; 5] [1; 1; 2], d_conn, ServerRefused);
    ([d_conn; d_pub Q1 7; COp ODisconnect], mkEnv [32; 2; 0; 0; 32; 2; 1; 0] [1; 1; 2; 1; 1; 2] (repeat 100 8) (repeat 0 60) [] [true] [None], d_conn, PublishRetrieveFailed) ].
(** for both loops *)
Definition doc_loop_runs (c : call) : list doc_run :=
  [ ([d_conn], d_ok, c, Success);
    ([d_conn], d_slow [] [-1] [100], c, RecvFailed);
    ([d_conn], d_env d_in1 [100; -1], c, SendFailed);
    ([d_conn], d_env [80; 2; 0; 7] [100], c, BadResponse);
    ([d_conn; d_pub Q2 7], d_env [64; 2; 0; 7] [100; 100], c, IllegalState);
    ([d_conn], d_env [50; 5; 0] [100], c, NeedMoreBytes);
    ([], d_fresh d_in1 [32], c, StNotConnected);
    ([d_conn; COp OPing], d_env d_in1 [100; -1], c, StDisconnectPending);
    ([d_conn; c; c], d_slow (d_in2 1 ++ d_in2 2 ++ d_in2 3) [7; 7; 7] (repeat 100 5), c, NoMemory) ].
Definition doc_runs : list doc_run := doc_op_runs ++ doc_connect_runs ++ doc_loop_runs CProcess ++ doc_loop_runs CReceive ++
  [ ([d_conn; COp OPing], mkEnv [32; 2; 0; 0] [1; 1; 2; 0] [100; 100] (repeat 0 10 ++ repeat 9000 10) [] [] [], CProcess, KeepAliveTimeout) ].
