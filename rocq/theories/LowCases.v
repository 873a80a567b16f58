(** Runs for C119: one for each status of each function. *)
From Verif Require Import Base StateModel StateSpec StateHarness SerModel LowSpec.

Definition session_after (l : list sop) : recs :=
  match engine_run (fresh_recs 1 1) (map to_call l) with Ok (_, c) => c | Ub => fresh_recs 1 1 end.
Definition l_con (n : Z) := mkCon true 0 (Some [97]) n None 0 None 0.
Definition l_pub (n : Z) := mkPub Q1 false false (Some [97]) n None 0.
Definition l_subs := Some [mkSub Q0 (Some [97]) 1].
Definition l_buf (n : nat) := Some (repeat 0 n).
Definition l_size := 4294967296.
Definition low_runs : list (low * status) :=
  [(LReserve (fresh_recs 1 1) 5 Q1, Success); (LReserve (session_after [Reserve 5 Q1]) 6 Q1, NoMemory);
   (LReserve (session_after [Reserve 5 Q1]) 5 Q1, StateCollision); (LReserve (fresh_recs 1 1) 0 Q1, BadParameter);
   (LPublished (fresh_recs 1 1) 0 OpSend Q1, BadParameter);
   (LPublished (session_after [Reserve 5 Q2; Published 5 OpSend Q2; Acked 5 Pubrec OpReceive]) 5 OpSend Q2, IllegalState);
   (LPublished (session_after [Published 5 OpReceive Q1]) 5 OpReceive Q1, StateCollision);
   (LPublished (session_after [Published 5 OpReceive Q1]) 6 OpReceive Q1, NoMemory);
   (LPublished (fresh_recs 1 1) 5 OpReceive Q1, Success);
   (LAcked (fresh_recs 1 1) 0 Puback OpReceive, BadParameter); (LAcked (fresh_recs 1 1) 5 Puback OpReceive, BadResponse);
   (LAcked (session_after [Reserve 5 Q1]) 5 Pubrec OpReceive, IllegalState);
   (LAcked (session_after [Reserve 5 Q1; Published 5 OpSend Q1]) 5 Puback OpReceive, Success);
   (LRemove (fresh_recs 1 1) 5, BadParameter); (LRemove (session_after [Reserve 5 Q1]) 5, Success);
   (LConnectSize (l_con 0) None, BadParameter); (LConnectSize (l_con 1) None, Success);
   (LConnect l_size (l_con 1) None 13 None, BadParameter); (LConnect l_size (l_con 1) None 13 (l_buf 14), NoMemory);
   (LConnect l_size (l_con 1) None 13 (l_buf 15), Success);
   (LSubSize l_size None 1, BadParameter); (LSubSize l_size l_subs 1, Success);
   (LSub l_size l_subs 1 5 6 None, BadParameter); (LSub l_size l_subs 1 5 6 (l_buf 7), NoMemory); (LSub l_size l_subs 1 5 6 (l_buf 8), Success);
   (LUnsubSize l_size None 1, BadParameter); (LUnsubSize l_size l_subs 1, Success);
   (LUnsub l_size l_subs 1 5 5 None, BadParameter); (LUnsub l_size l_subs 1 5 5 (l_buf 6), NoMemory); (LUnsub l_size l_subs 1 5 5 (l_buf 7), Success);
   (LPubSize (l_pub 0), BadParameter); (LPubSize (l_pub 1), Success);
   (LPub l_size (l_pub 1) 0 5 (l_buf 7), BadParameter); (LPub l_size (l_pub 1) 5 5 (l_buf 6), NoMemory); (LPub l_size (l_pub 1) 5 5 (l_buf 7), Success);
   (LPubHeader l_size (l_pub 1) 0 5 (l_buf 7), BadParameter); (LPubHeader l_size (l_pub 1) 5 5 (l_buf 6), NoMemory);
   (LPubHeader l_size (l_pub 1) 5 5 (l_buf 7), Success);
   (LAck (l_buf 4) 64 0, BadParameter); (LAck (l_buf 3) 64 5, NoMemory); (LAck (l_buf 4) 64 5, Success);
   (LDisconnect None, BadParameter); (LDisconnect (l_buf 1), NoMemory); (LDisconnect (l_buf 2), Success);
   (LPingreq None, BadParameter); (LPingreq (l_buf 1), NoMemory); (LPingreq (l_buf 2), Success);
   (LReadPublish l_size (mkPkt 64 0 None), BadParameter); (LReadPublish l_size (mkPkt 48 0 (Some [])), BadResponse);
   (LReadPublish l_size (mkPkt 48 3 (Some [0; 1; 97])), Success);
   (LReadAck (mkPkt 64 2 None), BadParameter); (LReadAck (mkPkt 64 2 (Some [0; 0])), BadResponse);
   (LReadAck (mkPkt 32 2 (Some [0; 5])), ServerRefused); (LReadAck (mkPkt 64 2 (Some [0; 5])), Success);
   (LIncoming (fun w => (1, nth w [208; 0] 0, S w)) 0, Success); (LIncoming (fun w => (-1, 0, S w)) 0, RecvFailed);
   (LIncoming (fun w => (1, 0, S w)) 0, BadResponse); (LIncoming (fun w => (0, 0, S w)) 0, NoDataAvailable);
   (LProcess [208; 0] 2, Success); (LProcess [0] 1, BadResponse); (LProcess [] 0, NoDataAvailable); (LProcess [208] 1, NeedMoreBytes);
   (LDup 64 true, BadParameter); (LDup 50 true, Success);
   (LCodes (mkPkt 64 2 None), BadParameter); (LCodes (mkPkt 144 3 (Some [0; 5; 1])), Success)].
Definition low_check (r : low * status) : bool :=
  match low_status (fst r) with Ok st => status_beq st (snd r) | Ub => false end.
