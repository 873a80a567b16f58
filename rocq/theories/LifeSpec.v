(** Vocabulary for what MQTT_ProcessLoop notices of a server that is gone. *)
From Verif Require Import Base StateModel SerModel CoreModel CoreHarness.
From Coq Require Import Sorting.Sorted.

(** the clock at the start of each call of MQTT_ProcessLoop among the calls [l] *)
Fixpoint pass_times (G : cfg) (l : list call) (s : st) : list Z :=
  match l with
  | [] => []
  | c :: l' =>
      match run_call G c s with
      | Ret _ s' _ => match c with CProcess => [hd 0 (e_times (s_env s))] | _ => [] end ++ pass_times G l' s'
      | _ => []
      end
  end.
(** what these calls answered *)
Fixpoint pass_results (l : list call) (rs : list status) : list status :=
  match l, rs with
  | c :: l', r :: rs' => match c with CProcess => [r] | _ => [] end ++ pass_results l' rs'
  | _, _ => []
  end.
(** at most [D] from [a] to the first of [l], and from each to the next *)
Fixpoint spaced (D a : Z) (l : list Z) : Prop :=
  match l with [] => True | x :: l' => x - a <= D /\ spaced D x l' end.
(** neither MQTT_Ping nor MQTT_Connect *)
Definition leaves_ping (c : call) : bool := match c with COp OPing | CConnect _ _ _ => false | _ => true end.
(** the answers of a pass that tell of a lost connection *)
Definition alarm (r : status) : Prop := In r [KeepAliveTimeout; SendFailed; RecvFailed; StNotConnected; StDisconnectPending].
(** a PINGRESP is handled by one of the calls of MQTT_ProcessLoop among [l] *)
Fixpoint pingresp_handled (G : cfg) (l : list call) (s : st) : Prop :=
  match l with
  | [] => False
  | c :: l' => match run_call G c s with Ret _ s' t => c = CProcess /\ In (EPkt 208 []) t \/ pingresp_handled G l' s' | _ => False end
  end.
