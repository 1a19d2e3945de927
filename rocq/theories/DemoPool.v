(** Histories of senders used by the examples and refutations about shared bodies. *)
From Verif Require Import Base Env EntTerm EntPlat Registry Message Pool Demo DemoServer.

(** An acknowledgement, and another *)
Definition ack_a : entity := E8001 (T8001 7 512 0).
Definition ack_b : entity := E8001 (T8001 8 512 3).
(** An upload of three bytes *)
Definition media_a : entity := E0801 (T0801 (T0800 5 0 0 0 0) some_loc (Some (Rdr [1; 2; 3] false))).
(** The caller assigns to the body between Send and the moment the send loop takes it. *)
Definition ops_assigned : list pool_op := [BAccept; BIcc 0 13800138000; BNew ack_a; BMake 0 0 0; BPut 0; BAssign 0 ack_b; BWrite 0 0 None ack_a].
(** Broadcast to two sessions *)
Definition ops_broadcast (e : entity) : list pool_op :=
  [BAccept; BAccept; BIcc 0 13800138000; BIcc 1 13800138001; BNew e; BMake 0 0 0; BPut 0; BMake 0 1 0; BPut 0; BWrite 0 0 None e; BWrite 1 0 None e].
(** Two goroutines send on one session, the second passes the first between making the message and giving it to link. *)
Definition ops_passed : list pool_op :=
  [BAccept; BIcc 0 13800138000; BNew ack_a; BNew ack_b; BMake 0 0 0; BMake 1 0 1; BPut 1; BPut 0; BWrite 0 0 None ack_a; BWrite 0 0 None ack_a].
(** One after the other *)
Definition ops_in_turn : list pool_op :=
  [BAccept; BIcc 0 13800138000; BNew ack_a; BNew ack_b; BMake 0 0 0; BPut 0; BWrite 0 0 None ack_a; BMake 1 0 1; BPut 1; BMake 0 0 0; BPut 0; BWrite 0 0 None ack_a; BWrite 0 0 None ack_a].
(** What a history did *)
Definition did (ops : list pool_op) : list pool_event := match pool_run demo_env pool_init ops with Ok (_, evs) => evs | _ => [] end.
Definition state_of (ops : list pool_op) : pool := match pool_run demo_env pool_init ops with Ok (pl, _) => pl | _ => pool_init end.
Definition bytes_at (k : nat) (evs : list pool_event) : bytes := match nth_error evs k with Some (VWire _ _ _ d) => d | _ => [] end.
Definition hdr_a (icc : Z) (typ n : Z) : header := Header typ 0 icc n None.
