(** Work done to find frames: C194, C195. *)
From Verif Require Import Base LibBase Env Registry Message Codec Cost SpecStream SpecCost ProofCost DemoCost Demo.

(** C194. "Looking for delimiters takes a number of comparisons proportional to the bytes received." With a factor below
    32768 it does not hold: a frame that arrives byte by byte is searched from its start after each of them. *)
Theorem C194_refuted : forall env priv k, k < 32768 -> exists evs, events_ok evs /\ k * zlen (arrived evs) < snd (receive_all_c 1 env priv [] evs 0).
Proof. exact no_factor. Qed.
Print Assumptions C194_refuted.
(** C195. A frame of n bytes that arrives byte by byte takes n (n + 1) / 2 comparisons until it is complete ... *)
Theorem C195_worst env priv n : 1 <= n <= 65535 -> let evs := map (fun x => RData [x]) (126 :: repeat 0 (Z.to_nat (n - 1))) in
  reads_of evs = n /\ zlen (arrived evs) = n /\ snd (receive_all_c 1 env priv [] evs 0) = n * (n + 1) / 2.
Proof. exact (byte_by_byte env priv n). Qed.
Print Assumptions C195_worst.
(** ... and if there are never f bytes in a row without a delimiter, each byte is looked at once, and besides f bytes
    at most twice per read. *)
Theorem C195_bound env priv f fuel buf evs n ms r n' : 0 < f -> delimited f (buf ++ arrived evs) -> receive_all_c fuel env priv buf evs n = (ms, r, n') ->
  n' <= n + zlen (buf ++ arrived evs) + (2 * reads_of evs + 1) * f + 1.
Proof. exact (fun F => session_cost env priv f fuel F buf evs n ms r n'). Qed.
Print Assumptions C195_bound.
(** The functions that count receive what the functions that do not count receive. *)
Theorem C195_same env priv fuel buf evs n : fst (receive_all_c fuel env priv buf evs n) = receive_all fuel env priv buf evs.
Proof. exact (all_same env priv fuel buf evs n). Qed.
Print Assumptions C195_same.
(** Two heartbeats of 15 bytes in three reads: 30 bytes, 40 comparisons. *)
Example C195_case : events_ok beats /\ delimited 14 ([] ++ arrived beats) /\ reads_of beats = 3 /\ zlen (arrived beats) = 30 /\
  exists m, receive_all_c 3 demo_env None [] beats 0 = ([m; m], Waiting, 40).
Proof. exact beats_case. Qed.
