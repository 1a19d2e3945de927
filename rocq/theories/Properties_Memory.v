(** Bytes in memory: C180. *)
From Verif Require Import Base Bits Env EntTerm EntPlat Registry Message Codec Memory SpecMemory ProofMemory4 Demo DemoMemory.

(** C180. Over memory Receive gives what it gives with bytes as values, whatever the holders of earlier messages store in them, ... *)
Theorem C180_values env key ops : reads_fit ops -> snd (mrun env key minit ops) = vrun env key [] ops.
Proof. exact (by_value env key ops). Qed.
Print Assumptions C180_values.
(** ... a message comes with the slice its body was decoded from, ... *)
Theorem C180_fresh env key ops evs s1 e1 s2 x : reads_fit (ops ++ [MReceive evs]) -> mrun env key minit ops = (s1, e1) -> mstep env key s1 (MReceive evs) = (s2, [GotMsg x]) ->
  exists v, mc_got s2 = mc_got s1 ++ [(x, v)] /\ forall e, m_body x = BEnt e -> exists n, decode env (h_id (m_hdr x)) (view (mc_mem s2) v) = Ok (e, n).
Proof. exact (handed_over env key ops evs s1 e1 s2 x). Qed.
Print Assumptions C180_fresh.
(** ... and that slice is changed by nobody else: neither by later calls of Receive nor through another message. *)
Theorem C180_stable env key ops1 ops2 s1 e1 s2 e2 j x v : reads_fit (ops1 ++ ops2) -> mrun env key minit ops1 = (s1, e1) -> mrun env key s1 ops2 = (s2, e2) -> nth_error (mc_got s1) j = Some (x, v) ->
  nth_error (mc_got s2) j = Some (x, v) /\ view (mc_mem s2) v = overwritten j ops2 (view (mc_mem s1) v).
Proof. exact (undisturbed_bytes env key ops1 ops2 s1 e1 s2 e2 j x v). Qed.
Print Assumptions C180_stable.
Example C180_case : reads_fit pieces /\ snd (mrun demo_env None minit pieces) = repeat (GotMsg answered) 5 ++ [GotErr ErrEOF] /\
  in_hand = [[0; 125; 77; 0; 0]; [3; 125; 2; 0; 0]; [0; 125; 2; 0; 0]; [0; 125; 2; 0; 0]; [0; 125; 2; 0; 0]].
Proof. exact (conj pieces_fit (conj pieces_out in_hand_out)). Qed.
