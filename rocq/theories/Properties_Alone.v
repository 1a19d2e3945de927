(** What a terminal notices of the others: C173, C174. *)
From Verif Require Import Base LibBase Bits Env EntTerm EntPlat Registry Message Codec Timer Session Multipart Server Host.
From Verif Require Import SpecGeo SpecEntity SpecMsg SpecStream SpecSession SpecMulti SpecTimer SpecServer SpecHost SpecAlone.
From Verif Require Import Demo DemoServer DemoHost ProofAlone4 DemoAlone.

(** C173. A terminal can disturb another one: with merging, a packet that it sends
    under the other's number completes the other's upload. *)
Theorem C173_isolated_refuted : exists env key o prior ops h tr h' tr' id, hruns env key o prior ops h tr /\ hruns env key o prior (alone id ops) h' tr' /\ experience id tr' <> experience id tr.
Proof. exact mixed_disturbed. Qed.
Print Assumptions C173_isolated_refuted.

(** C174. Otherwise not: what happens on a connection (messages taken from it, answers,
    handlers, refreshes of its timer, closing, bytes written) is what would happen
    if no other terminal had ever connected ... *)
Theorem C174_alone env key o prior ops h tr id : hruns env key o prior ops h tr -> (opt_auto o = true -> different_numbers id tr) ->
  exists h' tr', hruns env key o prior (alone id ops) h' tr' /\ experience id tr' = experience id tr.
Proof. exact (alone_same env key o prior ops h tr id). Qed.
Print Assumptions C174_alone.
(** ... so that it is the same whatever the others do. *)
Theorem C174_undisturbed env key o prior ops1 h1 tr1 ops2 h2 tr2 id : hruns env key o prior ops1 h1 tr1 -> hruns env key o prior ops2 h2 tr2 ->
  (opt_auto o = true -> different_numbers id tr1 /\ different_numbers id tr2) -> alone id ops1 = alone id ops2 -> experience id tr1 = experience id tr2.
Proof. exact (undisturbed env key o prior ops1 h1 tr1 ops2 h2 tr2 id). Qed.
Print Assumptions C174_undisturbed.
Example C174_case : hruns demo_env None (opts true) [] together (hfinal_mg together) (htrace_mg together) /\ different_numbers 1 (htrace_mg together) /\
  length together = 77%nat /\ length (alone 1 together) = 40%nat /\ length (experience 1 (htrace_mg together)) = 13%nat.
Proof. split; [exact together_runs|]. split; [exact together_apart|]. vm_compute. auto. Qed.
