(** How the two models of the server are related: every history of whole messages, ticks and broadcasts
    (Server.v) is one of goroutines (Fine.v) with the same things to be seen, in the same order. *)
From Verif Require Import Base Env EntTerm EntPlat Registry Message Timer Session Multipart Server Fine.
From Verif Require Import SpecSession SpecMulti SpecTimer SpecServer SpecFine SpecSim ProofSim5 DemoServer DemoSim.

(** C154. What a history of whole operations shows, the goroutines can show, where every session is accepted once, registers its close callback once and then receives. *)
Theorem C154_refines o prior ops tr : runs o prior ops tr -> orderly ops ->
  exists evs name, happens (opt_auto o) (keepalive o) evs /\ flat_map (sight_of name) evs = sights tr.
Proof. exact (simulated_by_goroutines o prior ops tr). Qed.
Print Assumptions C154_refines.
(** The goroutines can show more. *)
Theorem C154_more : exists evs, happens false 60 evs /\ forall o prior ops tr name, runs o prior ops tr -> sights tr <> flat_map (sight_of name) evs.
Proof. exact goroutines_do_more. Qed.
Print Assumptions C154_more.
Example C154_case : runs (opts false) [] traffic (trace_of false traffic) /\ orderly traffic /\ length (sights (trace_of false traffic)) = 29%nat.
Proof. split; [apply trace_runs, traffic_ok|]. split; [exact traffic_orderly|vm_compute; reflexivity]. Qed.
