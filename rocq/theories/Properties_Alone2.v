(** What a terminal notices of the others, its goroutines and theirs interleaved in any way: C185. *)
From Verif Require Import Base LibBase Bits Env EntTerm EntPlat Registry Message Codec Timer Session Multipart Server Host Overlap Fine World.
From Verif Require Import SpecMsg SpecStream SpecMulti SpecServer SpecFine SpecOverlap SpecHost SpecWorld SpecAlone2.
From Verif Require Import ProofAlone6 Demo DemoServer DemoHost DemoWorld.

(** C185. Goroutine by goroutine, whatever the others do: what a connection notices can be
    noticed when no other terminal ever connects, unless it shares an upload with another ... *)
Theorem C185_as_if_alone env key merging ka f id evs : occurs env key merging ka f evs -> own_uploads merging id evs ->
  exists evs', occurs_alone env key merging ka f id evs' /\ life id evs' = life id evs.
Proof. exact (as_if_alone env key merging ka f id evs). Qed.
Print Assumptions C185_as_if_alone.
(** ... and the histories without others are among all the others: a terminal cannot tell whether others exist. *)
Theorem C185_cannot_tell env key merging ka f id l :
  (exists evs, occurs env key merging ka f evs /\ own_uploads merging id evs /\ life id evs = l) <-> (exists evs, occurs_alone env key merging ka f id evs /\ life id evs = l).
Proof.
  exact (cannot_tell env key merging ka f id l).
Qed.
Print Assumptions C185_cannot_tell.
(** Without merging there is nothing to share. *)
Theorem C185_no_merging env key ka f id evs : occurs env key false ka f evs -> exists evs', occurs_alone env key false ka f id evs' /\ life id evs' = life id evs.
Proof. exact (alone_no_merging env key ka f id evs). Qed.
Print Assumptions C185_no_merging.
Example C185_case : occurs demo_env None true 60 empty_fs the_events /\ own_uploads true 1 the_events /\ own_uploads true 2 the_events /\
  length the_events = 65%nat /\ length (life 1 the_events) = 38%nat /\ length (life 2 the_events) = 29%nat /\
  existsb (fun ev => match ev with WFine (XMerged _ _) => true | _ => false end) (life 1 the_events) = true.
Proof.
  split; [exact events_occur|]. split; [intros i p q N; apply events_separate; congruence|]. split; [intros i p q N; apply events_separate; congruence|]. vm_compute. auto.
Qed.
