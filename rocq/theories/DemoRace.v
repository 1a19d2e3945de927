(** Bodies and schedules used by the examples and refutations about simultaneous encodings. *)
From Verif Require Import Base Decimal Env EntTerm EntPlat Registry Race SpecRace ProofRace4 Demo.

(** Buenos Aires (southern and western) and Cape Town (southern and eastern) *)
Definition v_sw : vertex := Vertex (Dec (-34603722) (-6)) (Dec (-58381592) (-6)).
Definition v_se : vertex := Vertex (Dec (-33924869) (-6)) (Dec 18424055 (-6)).
Definition polygon (attr : Z) (vs : list vertex) : entity := E8604 (T8604 9 attr limits_zero vs).
(** The second send loop loads, the first marks both, the second stores, the first loads for its output. *)
Definition sch_lost : list nat := [1; 0; 0; 0; 0; 1; 0; 0]%nat.
(** As before, but the first loads for its third mark before the second goes to its end, and stores after it. *)
Definition sch_kept : list nat := [1; 0; 0; 0; 0; 1; 0; 1; 1; 1; 1; 1; 1; 0; 0; 0]%nat.
(** Two taking turns *)
Definition sch_turns : list nat := [0; 1; 0; 1; 0; 1; 0; 1; 0; 1; 0; 1; 0; 1]%nat.
(** What an encoder has returned *)
Definition got (env : Env) (e : entity) (n : nat) (sch : list nat) (i : nat) : option (res bytes) :=
  returned env e (rrun (rstart e n) sch) i.

Lemma lost_unsettled : ~ settled (polygon 0 [v_sw]).
Proof.
  intros H. apply Forall_inv in H. specialize (H 7). cbn in H. destruct H as [H|H]; try discriminate. right; left; reflexivity.
Qed.
Lemma lost_refuted : exists e, ~ reads_dry e /\ forall env, exists sch r,
  returned env e (rrun (rstart e 2) sch) 0 = Some r /\ r <> encode env e.
Proof.
  exists (polygon 0 [v_sw]). split; [intros [x H]; discriminate|]. intros env.
  destruct (race_differs env _ lost_unsettled) as (sch & r0 & r1 & A & _ & B). eauto.
Qed.
Lemma kept_refuted : exists e sch, ~ reads_dry e /\ let s := rrun (rstart e 2) sch in
  all_returned s /\ stored e (rc_mem s) <> encoded e.
Proof.
  exists (polygon 0 [v_sw; v_se]), sch_kept. split; [intros [x H]; discriminate|].
  cbv zeta. split; [repeat constructor|]. vm_compute. discriminate.
Qed.
