(** Histories in which something else than what was sent is written. *)
From Verif Require Import Base LibBase Env Registry EntTerm EntPlat Message Session SpecSession Pool SpecPool ProofPool Demo DemoServer DemoPool.

Lemma frame_one env h e rnd d d' m' : msg_encode env None rnd (Message h (BEnt e)) = Ok (d', m') -> frame_of env h e rnd d -> d = d'.
Proof. intros E (m2 & F). rewrite E in F. injection F as -> _. reflexivity. Qed.
Lemma assigned_refuted : exists env ops pl evs a g s h p e b rnd d c raw, pool_runs env ops pl evs /\
  evs = a ++ VMake g s h p e :: b ++ VWire s rnd (Post h p) d :: c /\ encode env e = Ok raw /\ ~ uses_up e /\ times_sent p evs = 1%nat /\ ~ frame_of env h e rnd d.
Proof.
  exists demo_env, ops_assigned, (state_of ops_assigned), (did ops_assigned), [VNew 0 ack_a], 0%nat, 0%nat, (hdr_a 13800138000 32769 1), 0%nat, ack_a,
    [VPut 0 0 (Post (hdr_a 13800138000 32769 1) 0); VAssign 0 ack_b], 0, (bytes_at 4 (did ops_assigned)), [], [0; 7; 2; 0; 0].
  split; [vm_compute; reflexivity|]. split; [vm_compute; reflexivity|]. split; [vm_compute; reflexivity|]. split; [intros (x & X); discriminate|]. split; [vm_compute; reflexivity|].
  intros F. eapply frame_one in F; [|vm_compute; reflexivity]. vm_compute in F. discriminate.
Qed.
Lemma broadcast_refuted : exists env ops pl evs a g s h p e b rnd d c raw, pool_runs env ops pl evs /\
  evs = a ++ VMake g s h p e :: b ++ VWire s rnd (Post h p) d :: c /\ encode env e = Ok raw /\ untouched_in p evs /\ ~ frame_of env h e rnd d.
Proof.
  exists demo_env, (ops_broadcast media_a), (state_of (ops_broadcast media_a)), (did (ops_broadcast media_a)), (firstn 3 (did (ops_broadcast media_a))), 0%nat, 1%nat,
    (hdr_a 13800138001 2049 1), 0%nat, media_a, (firstn 2 (skipn 4 (did (ops_broadcast media_a)))), 0, (bytes_at 6 (did (ops_broadcast media_a))), [].
  eexists. split; [vm_compute; reflexivity|]. split; [vm_compute; reflexivity|]. split; [vm_compute; reflexivity|]. split.
  - intros e X. vm_compute in X. repeat destruct X as [X|X]; try discriminate. exact X.
  - intros F. eapply frame_one in F; [|vm_compute; reflexivity]. vm_compute in F. discriminate.
Qed.
Lemma passed_refuted : exists env ops pl evs s a m1 d1 b m2 d2 c, pool_runs env ops pl evs /\
  evs = a ++ VWire s 0 m1 d1 :: b ++ VWire s 0 m2 d2 :: c /\ dealt s evs = [m1; m2] /\ h_serial (po_hdr m1) = serial 1 /\ h_serial (po_hdr m2) = serial 0.
Proof.
  exists demo_env, ops_passed, (state_of ops_passed), (did ops_passed), 0%nat, (firstn 6 (did ops_passed)), (Post (hdr_a 13800138000 32769 2) 1), (bytes_at 6 (did ops_passed)), [],
    (Post (hdr_a 13800138000 32769 1) 0), (bytes_at 7 (did ops_passed)), [].
  split; [vm_compute; reflexivity|]. split; [vm_compute; reflexivity|]. split; vm_compute; auto.
Qed.
