(** Entries visited while uploads are looked for: C202, C203. *)
From Verif Require Import Base LibBase Multipart Walk Overlap SpecMulti SpecOverlap SpecStock SpecWalk ProofWalk.

(** C202. "The entries of the file system that are visited for n packets are at most some number for each packet." They are not: n uploads of one
    packet each take 2 n (n + 1). *)
Theorem C202_refuted n : 0 <= n <= 2 ^ 32 -> exists ps f, Forall packet_fits ps /\ zlen ps = n /\
  Forall (fun p => let '(m, s, d) := p in mp_sum m = 1 /\ s = 1 /\ zlen d = 1) ps /\
  at_rest (calls_from [] ps) /\ packets_n empty_fs ps = Ok (2 * n * (n + 1), f).
Proof. exact (singles_cost n). Qed.
Print Assumptions C202_refuted.
(** C203. A walk visits the directory of the terminal, every part ever written for it and every upload ever merged; there is one
    walk for the last packet of an upload, and a second one if all packets are there. *)
Theorem C203_exact ps : Forall packet_fits ps -> exists f outs,
  packets_n empty_fs ps = Ok (cost_from [] ps, f) /\ mrun empty_fs [] (calls_from [] ps) = Ok (f, outs).
Proof. exact (packets_cost ps). Qed.
Print Assumptions C203_exact.
Theorem C203_full ops f outs m : Forall mop_ok ops -> mpf_ok m -> touched ops (mp_icc m) -> mrun empty_fs [] ops = Ok (f, outs) ->
  is_full_n f m = Ok (held ops (mp_icc m), complete_now ops m).
Proof. exact (full_walks ops f outs m). Qed.
Print Assumptions C203_full.
Theorem C203_merge ops f outs m : Forall mop_ok ops -> mpf_ok m -> touched ops (mp_icc m) -> mrun empty_fs [] ops = Ok (f, outs) ->
  exists c f', merge_n f m = Ok (held ops (mp_icc m), c, f') /\ mp_merge f m = Ok (c, f').
Proof. exact (merge_walks ops f outs m). Qed.
Print Assumptions C203_merge.
(** n packets never take more than 2 n (n + 1), whatever they are. *)
Theorem C203_most ps n f : Forall packet_fits ps -> packets_n empty_fs ps = Ok (n, f) -> n <= 2 * zlen ps * (zlen ps + 1).
Proof. exact (packets_most ps n f). Qed.
Print Assumptions C203_most.
(** Without the counter these are IsFull and Merge, and the packets are handled as in C102. *)
Theorem C203_counter f m : (do (_, b) <- is_full_n f m ; Ok b) = is_full f m /\ (do (_, c, f') <- merge_n f m ; Ok (c, f')) = mp_merge f m.
Proof. split; [exact (full_erase f m)|exact (merge_erase f m)]. Qed.
Print Assumptions C203_counter.
Theorem C203_handled ps f n f' : packets_n f ps = Ok (n, f') ->
  exists os, in_turn f (map (fun p => Packet (fst (fst p)) (snd (fst p)) (snd p)) ps) f' os.
Proof. exact (packets_turn ps f n f'). Qed.
Print Assumptions C203_handled.
(** Two packets of an upload, the last of them twice, and one of another terminal that comes alone: five walks *)
Example C203_case : let m := Mpf 1 2049 5 2 in let ps := [(m, 1, [1]); (m, 2, [4; 5]); (Mpf 2 2049 5 3, 3, [6]); (m, 2, [7])] in
  Forall packet_fits ps /\ cost_from [] ps = (3 + 3) + 2 + (4 + 4) /\ (exists f, packets_n empty_fs ps = Ok (16, f)) /\
  calls_from [] ps = [MWrite m 1 [1]; MWrite m 2 [4; 5]; MMerge m; MWrite (Mpf 2 2049 5 3) 3 [6]; MWrite m 2 [7]; MMerge m].
Proof.
  cbn zeta. split.
  - assert (M : mpf_ok (Mpf 1 2049 5 2) /\ mpf_ok (Mpf 2 2049 5 3)) by (unfold mpf_ok, is_u16, is_u32; cbn [mp_icc mp_msgid mp_tag mp_sum]; lia). destruct M as (M1 & M2).
    assert (U : is_u16 1 /\ is_u16 2 /\ is_u16 3) by (unfold is_u16; lia). destruct U as (U1 & U2 & U3). repeat (apply Forall_cons; [split; assumption|]). apply Forall_nil.
  - split; [vm_compute; reflexivity|]. split; [eexists; vm_compute; reflexivity|]. vm_compute. reflexivity.
Qed.
