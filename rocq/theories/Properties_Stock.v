(** What uploads leave in the file system: C196, C197. *)
From Verif Require Import Base LibBase Multipart SpecMulti SpecStock ProofStock ProofMulti2.

(** C196. "When every upload has been merged and handed over, no file is left." It does not hold: n uploads of one part
    each leave 2 n files. *)
Theorem C196_refuted : forall n, 0 <= n <= 2 ^ 32 -> exists ops f outs, Forall mop_ok ops /\ mrun empty_fs [] ops = Ok (f, outs) /\ at_rest ops /\
  zlen (part_keys ops) = n /\ files f = 2 * n.
Proof. exact never_empty. Qed.
Print Assumptions C196_refuted.
(** C197. There is one file for every part ever written and one for every upload ever merged ... *)
Theorem C197_files ops f outs : Forall mop_ok ops -> mrun empty_fs [] ops = Ok (f, outs) ->
  files f = zlen (nodup part_dec (part_keys ops)) + zlen (nodup full_dec (full_keys ops)).
Proof. exact (stock_files ops f outs). Qed.
Print Assumptions C197_files.
(** ... with the data last written and the content last merged ... *)
Theorem C197_bytes ops f outs : Forall mop_ok ops -> mrun empty_fs [] ops = Ok (f, outs) ->
  volume f = total (map (part_size ops) (nodup part_dec (part_keys ops))) + total (map (full_size outs) (nodup full_dec (full_keys ops))).
Proof. exact (stock_volume ops f outs). Qed.
Print Assumptions C197_bytes.
(** ... and a file that is there stays. *)
Theorem C197_kept ops xs f outs f' outs' dn n : Forall mop_ok ops -> Forall mop_ok xs -> mrun empty_fs [] ops = Ok (f, outs) -> mrun f outs xs = Ok (f', outs') ->
  there f dn n -> there f' dn n.
Proof. exact (stock_kept ops xs f outs f' outs' dn n). Qed.
Print Assumptions C197_kept.
(** Two parts, one of them sent twice, merged twice: three files with 3 + 2 + 5 bytes. *)
Example C197_case : let m := Mpf 1 2049 5 2 in let ops := [MWrite m 1 [1]; MWrite m 2 [4; 5]; MWrite m 1 [1; 2; 3]; MMerge m; MMerge m] in
  Forall mop_ok ops /\ exists f outs, mrun empty_fs [] ops = Ok (f, outs) /\ files f = 3 /\ volume f = 10 /\
  zlen (nodup part_dec (part_keys ops)) = 2 /\ zlen (nodup full_dec (full_keys ops)) = 1 /\ there f (root_dir m) (full_name m).
Proof.
  cbn zeta. assert (M : mpf_ok (Mpf 1 2049 5 2)) by (unfold mpf_ok, is_u16, is_u32; cbn [mp_icc mp_msgid mp_tag mp_sum]; lia). split.
  - assert (U : is_u16 1 /\ is_u16 2) by (unfold is_u16; lia). destruct U. repeat (apply Forall_cons; [cbn [mop_ok]; auto|]). apply Forall_nil.
  - do 2 eexists. split; [vm_compute; reflexivity|]. split; [vm_compute; reflexivity|]. split; [vm_compute; reflexivity|]. split; [vm_compute; reflexivity|]. split; [vm_compute; reflexivity|].
    do 2 eexists. split; [left; vm_compute; reflexivity|]. right. right. left. vm_compute. reflexivity.
Qed.
