(** File descriptors while uploads are put together: C198, C199. *)
From Verif Require Import Base LibBase Multipart SpecMulti Overlap Faults Descr SpecDescr ProofDescr ProofDescr2 Demo.

(** C198. "An upload of which every packet was answered with success is handed over." With a limit on the number of
    open files it does not hold: for every limit there is an upload all of whose packets are stored, and which is never
    handed over, however often the last packet is sent again. *)
Theorem C198_refuted : forall lim n, 1 <= lim <= 65535 -> exists m, mpf_ok m /\ mp_sum m = lim /\ forall data, let ps := whole_upload m data ++ repeat (Packet m lim data) n in
  exists f t, fd_run (limited lim 0) empty_fs fresh ps = Ok (f, t, repeat OKept (length ps)).
Proof. exact whole_never. Qed.
Print Assumptions C198_refuted.
(** C199. A packet leaves no file open, and has at most two more open than its upload has parts, whatever call fails ... *)
Theorem C199_closed ops f outs p l o cp f' out t' : Forall mop_ok ops -> mrun empty_fs [] ops = Ok (f, outs) -> arrives p ->
  parts_in_order (ops ++ [MWrite (pk_up p) (pk_seq p) (pk_data p)]) (pk_up p) l -> packet_fd o f p cp fresh = Ok (f', out, t') -> fd_held t' = 0 /\ fd_peak t' <= zlen l + 2.
Proof. exact (most_open ops f outs p l o cp f' out t'). Qed.
Print Assumptions C199_closed.
(** ... and needs that many: the last packet leads to the message if and only if the limit allows for them. *)
Theorem C199_needed lim used ops f outs p l : Forall mop_ok ops -> mrun empty_fs [] ops = Ok (f, outs) -> arrives p -> pk_seq p = mp_sum (pk_up p) ->
  all_written (ops ++ [MWrite (pk_up p) (pk_seq p) (pk_data p)]) (pk_up p) -> parts_in_order (ops ++ [MWrite (pk_up p) (pk_seq p) (pk_data p)]) (pk_up p) l -> 0 <= used ->
  exists f' out t', packet_fd (limited lim used) f p None fresh = Ok (f', out, t') /\ ((exists c, out = OWhole c) <-> used + zlen l + 2 <= lim) /\ (out = OFail <-> lim <= used).
Proof. exact (limit_exact lim used ops f outs p l). Qed.
Print Assumptions C199_needed.
(** Whatever packets come, none of an upload with as many parts as there are free descriptors leads to a message. *)
Theorem C199_never lim used ps : 0 <= used < lim -> Forall arrives ps -> Forall (fun p => lim <= used + mp_sum (pk_up p)) ps ->
  exists f' t', fd_run (limited lim used) empty_fs fresh ps = Ok (f', t', repeat OKept (length ps)).
Proof. exact (never_whole_first lim used ps). Qed.
Print Assumptions C199_never.
(** What happens otherwise is what Faults.v has for some of its faults. *)
Theorem C199_faults o f p cp t : exists x, packet_io f p x = (do (a, t') <- packet_fd o f p cp t ; Ok a).
Proof. exact (faults_packet o f p cp t). Qed.
Print Assumptions C199_faults.
(** An upload of two parts with limits of 4 and 3. *)
Example C199_case : let m := Mpf 1 2049 7 2 in let ops := [MWrite m 1 [1]] in let p := Packet m 2 [2] in
  Forall mop_ok ops /\ arrives p /\ parts_in_order (ops ++ [MWrite m 2 [2]]) m [(1, [1]); (2, [2])] /\ exists f, mrun empty_fs [] ops = Ok (f, []) /\
  (exists f', packet_fd (limited 4 0) f p None fresh = Ok (f', OWhole [1; 2], Fds 0 4 7)) /\ (exists f', packet_fd (limited 3 0) f p None fresh = Ok (f', OKept, Fds 0 3 7)).
Proof.
  cbn zeta. assert (M : mpf_ok (Mpf 1 2049 7 2)) by (unfold mpf_ok, is_u16, is_u32; cbn [mp_icc mp_msgid mp_tag mp_sum]; lia).
  assert (U : is_u16 1 /\ is_u16 2) by (unfold is_u16; lia). destruct U as (U1 & U2). split; [|split; [|split]].
  - apply Forall_cons; [split; auto|apply Forall_nil].
  - split; auto.
  - split; [repeat constructor; cbn [fst]; lia|]. intros s c. unfold written. cbn [fold_left app In]. replace (same_upload (Mpf 1 2049 7 2) (Mpf 1 2049 7 2)) with true by reflexivity. cbn [andb].
    destruct (Z.eqb_spec 2 s) as [<-|N2]; [|destruct (Z.eqb_spec 1 s) as [<-|N1]].
    + split; [intros [E|[E|[]]]; [discriminate|injection E as <-; auto]|]. intros (_ & E). injection E as <-. auto.
    + split; [intros [E|[E|[]]]; [injection E as <-; auto|discriminate]|]. intros (_ & E). injection E as <-. auto.
    + split; [intros [E|[E|[]]]; exfalso; injection E; intros; auto|]. intros (_ & E). discriminate.
  - eexists. split; [vm_compute; reflexivity|]. split; eexists; vm_compute; reflexivity.
Qed.
