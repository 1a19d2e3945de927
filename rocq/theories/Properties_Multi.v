(** Properties of multipart files (multipart.go).  A history is any sequence of
    Write and Merge calls for any terminals, messages and tags on an initially
    empty directory tree, by a process that may enter the directories it makes. *)
From Coq Require Import Sorted Permutation.
From Verif Require Import Base Multipart SpecMulti ProofMulti2 ProofMulti3.

(** A demonstration: two uploads of one terminal and one of another, parts out of order and repeated. *)
Definition up_a : mpf := Mpf 13800000000 0x0801 7 3.
Definition up_b : mpf := Mpf 13800000000 0x0801 77 1.
Definition up_c : mpf := Mpf 138 0x0801 7 3.
Definition demo : list mop :=
  [MWrite up_a 3 [5; 6]; MWrite up_b 1 [9]; MWrite up_a 1 [8]; MWrite up_c 2 [7]; MMerge up_b; MWrite up_a 2 [3; 4]; MWrite up_a 1 [1; 2]].
Lemma demo_ok : Forall mop_ok demo.
Proof. repeat constructor; vm_compute; congruence. Qed.
Lemma up_a_ok : mpf_ok up_a.
Proof. repeat constructor; vm_compute; congruence. Qed.
Lemma up_c_ok : mpf_ok up_c.
Proof. repeat constructor; vm_compute; congruence. Qed.

(** C40. IsFull is true exactly when every part 1..Sum has been written. *)
Theorem C40_full ops f outs m : Forall mop_ok ops -> mpf_ok m -> 1 <= mp_sum m -> mrun empty_fs [] ops = Ok (f, outs) ->
  is_full f m = Ok true <-> all_written ops m.
Proof. exact (full_iff ops f outs m). Qed.
Print Assumptions C40_full.
Theorem C40_answers ops f outs m : Forall mop_ok ops -> mpf_ok m -> touched ops (mp_icc m) -> mrun empty_fs [] ops = Ok (f, outs) ->
  exists b, is_full f m = Ok b /\ (b = true <-> all_written ops m).
Proof. exact (full_answers ops f outs m). Qed.
Print Assumptions C40_answers.
Example C40_case : exists f outs, mrun empty_fs [] demo = Ok (f, outs) /\ is_full f up_a = Ok true /\ is_full f up_c = Ok false /\ touched demo (mp_icc up_c).
Proof.
  do 2 eexists. split; [vm_compute; reflexivity|]. split; [vm_compute; reflexivity|]. split; [vm_compute; reflexivity|].
  exists up_c, 2, [7]. split; [cbn; tauto|reflexivity].
Qed.

(** C41. Merge yields part 1, ..., part Sum in order if exactly those parts have
    been written and no earlier merge of the same upload left a longer file. *)
Theorem C41_merge_partial ops f outs m : Forall mop_ok ops -> mpf_ok m -> 1 <= mp_sum m -> exactly_written ops m -> mrun empty_fs [] ops = Ok (f, outs) ->
  (forall c, last_merge outs m = Some c -> (length c <= length (concat (map (data_of ops m) (upto (mp_sum m)))))%nat) ->
  exists f', mp_merge f m = Ok (concat (map (data_of ops m) (upto (mp_sum m))), f').
Proof. exact (merge_complete ops f outs m). Qed.
Print Assumptions C41_merge_partial.
Example C41_case : exists f outs f', mrun empty_fs [] demo = Ok (f, outs) /\ last_merge outs up_a = None /\ mp_merge f up_a = Ok ([1; 2; 3; 4; 5; 6], f').
Proof. do 3 eexists. split; [vm_compute; reflexivity|]. split; [vm_compute; reflexivity|vm_compute; reflexivity]. Qed.
(** It does not hold otherwise: the tail of an earlier, longer merge stays ... *)
Theorem C41_stale_tail_refuted : exists ops f outs m f', Forall mop_ok ops /\ mpf_ok m /\ mrun empty_fs [] ops = Ok (f, outs) /\ exactly_written ops m /\
  data_of ops m 1 = [4] /\ mp_sum m = 1 /\ mp_merge f m = Ok ([4; 2; 3], f').
Proof. exact stale_tail. Qed.
Print Assumptions C41_stale_tail_refuted.
(** ... and left-over parts beyond Sum are included. *)
Theorem C41_extra_parts_refuted : exists ops f outs m f', Forall mop_ok ops /\ mpf_ok m /\ mrun empty_fs [] ops = Ok (f, outs) /\ all_written ops m /\ outs = [] /\
  data_of ops m 1 = [1] /\ mp_sum m = 1 /\ mp_merge f m = Ok ([1; 2], f').
Proof. exact extra_parts. Qed.
Print Assumptions C41_extra_parts_refuted.

(** C42. Calls for other uploads do not change what IsFull and Merge report. *)
Theorem C42_no_interference ops xs f outs f' outs' m : Forall mop_ok (ops ++ xs) -> mpf_ok m -> Forall (foreign m) xs ->
  mrun empty_fs [] ops = Ok (f, outs) -> mrun f outs xs = Ok (f', outs') ->
  (forall b, is_full f m = Ok b -> is_full f' m = Ok b) /\ (forall c g, mp_merge f m = Ok (c, g) -> exists g', mp_merge f' m = Ok (c, g')).
Proof. exact (foreign_keeps ops xs f outs f' outs' m). Qed.
Print Assumptions C42_no_interference.
(** Calls for other terminals do not even change whether they report. *)
Theorem C42_other_terminals ops xs f outs f' outs' m : Forall mop_ok (ops ++ xs) -> mpf_ok m ->
  Forall (fun o => match o with MWrite m' _ _ => mp_icc m' <> mp_icc m | MMerge m' => mp_icc m' <> mp_icc m end) xs ->
  mrun empty_fs [] ops = Ok (f, outs) -> mrun f outs xs = Ok (f', outs') ->
  is_full f' m = is_full f m /\ (do (c, _) <- mp_merge f' m ; Ok c) = (do (c, _) <- mp_merge f m ; Ok c).
Proof. exact (foreign_term ops xs f outs f' outs' m). Qed.
Print Assumptions C42_other_terminals.
Example C42_case : Forall (foreign up_a) [MWrite up_b 3 [1]; MWrite up_c 1 [2]; MMerge up_b; MMerge up_c] /\
  exists f outs f' outs', mrun empty_fs [] demo = Ok (f, outs) /\ mrun f outs [MWrite up_b 3 [1]; MWrite up_c 1 [2]; MMerge up_b; MMerge up_c] = Ok (f', outs') /\
    is_full f' up_a = Ok true.
Proof. split; [repeat first [apply Forall_nil | apply Forall_cons; [vm_compute; reflexivity|]]|]. do 4 eexists. split; [vm_compute; reflexivity|]. split; [vm_compute; reflexivity|vm_compute; reflexivity]. Qed.

(** C44. The queries are not total: they panic when nothing has been written for the terminal. *)
Theorem C44_total_refuted : exists m, mpf_ok m /\ is_full empty_fs m = Panic /\ mp_merge empty_fs m = Panic.
Proof. exact untouched_panics. Qed.
Print Assumptions C44_total_refuted.
(** C81. They panic in exactly that case. *)
Theorem C81_panic_iff ops f outs m : Forall mop_ok ops -> mpf_ok m -> mrun empty_fs [] ops = Ok (f, outs) ->
  (is_full f m = Panic <-> ~ touched ops (mp_icc m)) /\ (mp_merge f m = Panic <-> ~ touched ops (mp_icc m)).
Proof. exact (query_total ops f outs m). Qed.
Print Assumptions C81_panic_iff.
Theorem C81_history ops : Forall mop_ok ops -> (exists f outs, mrun empty_fs [] ops = Ok (f, outs)) <-> merges_after_writes ops.
Proof. exact (run_total ops). Qed.
Print Assumptions C81_history.
Example C81_case : exists f outs, mrun empty_fs [] demo = Ok (f, outs) /\ is_full f (Mpf 5 0x0801 7 3) = Panic.
Proof. do 2 eexists. split; [vm_compute; reflexivity|vm_compute; reflexivity]. Qed.

(** C82. What Merge yields in general: all parts written for the upload, in the
    order of their numbers, laid over what the previous merge of it yielded. *)
Theorem C82_merge ops f outs m : Forall mop_ok ops -> mpf_ok m -> touched ops (mp_icc m) -> mrun empty_fs [] ops = Ok (f, outs) ->
  exists l f', parts_in_order ops m l /\ mp_merge f m = Ok (over (concat (map snd l)) (match last_merge outs m with Some c => c | None => [] end), f').
Proof. exact (merge_exact ops f outs m). Qed.
Print Assumptions C82_merge.
(** [parts_in_order] determines the list. *)
Theorem C82_unique ops m l l' : parts_in_order ops m l -> parts_in_order ops m l' -> l = l'.
Proof. exact (parts_unique ops m l l'). Qed.
Print Assumptions C82_unique.
(** The same without files or results: [merged] tells the content from the calls alone, and determines it. *)
Theorem C82_calls ops f outs m : Forall mop_ok ops -> mpf_ok m -> touched ops (mp_icc m) -> mrun empty_fs [] ops = Ok (f, outs) ->
  exists c f', mp_merge f m = Ok (c, f') /\ merged ops m c.
Proof. exact (merge_merged ops f outs m). Qed.
Print Assumptions C82_calls.
Theorem C82_calls_unique ops m c c' : merged ops m c -> merged ops m c' -> c = c'.
Proof. exact (fun h => merged_unique ops m c h c'). Qed.
Print Assumptions C82_calls_unique.
Example C82_case : touched demo (mp_icc up_b) /\ exists f outs f', mrun empty_fs [] demo = Ok (f, outs) /\ last_merge outs up_b = Some [9] /\ mp_merge f up_b = Ok ([9], f').
Proof. split; [exists up_b, 1, [9]; split; [cbn; tauto|reflexivity]|]. do 3 eexists. split; [vm_compute; reflexivity|]. split; [vm_compute; reflexivity|vm_compute; reflexivity]. Qed.
