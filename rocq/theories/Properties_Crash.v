(** Properties of uploads under concurrency, failing calls and ends of the process (session_handler.go:63-112, multipart.go).
    A history is any sequence of new connections with any packets, of moves of any of the goroutines, each with any fault,
    and of ends of the process, starting without files. *)
From Coq Require Import Sorted.
From Verif Require Import Base Multipart Overlap SpecMulti Crash SpecCrash ProofCrash ProofCrash2 ProofCrash3 ProofCrash4 DemoCrash.

(** C161. The file of a part is there exactly if it was ever opened, and it holds what the writes since the last opening
    left; the merged file holds what was copied into it. *)
Theorem C161_files os b hs m : Forall bop_ok os -> brun box_new os = (b, hs) -> mpf_ok m ->
  (forall i, is_u16 i -> alist_get (dir_of (bx_fs b) m) (part_name m i) = part_of hs m i) /\ get_file (bx_fs b) m (full_name m) = full_of hs m.
Proof. exact (files_hold os b hs m). Qed.
Print Assumptions C161_files.
(** What is written to a part comes from a packet for that part, and is all of it if the packet is answered with success; a merge begins
    only when all parts 1..Sum are there; it copies contents of parts, or the beginning of one, leaving no gap; and what is handed over is the merged file. *)
Theorem C161_reasons os b a j h c : Forall bop_ok os -> brun box_new os = (b, a ++ (j, h) :: c) ->
  match h with
  | HOpen m i | HRefuse m i => exists ps p, In (BConnect ps) os /\ In p ps /\ pk_up p = m /\ pk_seq p = i
  | HWrite m i d w => exists ps p, In (BConnect ps) os /\ In p ps /\ pk_up p = m /\ pk_seq p = i /\ if w then d = pk_data p else exists k, d = firstn k (pk_data p)
  | HStart m _ => forall i, 1 <= i <= mp_sum m -> part_of a m i <> None
  | HLay m off d => (off <= length (full_of a m))%nat /\ exists i whole k, part_of a m i = Some whole /\ d = firstn k whole
  | HDrop m => True
  | HWhole m c => c = full_of a m
  end.
Proof. exact (reasons os b a j h c). Qed.
Print Assumptions C161_reasons.
(** No byte of a message comes from another upload. *)
Theorem C161_own os b hs j m c : Forall bop_ok os -> brun box_new os = (b, hs) -> In (j, HWhole m c) hs ->
  forall x, In x c -> exists ps p, In (BConnect ps) os /\ In p ps /\ same_upload (pk_up p) m = true /\ In x (pk_data p).
Proof. exact (message_own os b hs j m c). Qed.
Print Assumptions C161_own.
(** Without faults a goroutine moves as in the model of overlapping uploads (C101-C104). *)
Theorem C161_plain f t : fst (fault_step f t FNone) = thread_step f t.
Proof. exact (no_fault f t). Qed.
Print Assumptions C161_plain.
Example C161_case : Forall bop_ok mended /\ exists b, brun box_new mended = (b, mended_a ++ (1%nat, HStart up7 true) :: mended_mid ++ [(1%nat, HWhole up7 [1; 2; 3; 4])]) /\
  part_of mended_a up7 1 = Some [1; 2; 3] /\ part_of (firstn 2 mended_a) up7 1 = Some [1].
Proof. split; [exact mended_ok|]. destruct mended_run as (b & R). exists b. split; [exact R|]. split; reflexivity. Qed.

(** C162. A packet that was written undisturbed and answered with success stays in its file until another packet for the part
    comes, whatever fails or ends in between. *)
Theorem C162_durable os b hs m i d : Forall bop_ok os -> brun box_new os = (b, hs) -> mpf_ok m -> is_u16 i -> settled_part hs m i d ->
  alist_get (dir_of (bx_fs b) m) (part_name m i) = Some d.
Proof. exact (durable os b hs m i d). Qed.
Print Assumptions C162_durable.
Example C162_case : settled_part mended_a up7 1 [1; 2; 3].
Proof. exact mended_one. Qed.

(** C163. A message handed over by a merge during which no other goroutine changes files of the upload consists of the
    contents of all parts at the beginning of the merge, in the order of their numbers, over what the earlier merges left;
    of nothing but that if the directory could not be listed. *)
Theorem C163_merge os b a i m q mid m' c post : Forall bop_ok os -> brun box_new os = (b, a ++ (i, HStart m q) :: mid ++ (i, HWhole m' c) :: post) ->
  (forall j h, In (j, h) mid -> j <> i -> ~ changes m h) -> (forall m1 q1, ~ In (i, HStart m1 q1) mid) ->
  m' = m /\ exists l, (if q then parts_sorted a m l else l = []) /\ c = over (concat (map snd l)) (full_of a m).
Proof. exact (quiet_merge os b a i m q mid m' c post). Qed.
Print Assumptions C163_merge.
(** If every part that was ever opened was last written undisturbed and answered with success, these are the data of the last packets. *)
Theorem C163_success os b a i m mid m' c post : Forall bop_ok os -> brun box_new os = (b, a ++ (i, HStart m true) :: mid ++ (i, HWhole m' c) :: post) ->
  (forall j h, In (j, h) mid -> j <> i -> ~ changes m h) -> (forall m1 q1, ~ In (i, HStart m1 q1) mid) ->
  (forall h s, In h a -> writes m s (snd h) -> exists d, settled_part a m s d) ->
  exists l, StronglySorted (fun a b => fst a < fst b) l /\ (forall s d, In (s, d) l <-> is_u16 s /\ settled_part a m s d) /\
    (forall s, 1 <= s <= mp_sum m -> exists d, In (s, d) l) /\ c = over (concat (map snd l)) (full_of a m).
Proof. exact (merge_success os b a i m mid m' c post). Qed.
Print Assumptions C163_success.
Example C163_case : exists b, brun box_new mended = (b, mended_a ++ (1%nat, HStart up7 true) :: mended_mid ++ [(1%nat, HWhole up7 [1; 2; 3; 4])]) /\
  (forall j h, In (j, h) mended_mid -> j <> 1%nat -> ~ changes up7 h) /\ (forall m1 q1, ~ In (1%nat, HStart m1 q1) mended_mid) /\
  (forall h s, In h mended_a -> writes up7 s (snd h) -> exists d, settled_part mended_a up7 s d).
Proof. destruct mended_run as (b & R). exists b. split; [exact R|]. split; [exact mended_alone|]. split; [exact mended_once|exact mended_settled]. Qed.

(** C164. After any history all packets of an upload, sent again on a new connection that is served alone and without faults, are answered with
    success and lead to a message of their data, with older parts of other numbers before and after, over what the earlier merges left; *)
Theorem C164_again os b hs m ds : Forall bop_ok os -> brun box_new os = (b, hs) -> mpf_ok m -> ds <> [] -> mp_sum m = zlen ds ->
  let n := length (bx_threads b) in exists l k, parts_again hs m ds l /\
  forall k', (k <= k')%nat -> exists b' e, brun b (BConnect (packets_from m 1 ds) :: repeat (BMove n FNone) k') = (b', e) /\
    nth_error (bx_threads b') n = Some (Thread [] TIdle (repeat OKept (length ds - 1) ++ [OWhole (over (concat (map snd l)) (full_of hs m))])).
Proof. exact (sent_again os b hs m ds). Qed.
Print Assumptions C164_again.
(** to exactly their data, if there are no such parts and the earlier merges left no more than that. *)
Theorem C164_recovers os b hs m ds : Forall bop_ok os -> brun box_new os = (b, hs) -> mpf_ok m -> ds <> [] -> mp_sum m = zlen ds ->
  (forall i, part_of hs m i <> None -> 1 <= i <= mp_sum m) -> (length (full_of hs m) <= length (concat ds))%nat ->
  let n := length (bx_threads b) in exists k, forall k', (k <= k')%nat -> exists b' e, brun b (BConnect (packets_from m 1 ds) :: repeat (BMove n FNone) k') = (b', e) /\
    nth_error (bx_threads b') n = Some (Thread [] TIdle (repeat OKept (length ds - 1) ++ [OWhole (concat ds)])).
Proof. exact (recovers os b hs m ds). Qed.
Print Assumptions C164_recovers.
Example C164_case : Forall bop_ok torn /\ (exists b, brun box_new torn = (b, torn_hs)) /\ mp_sum up7 = zlen [[1; 2; 3]; [4]] /\
  (forall i, part_of torn_hs up7 i <> None -> 1 <= i <= mp_sum up7) /\ (length (full_of torn_hs up7) <= length (concat [[1; 2; 3]; [4]]))%nat.
Proof. split; [exact torn_ok|]. split; [exact torn_run|]. split; [reflexivity|]. split; [exact torn_parts|]. vm_compute. auto with arith. Qed.

(** C165. A message is handed over only when all its packets have been answered with success: refuted.  The process may
    end between the opening and the writing of a part. *)
Theorem C165_refuted : exists os b hs j m c i, Forall bop_ok os /\ (forall k x, In (BMove k x) os -> x = FNone) /\ brun box_new os = (b, hs) /\
  In (j, HWhole m c) hs /\ 1 <= i <= mp_sum m /\ (forall k m' d, same_upload m' m = true -> ~ In (k, HWrite m' i d true) hs).
Proof.
  destruct torn_run as (b & R). exists torn, b, torn_hs, 1%nat, up7, [4], 1. split; [exact torn_ok|]. split; [exact torn_calm|]. split; [exact R|].
  split; [exact torn_whole|]. split; [exact torn_first|]. exact torn_never.
Qed.
Print Assumptions C165_refuted.
