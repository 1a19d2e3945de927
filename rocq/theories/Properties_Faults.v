(** Properties of the handling of packets when calls of the operating system
    fail (multipart.go, session_handler.go:79-112).  A history is any sequence of
    packets of any terminals, messages and tags, each with the faults met while it
    is handled, on an initially empty directory tree. *)
From Coq Require Import Sorted Permutation.
From Verif Require Import Base Multipart Overlap Faults SpecMulti SpecFaults ProofFaults ProofFaults2.

(** A demonstration: a terminal sends two parts of an upload, the first one cut
    short by a full disk; another upload lies in between. *)
Definition one_of (tag seq : Z) (data : bytes) : packet := Packet (Mpf 13800000000 0x0801 tag 2) seq data.
Definition cut : list attempt :=
  [(one_of 7 1 [1; 2; 3], Faults (WShort 1) KDone (MWalk KDone)); (one_of 8 1 [9], no_faults); (one_of 7 2 [4], no_faults)].
Definition unlisted : list attempt :=
  [(one_of 7 1 [1; 2; 3], no_faults); (one_of 8 1 [9], no_faults); (one_of 7 2 [4], Faults WDone KDone (MWalk KNoList))].
Definition lost : list attempt := [(one_of 7 1 [1; 2; 3], no_faults); (one_of 7 2 [4], Faults WDone KDone (MWalk KGone))].
(** A failed part is sent again; a merge that fails halfway is made good by sending the last packet again. *)
Definition again : list attempt :=
  [(one_of 7 1 [1; 2; 3], Faults (WShort 1) KDone (MWalk KDone)); (one_of 8 1 [9], no_faults); (one_of 7 1 [1; 2; 3], no_faults);
   (one_of 7 2 [4], Faults WDone KDone (MShort 2)); (one_of 7 2 [4], no_faults)].
Lemma ok_all h : forallb (fun a : attempt => let m := pk_up (fst a) in
    (0 <=? mp_icc m) && (mp_icc m <? 2 ^ 64) && (0 <=? mp_msgid m) && (mp_msgid m <? 65536) && (0 <=? mp_tag m) && (mp_tag m <? 2 ^ 32) &&
    (0 <=? mp_sum m) && (mp_sum m <? 65536) && (0 <=? pk_seq (fst a)) && (pk_seq (fst a) <? 65536)) h = true -> Forall attempt_ok h.
Proof.
  rewrite forallb_forall, Forall_forall. intros H a A. specialize (H a A). cbn beta zeta in H. unfold attempt_ok, packet_ok, mpf_ok, is_u16, is_u32.
  rewrite !andb_true_iff, !Z.leb_le, !Z.ltb_lt in H. tauto.
Qed.
Lemma cut_ok : Forall attempt_ok cut. Proof. apply ok_all. reflexivity. Qed.
Lemma unlisted_ok : Forall attempt_ok unlisted. Proof. apply ok_all. reflexivity. Qed.
Lemma lost_ok : Forall attempt_ok lost. Proof. apply ok_all. reflexivity. Qed.
Lemma again_ok : Forall attempt_ok again. Proof. apply ok_all. reflexivity. Qed.

(** C132. "A message put together from packets consists of packets that were
    answered with success."  Refuted: a part all of whose packets were answered with
    failure goes into the message, cut short ... *)
Theorem C132_refuted : exists h p x f os c i,
  Forall attempt_ok (h ++ [(p, x)]) /\ io_run empty_fs (h ++ [(p, x)]) = Ok (f, os ++ [OWhole c]) /\ length os = length h /\ c <> [] /\
  1 <= i <= mp_sum (pk_up p) /\ i <> pk_seq p /\
  Forall2 (fun (a : attempt) o => of_upload (pk_up p) a = true -> pk_seq (fst a) = i -> o = OFail) h os.
Proof.
  exists (firstn 2 cut), (one_of 7 2 [4]), no_faults. eexists. exists [OFail; OKept], [1; 4], 1. split; [exact cut_ok|]. split; [vm_compute; reflexivity|]. split; [reflexivity|].
  split; [discriminate|]. split; [vm_compute; split; discriminate|]. split; [discriminate|]. constructor; [auto|]. constructor; [|constructor]. intros E. discriminate E.
Qed.
Print Assumptions C132_refuted.
(** ... and with every packet written and answered with success an empty message
    is handed over when the directory cannot be listed at the merge. *)
Theorem C132_empty_refuted : exists h f os,
  Forall attempt_ok h /\ (forall a, In a h -> io_write (snd a) = WDone /\ pk_data (fst a) <> []) /\
  io_run empty_fs h = Ok (f, os) /\ In (OWhole []) os.
Proof.
  exists unlisted. do 2 eexists. split; [exact unlisted_ok|]. split; [|split; [vm_compute; reflexivity|vm_compute; auto]].
  intros a [<-|[<-|[<-|[]]]]; (split; [reflexivity|discriminate]).
Qed.
Print Assumptions C132_empty_refuted.

(** C133. With any faults, the packets of an upload meet what the upload alone
    says: numbered pieces, the latest left in place, a check for 1..Sum when the last
    one is written, the pieces in order laid over what earlier merges left. *)
Theorem C133_uploads h f os m : Forall attempt_ok h -> io_run empty_fs h = Ok (f, os) ->
  length os = length h /\ exists u, upload_run new_upload (own m h) = Some (u, own_outcomes m h os).
Proof. exact (io_run_own h f os m). Qed.
Print Assumptions C133_uploads.
(** Uploads are independent of each other's faults. *)
Theorem C133_independent h h' f f' os os' m : Forall attempt_ok h -> Forall attempt_ok h' -> own m h = own m h' ->
  io_run empty_fs h = Ok (f, os) -> io_run empty_fs h' = Ok (f', os') -> own_outcomes m h os = own_outcomes m h' os'.
Proof. exact (io_run_same h h' f f' os os' m). Qed.
Print Assumptions C133_independent.
(** A packet is answered with failure exactly if it could not be written. *)
Theorem C133_answers h f os : io_run empty_fs h = Ok (f, os) -> Forall2 (fun (a : attempt) o => o = OFail <-> io_write (snd a) <> WDone) h os.
Proof. exact (io_run_answers h empty_fs f os eq_refl). Qed.
Print Assumptions C133_answers.
(** Without faults this is the handling of a packet of Multipart.v. *)
Theorem C133_plain f p : packet_io f p no_faults =
  match mp_write f (pk_up p) (pk_seq p) (pk_data p) with
  | Ok f1 => if negb (pk_seq p =? mp_sum (pk_up p)) then Ok (f1, OKept)
             else do full <- is_full f1 (pk_up p) ;
                  if full then (do (c, f2) <- mp_merge f1 (pk_up p) ; Ok (f2, OWhole c)) else Ok (f1, OKept)
  | _ => Ok (f, OFail)
  end.
Proof. exact (no_faults_step f p). Qed.
Print Assumptions C133_plain.
Example C133_case : exists f, io_run empty_fs again = Ok (f, [OFail; OKept; OKept; OKept; OWhole [1; 2; 3; 4]]) /\
  own_outcomes (Mpf 13800000000 0x0801 7 2) again [OFail; OKept; OKept; OKept; OWhole [1; 2; 3; 4]] = [OFail; OKept; OKept; OWhole [1; 2; 3; 4]] /\
  own (Mpf 13800000000 0x0801 8 2) again = own (Mpf 13800000000 0x0801 8 2) unlisted.
Proof. eexists. split; [vm_compute; reflexivity|]. split; vm_compute; reflexivity. Qed.

(** C134. "An error of the file system never ends the process."  Refuted: it
    does when a file disappears while the directory is walked. *)
Theorem C134_refuted : exists h, Forall attempt_ok h /\ (forall a, In a h -> io_write (snd a) = WDone) /\ io_run empty_fs h = Panic.
Proof. exists lost. split; [exact lost_ok|]. split; [intros a [<-|[<-|[]]]; reflexivity|vm_compute; reflexivity]. Qed.
Print Assumptions C134_refuted.

(** C135. Nothing else ends it: if it ends, then at the last packet of an upload,
    written successfully, the directory or a file in it was lost under the walk;
    and a loss under the walk of IsFull always ends it. *)
Theorem C135_only h : Forall attempt_ok h -> (exists f os, io_run empty_fs h = Ok (f, os)) \/ (io_run empty_fs h = Panic /\ exists a, In a h /\ losing a).
Proof. exact (io_run_total h). Qed.
Print Assumptions C135_only.
Theorem C135_dies h p x : Forall attempt_ok h -> In (p, x) h -> io_write x = WDone -> pk_seq p = mp_sum (pk_up p) -> io_full x = KGone -> io_run empty_fs h = Panic.
Proof. exact (io_run_dies h p x). Qed.
Print Assumptions C135_dies.
Example C135_case : (forall a, In a again -> ~ losing a) /\ (exists a, In a lost /\ losing a) /\
  io_run empty_fs [(one_of 7 2 [4], Faults WDone KGone (MWalk KDone))] = Panic.
Proof.
  split; [|split; [|vm_compute; reflexivity]].
  - intros a [<-|[<-|[<-|[<-|[<-|[]]]]]] (_ & _ & [E|[_ E]]); vm_compute in E; discriminate.
  - exists (one_of 7 2 [4], Faults WDone KDone (MWalk KGone)). split; [right; left; reflexivity|]. split; [reflexivity|]. split; [reflexivity|]. right. split; [discriminate|reflexivity].
Qed.

(** C136. A message handed over without a fault of the walk and the merge begins
    with what the files of all parts hold, in order, each part 1..Sum among them;
    nothing follows if no last packet of the upload came before. *)
Theorem C136_content h p x f os c : Forall attempt_ok (h ++ [(p, x)]) -> length os = length h -> io_run empty_fs (h ++ [(p, x)]) = Ok (f, os ++ [OWhole c]) ->
  io_full x = KDone -> io_merge x = MWalk KDone ->
  (forall i, 1 <= i <= mp_sum (pk_up p) -> held (h ++ [(p, x)]) (pk_up p) i <> None) /\
  exists l rest, held_in_order (h ++ [(p, x)]) (pk_up p) l /\ c = concat (map snd l) ++ rest /\
    ((forall a, In a h -> ~ may_merge (pk_up p) a) -> rest = []).
Proof. exact (whole_pieces h p x f os c). Qed.
Print Assumptions C136_content.
(** If no packet of the upload was cut short, each file holds the data of a packet
    of that number that was written, and so answered with success (C133). *)
Theorem C136_answered h m s c : (forall a k, In a h -> of_upload m a = true -> io_write (snd a) <> WShort k) -> held h m s = Some c ->
  exists p x, In (p, x) h /\ of_upload m (p, x) = true /\ io_write x = WDone /\ pk_seq p = s /\ pk_data p = c.
Proof. exact (held_done h m s c). Qed.
Print Assumptions C136_answered.
Example C136_case : exists f, io_run empty_fs cut = Ok (f, [OFail; OKept; OWhole [1; 4]]) /\
  held_in_order cut (Mpf 13800000000 0x0801 7 2) [(1, [1]); (2, [4])] /\ (forall a, In a (firstn 2 cut) -> ~ may_merge (Mpf 13800000000 0x0801 7 2) a).
Proof.
  eexists. split; [vm_compute; reflexivity|]. split.
  - split; [repeat constructor|]. intros s c. cbn. split.
    + intros [E|[E|[]]]; injection E as <- <-; (split; [split; vm_compute; congruence|reflexivity]).
    + intros (_ & E). destruct s as [|q|q]; try discriminate E. destruct q as [q|q|]; [discriminate E| |injection E as <-; auto]. destruct q as [q|q|]; [discriminate E|discriminate E|injection E as <-; auto].
  - intros a [<-|[<-|[]]] (A & B & C); vm_compute in A, B, C; congruence.
Qed.
