(** The receiving codec on byte streams: C26-C28, C69-C72. *)
From Verif Require Import Base LibBase Bits Env EntTerm EntPlat Registry Message Codec.
From Verif Require Import SpecFrame SpecGeo SpecEntity SpecMsg SpecStream Demo ProofStream ProofStream2.

(** C26. From sender to receiver: messages that fit the wire, sent one after the
    other in plain text or encrypted, cut into reads of at most 128 bytes in
    any way, are received exactly once each and in order; then the receiver
    waits or reports the failure of the connection. *)
Theorem C26_end_to_end env pub priv ms rs rnds : Forall2 (travels env pub priv) ms rs -> length rnds = length ms ->
  exists datas, Forall2 (fun mr d => codec_send env pub (snd mr) None (fst mr) = Ok d) (combine ms rnds) datas /\
  forall cs tail, concat cs = concat datas -> reads_ok cs -> quiet_tail tail ->
  receive_all (S (length rs)) env priv [] (map RData cs ++ tail) = (rs, ending tail).
Proof. exact (end_to_end env pub priv ms rs rnds). Qed.
Print Assumptions C26_end_to_end.
(** The same for any valid frames, whoever made them. *)
Theorem C26_frames env key fs ms cs tail : Forall2 (good_frame env key) fs ms ->
  concat cs = concat (map around fs) -> reads_ok cs -> quiet_tail tail ->
  receive_all (S (length ms)) env key [] (map RData cs ++ tail) = (ms, ending tail).
Proof. exact (frames_arrive env key fs ms cs tail). Qed.
Print Assumptions C26_frames.
Example C26_case : travels demo_env None None (Message (Header 0 0 13800138000 126 None) (BEnt (E0001 (T0001 125 512 0))))
    (Message (Header 1 5 13800138000 126 None) (BEnt (E0001 (T0001 125 512 0)))) /\
  good_frame demo_env None demo_frame demo_msg /\
  receive_all 3 demo_env None [] [RData (126 :: firstn 4 demo_frame); RData (skipn 4 demo_frame); RData ([126; 126] ++ demo_frame); RData [126]] = ([demo_msg; demo_msg], Waiting).
Proof.
  split; [|split; [exact demo_good|vm_compute; reflexivity]].
  eapply (travels_plain _ _ _ _ _ (E0001 (T0001 125 512 0)) [0; 125; 2; 0; 0]); try reflexivity; cbv; intuition congruence.
Qed.

(** C27. A session never keeps more than 65535 bytes while it waits; only the
    size error leaves more, by at most one read ... *)
Theorem C27_bounded env key b evs r b' evs' : buffered env key b -> events_ok evs -> receive env key b evs = (r, b', evs') ->
  zlen b <= 65535 /\ (zlen b' <= 65535 \/ r = GotErr ErrBodyTooLong /\ zlen b' <= 65535 + 128).
Proof. exact (fun B V H => conj (buffered_bound env key b B) (receive_bound env key b evs r b' evs' (buffered_bound env key b B) V H)). Qed.
Print Assumptions C27_bounded.
(** ... a frame that is never closed is cut off by an error ... *)
Theorem C27_never_closed env key cs evs t : concat cs = 126 :: t -> ~ In 126 t -> 65535 < zlen (concat cs) ->
  exists b' evs', receive env key [] (map RData cs ++ evs) = (GotErr ErrBodyTooLong, b', evs').
Proof. exact (fun E F L => never_closed env key evs cs [] t E F (Z.lt_le_incl 0 65535 eq_refl) L). Qed.
Print Assumptions C27_never_closed.
(** ... and the size error means just that: a frame still open after 65408 bytes. *)
Theorem C27_only_open env key b evs b' evs' : buffered env key b -> events_ok evs ->
  receive env key b evs = (GotErr ErrBodyTooLong, b', evs') ->
  exists f d, b' = 126 :: f ++ d /\ ~ In 126 f /\ zlen d <= 128 /\ 65535 < 1 + zlen (f ++ d).
Proof. exact (fun B => too_long_open env key b evs b' evs' (buffered_bound env key b B)). Qed.
Print Assumptions C27_only_open.
Example C27_case : exists t, 126 :: repeat 0 (Z.to_nat 65535) = 126 :: t /\ ~ In 126 t /\ 65535 < zlen (126 :: t).
Proof.
  exists (repeat 0 (Z.to_nat 65535)). split; [reflexivity|]. split.
  - intros H. apply repeat_spec in H. discriminate.
  - rewrite zlen_cons. unfold zlen. rewrite repeat_length. reflexivity.
Qed.

(** C28. After an error that is not the connection's or the size error, bytes
    were discarded from the front, and none of the others is lost or moved ... *)
Theorem C28_progress_partial env key b evs e b' evs' : receive env key b evs = (GotErr e, b', evs') ->
  exists ds, 
  (evs = map RData ds ++ evs' /\ ((exists gone, gone <> [] /\ b ++ concat ds = gone ++ b') \/ e = ErrBodyTooLong /\ 65535 < zlen b' /\ b' = b ++ concat ds)) \/
  (evs = map RData ds ++ RFail e :: evs' /\ b' = b ++ concat ds).
Proof. exact (progress env key b evs e b' evs'). Qed.
Print Assumptions C28_progress_partial.
(** ... frames behind garbage with an even number of delimiters are all delivered ... *)
Theorem C28_resync_partial env key g fs ms cs : Nat.even (delims g) = true -> manageable g -> harmless env key g -> Forall2 (good_frame env key) fs ms ->
  manageable (g ++ concat (map around fs)) -> concat cs = g ++ concat (map around fs) -> reads_ok cs ->
  calls env key [] (map RData cs) (heard env key g ++ ms).
Proof. exact (resync_even env key g fs ms cs). Qed.
Print Assumptions C28_resync_partial.
(** ... but one stray delimiter, and no later frame is ever delivered. *)
Theorem C28_resync_refuted : exists env key g f m, good_frame env key f m /\
  forall n cs, concat cs = g ++ concat (map around (repeat f (S n))) -> reads_ok cs -> calls env key [] (map RData cs) [].
Proof. exact resync_false. Qed.
Print Assumptions C28_resync_refuted.
Example C28_case : Nat.even (delims [1; 126; 2; 3; 126; 4]) = true /\ manageable ([1; 126; 2; 3; 126; 4] ++ around demo_frame) /\
  harmless demo_env None [1; 126; 2; 3; 126; 4] /\ heard demo_env None ([1; 126; 2; 3; 126; 4] ++ around demo_frame) = [demo_msg].
Proof.
  split; [reflexivity|]. split; [repeat constructor; cbv; congruence|]. split; [constructor; [vm_compute; congruence|constructor]|vm_compute; reflexivity].
Qed.

(** C69. Synchronisation, exactly: after an even number of stray delimiters all
    following frames are heard, after an odd number none. *)
Theorem C69_even env key g fs ms : Nat.even (delims g) = true -> Forall2 (good_frame env key) fs ms ->
  heard env key (g ++ concat (map around fs)) = heard env key g ++ ms.
Proof. exact (heard_even env key g fs ms). Qed.
Print Assumptions C69_even.
Theorem C69_odd env key g f fs : Nat.even (delims g) = false -> ~ In 126 f -> Forall (fun f => ~ In 126 f) fs ->
  heard env key (g ++ around f ++ concat (map around fs)) = heard env key (g ++ [126]).
Proof. exact (heard_odd env key g f fs). Qed.
Print Assumptions C69_odd.
(** ... and that is what Receive gives, however the stream is cut. *)
Theorem C69_received_even env key g fs ms cs : Nat.even (delims g) = true -> Forall2 (good_frame env key) fs ms -> concat cs = g ++ concat (map around fs) ->
  reads_ok cs -> manageable (concat cs) -> harmless env key (concat cs) -> forall r, calls env key [] (map RData cs) r <-> r = heard env key g ++ ms.
Proof. exact (received_even env key g fs ms cs). Qed.
Print Assumptions C69_received_even.
Theorem C69_received_odd env key g f fs cs : Nat.even (delims g) = false -> ~ In 126 f -> Forall (fun f => ~ In 126 f) fs -> concat cs = g ++ around f ++ concat (map around fs) ->
  reads_ok cs -> manageable (concat cs) -> harmless env key (concat cs) -> forall r, calls env key [] (map RData cs) r <-> r = heard env key (g ++ [126]).
Proof. exact (received_odd env key g f fs cs). Qed.
Print Assumptions C69_received_odd.
Example C69_case : heard demo_env None ([126; 5] ++ around demo_frame ++ around demo_frame) = [] /\
  heard demo_env None ([126; 5; 126] ++ around demo_frame ++ around demo_frame) = [demo_msg; demo_msg].
Proof. split; vm_compute; reflexivity. Qed.
Example C69_received_case : let cs := [126; 5; 6] :: map around [demo_frame; demo_frame] in reads_ok cs /\ manageable (concat cs) /\ harmless demo_env None (concat cs) /\
  Nat.even (delims [126; 5; 6]) = false /\ calls demo_env None [] (map RData cs) [].
Proof.
  cbv zeta. assert (R : reads_ok ([126; 5; 6] :: map around [demo_frame; demo_frame])) by (repeat constructor; cbv; congruence).
  assert (M : manageable (concat ([126; 5; 6] :: map around [demo_frame; demo_frame]))) by (repeat constructor; cbv; congruence).
  assert (H : harmless demo_env None (concat ([126; 5; 6] :: map around [demo_frame; demo_frame]))).
  { unfold harmless. match goal with |- Forall _ ?l => let l' := eval vm_compute in l in replace l with l' by (vm_compute; reflexivity) end.
    repeat (apply Forall_cons; [vm_compute; congruence|]). apply Forall_nil. }
  split; [exact R|]. split; [exact M|]. split; [exact H|]. split; [reflexivity|]. apply (any_stream _ _ _ R M H). vm_compute. reflexivity.
Qed.

(** C70. A caller that goes on after errors gets exactly the messages in every
    second run between delimiters, however the stream is cut. *)
Theorem C70_any_stream env key cs : reads_ok cs -> manageable (concat cs) -> harmless env key (concat cs) ->
  forall ms, calls env key [] (map RData cs) ms <-> ms = heard env key (concat cs).
Proof. exact (any_stream env key cs). Qed.
Print Assumptions C70_any_stream.
Example C70_case : let cs := [[9; 9]; 9 :: around demo_frame; [126; 0]; [0; 126]; around demo_frame] in
  reads_ok cs /\ manageable (concat cs) /\ harmless demo_env None (concat cs) /\ heard demo_env None (concat cs) = [demo_msg; demo_msg].
Proof.
  cbv zeta. split; [repeat constructor; cbv; congruence|]. split; [repeat constructor; cbv; congruence|].
  split; [|vm_compute; reflexivity]. repeat constructor; vm_compute; congruence.
Qed.

(** C71. A session stops at the first error; the messages before it and the error
    do not depend on how the stream is cut. *)
Theorem C71_first_error env key cs tail : reads_ok cs -> quiet_tail tail -> manageable (concat cs) ->
  let out := until_error env key (ending tail) (runs (concat cs)) in
  forall fuel, (length (fst out) < fuel)%nat -> receive_all fuel env key [] (map RData cs ++ tail) = out.
Proof. exact (first_error env key cs tail). Qed.
Print Assumptions C71_first_error.
Example C71_case : until_error demo_env None Waiting (runs (around demo_frame ++ [7] ++ around demo_frame)) = ([demo_msg], GotErr ErrNotFoundPrefixID).
Proof. vm_compute. reflexivity. Qed.

(** C72. The size error does not empty the buffer: a caller that goes on gets it
    again at every read, and the buffer grows beyond every bound. *)
Theorem C72_again env key f d evs : ~ In 126 f -> 65535 < zlen (126 :: f) ->
  receive env key (126 :: f) (RData d :: evs) = (GotErr ErrBodyTooLong, (126 :: f) ++ d, evs).
Proof. exact (fun F => goes_on env key (126 :: f) d evs (or_intror (ex_intro _ f (conj eq_refl F)))). Qed.
Print Assumptions C72_again.
Theorem C72_unbounded env key n : exists b f, buffered_any env key b /\ b = 126 :: f /\ ~ In 126 f /\ Z.of_nat n < zlen b.
Proof. exact (grows env key n). Qed.
Print Assumptions C72_unbounded.
Example C72_case : ~ In 126 (repeat 0 (Z.to_nat 65535)) /\ 65535 < zlen (126 :: repeat 0 (Z.to_nat 65535)).
Proof. split; [intros H; apply repeat_spec in H; discriminate|]. rewrite zlen_cons. unfold zlen. rewrite repeat_length. reflexivity. Qed.
