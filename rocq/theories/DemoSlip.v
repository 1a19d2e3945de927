(** Concrete messages for C166-C169. *)
From Verif Require Import Base Env EntTerm Registry Message Codec SpecFrame SpecMsg Demo SpecStream SpecSlip.

(** A body of 124 bytes of the terminal 13800138000: the byte 0x7c of the length stands in front of the 0x01 of the number. *)
Definition slip_msg : message := Message (Header 0 0 13800138000 7 None) (BEnt (E0900 (TData 1 (repeat 0 123)))).
Definition slip_data : bytes := match msg_encode demo_env None 0 slip_msg with Ok (d, _) => d | _ => [] end.
(** The same frame with one bit flipped. *)
Definition slip_bad : bytes := firstn 4 slip_data ++ [125] ++ skipn 5 slip_data.
Definition slip_hdr : header := Header 2304 125 380013800000 1793 None.

Lemma slip_encoded : exists m', msg_encode demo_env None 0 slip_msg = Ok (slip_data, m').
Proof. eexists. vm_compute. reflexivity. Qed.
Lemma slip_slip : slip slip_data slip_bad.
Proof. exists [9; 0; 0], 124, 125, 1, (removelast (skipn 6 slip_data)). split; [vm_compute; reflexivity|]. split; [vm_compute; reflexivity|]. auto. Qed.
Lemma slip_mangled : mangled slip_data slip_bad.
Proof. exists [9; 0; 0], 124, 125, (removelast (skipn 5 slip_data)). split; [vm_compute; reflexivity|]. split; [vm_compute; reflexivity|]. split; discriminate. Qed.
Lemma slip_decoded : msg_decode demo_env None slip_bad = Ok (Message slip_hdr BNil).
Proof. vm_compute. reflexivity. Qed.
Lemma slip_clear : msg_decode demo_env None slip_data = Ok (Message (Header 2304 124 13800138000 7 None) (BEnt (E0900 (TData 1 (repeat 0 123))))).
Proof. vm_compute. reflexivity. Qed.

(** The third byte of the frame arrives as a delimiter. *)
Definition cut_bad : bytes := firstn 2 slip_data ++ [126] ++ skipn 3 slip_data.
Lemma cut_changed : one_changed slip_data cut_bad.
Proof. exists (firstn 2 slip_data), 0, 126, (skipn 3 slip_data). split; [vm_compute; reflexivity|]. split; [reflexivity|discriminate]. Qed.
Lemma cut_crash : exists evs, receive demo_env None [] [RData (firstn 128 cut_bad); RData (skipn 128 cut_bad)] = (GotPanic, firstn 128 cut_bad, evs).
Proof. eexists. vm_compute. reflexivity. Qed.
Lemma slip_shipped : shipped demo_env None demo_env None slip_data (Message (Header 2304 124 13800138000 7 None) (BEnt (E0900 (TData 1 (repeat 0 123))))).
Proof.
  destruct slip_encoded as (m' & E). exists 0, slip_msg, (E0900 (TData 1 (repeat 0 123))), m'. split; [reflexivity|]. split; [cbv; intuition discriminate|]. split; [vm_compute; discriminate|]. split; [exact E|exact slip_clear].
Qed.
Lemma cut_crashes : exists env m data m' data' cs buf evs, msg_encode env None 0 m = Ok (data, m') /\ one_changed data data' /\
  concat cs = data' /\ reads_ok cs /\ receive env None [] (map RData cs) = (GotPanic, buf, evs).
Proof.
  destruct slip_encoded as (m' & E). destruct cut_crash as (evs & C). exists demo_env, slip_msg, slip_data, m', cut_bad, [firstn 128 cut_bad; skipn 128 cut_bad], (firstn 128 cut_bad), evs.
  split; [exact E|]. split; [exact cut_changed|]. split; [cbn [concat]; rewrite app_nil_r; apply firstn_skipn|]. split; [|exact C].
  constructor; [vm_compute; discriminate|]. constructor; [vm_compute; discriminate|constructor].
Qed.
Lemma noticed_case : frame [9; 0; 0; 7] (xor_all [9; 0; 0; 7]) [126; 9; 0; 0; 7; 14; 126] /\ mangled [126; 9; 0; 0; 7; 14; 126] [126; 9; 0; 0; 125; 14; 126] /\ ~ slip [126; 9; 0; 0; 7; 14; 126] [126; 9; 0; 0; 125; 14; 126].
Proof.
  split; [|split].
  - exists [9; 0; 0; 7], [14]. split; [repeat (constructor; try discriminate)|]. split; [|reflexivity]. repeat (constructor; try discriminate).
  - exists [9; 0; 0], 7, 125, [14]. split; [reflexivity|]. split; [reflexivity|]. split; discriminate.
  - intros (u & x & y & z & v & D & _ & [[X _]|[X _]] & _); subst x; do 7 (destruct u as [|? u]; cbn [app] in D; try discriminate D; injection D as ? D; try discriminate); destruct u; discriminate.
Qed.
Lemma stream_case : exists r, Forall2 (shipped demo_env None demo_env None) [slip_data; slip_data; slip_data] [r; r; r] /\
  one_changed (concat [slip_data; slip_data; slip_data]) (slip_data ++ slip_bad ++ slip_data) /\
  until_error demo_env None Waiting (runs (slip_data ++ slip_bad ++ slip_data)) = ([r; Message slip_hdr BNil; r], Waiting).
Proof.
  exists (Message (Header 2304 124 13800138000 7 None) (BEnt (E0900 (TData 1 (repeat 0 123))))). split; [repeat constructor; exact slip_shipped|]. split; [|vm_compute; reflexivity].
  exists (slip_data ++ firstn 4 slip_data), 124, 125, (skipn 5 slip_data ++ slip_data). split; [vm_compute; reflexivity|]. split; [vm_compute; reflexivity|discriminate].
Qed.
