(** Interleavings of the goroutines of a server, used as examples and counterexamples. *)
From Verif Require Import Base LibBase Bits Env EntTerm EntPlat Registry Message Timer Session Server Fine.
From Verif Require Import SpecSession SpecTimer SpecServer SpecFine DemoServer.

Definition events_of (mg : bool) (ka : Z) (ops : list fop) : list fevent := match frun (fine_init mg ka) ops with Ok (_, e) => e | _ => [] end.
Definition state_after (mg : bool) (ka : Z) (ops : list fop) : fine := match frun (fine_init mg ka) ops with Ok (s, _) => s | _ => fine_init mg ka end.
(** What an acknowledgement by the terminal of request [n] looks like *)
Definition ack (icc sn n : Z) : message := Message (Header 1 0 icc sn None) (BEnt (E0001 (T0001 n 0x8104 0))).
Lemma ack_ok icc sn n : 1 <= icc < 10 ^ 12 -> is_u16 sn -> received (ack icc sn n).
Proof. unfold received, is_u16. cbn. intros. repeat split; try lia. Qed.
Ltac arrives := repeat (apply Forall_cons; [try exact I; first [wire | apply ack_ok; unfold is_u16; lia]|]); apply Forall_nil.

(** Two terminals: a heartbeat is handled while a Broadcast, a Request and its answer are under way, the timer closes one of the sessions. *)
Definition busy_day : list fop :=
  [FHandler 2 5; FConnect 1; FConnect 2; FClock 1 0; FClock 2 3; FDel 2; FDel 1; FIns 1; FAddCb 1; FRecv 1 (beat 138 1); FIns 2; FCast E8201; FIcc 1; FCastNext 0 1;
   FStart 2 true E8104; FNext 1 1; FTake 1; FNext 2 2; FWire 1 1; FLoad 1; FWire 2 2; FCastNext 0 2; FAddCb 2; FClock 1 10; FAdd 2 2; FRecv 2 (ack 139 1 1); FDel 1; FIcc 2; FNext 2 3; FIns 1;
   FTake 2; FRun 1; FWire 2 3; FCastEnd 0; FReturn 1; FReturn 2; FLoad 2; FRecv 1 (strange 138 2); FReply 1; FTick 65; FNext 1 4; FGet; FWire 1 4; FTimeout; FFail 2; FGone 2; FLook 2; FRemove 2; FClosed 2; FFail 1; FTick 99; FGet; FLook 1].
Lemma busy_day_ok : fine_received busy_day. Proof. unfold busy_day. arrives. Qed.
Definition busy_events : list fevent := events_of false 60 busy_day.
Lemma busy_happens : happens false 60 busy_events.
Proof. exists busy_day, (state_after false 60 busy_day). split; [exact busy_day_ok|vm_compute; reflexivity]. Qed.

(** The timer finds a session expired; before it closes it, the session is refreshed. *)
Definition race : list fop :=
  [FHandler 2 5; FConnect 1; FClock 1 0; FDel 1; FIns 1; FAddCb 1; FRecv 1 (beat 138 1); FIcc 1; FTake 1; FLoad 1; FTick 60; FClock 1 60; FDel 1; FIns 1; FGet; FRun 1; FTimeout].
Lemma race_ok : fine_received race. Proof. unfold race. arrives. Qed.
Definition race_events : list fevent := events_of false 60 race.
Lemma race_happens : happens false 60 race_events.
Proof. exists race, (state_after false 60 race). split; [exact race_ok|vm_compute; reflexivity]. Qed.

(** A server that merges packets: a packet is answered, the last one also passed on. *)
Definition merging_day : list fop :=
  [FHandler 0x0801 9; FConnect 1; FClock 1 0; FDel 1; FIns 1; FAddCb 1; FRecv 1 (packet 138 1 7 2 1 [1; 2]); FStored 1 true; FReply 1; FNext 1 0; FWire 1 0; FMerged 1 None;
   FRecv 1 (packet 138 2 7 2 2 [3]); FStored 1 true; FReply 1; FNext 1 1; FWire 1 1; FMerged 1 (Some [1; 2; 3]); FIcc 1; FTake 1; FLoad 1; FClock 1 5; FDel 1; FIns 1; FRun 1; FReturn 1; FFail 1].
Lemma merging_day_ok : fine_received merging_day. Proof. unfold merging_day. arrives. Qed.
Definition merging_events : list fevent := events_of true 60 merging_day.
Lemma merging_happens : happens true 60 merging_events.
Proof. exists merging_day, (state_after true 60 merging_day). split; [exact merging_day_ok|vm_compute; reflexivity]. Qed.
(** A full queue *)
Definition full : list fop := [FConnect 1; FClock 1 0; FDel 1; FIns 1; FQueue 1 true; FStart 1 false E8201; FNext 1 0; FWire 1 0; FWire 1 0].
Lemma full_ok : fine_received full. Proof. unfold full. arrives. Qed.
Definition full_events : list fevent := events_of false 60 full.
Lemma full_happens : happens false 60 full_events.
Proof. exists full, (state_after false 60 full). split; [exact full_ok|vm_compute; reflexivity]. Qed.
(** A session that has registered and then failed; its close callback has run. *)
Definition short_day : list fop := [FConnect 1; FClock 1 0; FDel 1; FIns 1; FAddCb 1; FStart 1 true E8104; FNext 1 0; FWire 1 0; FAdd 1 0; FFail 1; FGone 1; FRemove 1; FClosed 1].
Definition over : fine := Eval vm_compute in state_after false 60 short_day.
Definition over_events : list fevent := Eval vm_compute in events_of false 60 short_day.
Lemma over_run : frun (fine_init false 60) short_day = Ok (over, over_events).
Proof. vm_compute. reflexivity. Qed.
Lemma over_ok : fine_received short_day.
Proof. unfold short_day. arrives. Qed.
Lemma over_rest op : by_itself op = true -> exists s', fstep over op = Ok (s', []).
Proof.
  intro B. destruct op; try discriminate B; exists over; try reflexivity; unfold fstep; change (fobj_get (fi_objs over) id) with (if 1 =? id then fobj_get (fi_objs over) 1 else None); destruct (1 =? id); reflexivity.
Qed.
