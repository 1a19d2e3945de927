(** Counterexamples about interleavings. *)
From Verif Require Import Base LibBase Bits Env EntTerm EntPlat Registry Message Timer Session Server Fine.
From Verif Require Import SpecSession SpecTimer SpecServer SpecFine DemoServer DemoFine.

Lemma race_refuted : exists evs a1 a2 b id u now, happens false 60 evs /\ evs = (a1 ++ a2) ++ XTimeout id :: b /\ refreshes id u a1 /\
  (forall ev, In ev a2 -> ev <> XDel id /\ ev <> XIns id /\ ev <> XRemove id) /\ In (XTick now [id]) a1 /\ (forall t ks, In (XTick t ks) evs -> t = now) /\ now < wrapped u 60.
Proof.
  exists race_events, (firstn 14 race_events), (firstn 2 (skipn 14 race_events)), (skipn 17 race_events), 1, 60, 60. split; [exact race_happens|]. split; [vm_compute; reflexivity|]. split.
  - exists (firstn 11 race_events), [], []. split; [vm_compute; reflexivity|]. split; [intros v []|intros []].
  - split; [intros ev I; vm_compute in I; repeat destruct I as [<-|I]; try contradiction; repeat split; discriminate|]. split; [vm_compute; auto 20|]. split; [|vm_compute; reflexivity].
    intros t ks I. vm_compute in I. repeat destruct I as [I|I]; try discriminate; try contradiction. injection I as <- _. reflexivity.
Qed.
Lemma answer_refuted : exists evs a id m tok e c m', happens true 60 evs /\ received m /\ e = response m 0 /\
  evs = a ++ XRecv id m :: XStored id true :: XReply id tok e :: c /\ In (XWire id tok (Some m')) evs /\ h_icc (m_hdr m') = 0 /\ h_icc (m_hdr m) = 138.
Proof.
  exists merging_events, (firstn 6 merging_events), 1, (packet 138 1 7 2 1 [1; 2]), 0, (response (packet 138 1 7 2 1 [1; 2]) 0), (skipn 9 merging_events),
    (Message (Header 0x8001 0 0 1 None) (BEnt (response (packet 138 1 7 2 1 [1; 2]) 0))).
  split; [exact merging_happens|]. split; [wire|]. split; [reflexivity|]. split; [vm_compute; reflexivity|]. split; [vm_compute; auto 20|]. split; reflexivity.
Qed.
