(** Concrete histories. *)
From Verif Require Import Base LibBase Bits Env EntTerm EntPlat Registry Message Codec Timer Session Server Locks SpecLocks PubKey SpecPubKey Demo.

(** Goroutine [i] executes [n] statements at a time. *)
Definition go (i : nat) (now : Z) (n : nat) : list lop := repeat (LMove i now) n.
(** Session 7 is registered and its timer started while the timer's goroutine runs, session 8 at the same time; a request of
    session 7 is entered and answered by two goroutines. *)
Definition busy_day : list lop :=
  [LCall 1 (KSect (SReg 7)); LCall 2 (KSect (SReg 8)); LMove 1 0; LMove 2 0; LMove 1 0; LMove 2 0; LMove 1 0; LMove 2 0; LMove 2 0; LMove 2 0;
   LCall 1 (KUpdate 7); LCall 2 (KUpdate 8); LMove 1 5; LMove 2 6; LMove 1 6; LMove 2 6; LMove 1 6; LMove 1 6; LMove 2 6; LMove 1 6; LMove 2 6; LMove 1 6; LMove 1 6]
  ++ go 2 6 6 ++ go 1 6 4 ++
  [LCall 0 KTick; LMove 0 15; LCall 1 (KSect (SAdd 7 (Request 33028 5 1))); LMove 0 15; LMove 1 15; LMove 0 15; LMove 1 15; LMove 0 15; LMove 1 15; LMove 1 15;
   LCall 3 (KSect (STake 7 5)); LMove 3 15; LMove 1 15; LMove 3 15; LMove 3 15; LMove 0 15; LMove 3 15;
   LCall 2 (KSect (SDel 8)); LMove 2 15].
Definition after_day : lstate * list levent := match lrun (linit 10) busy_day with Ok r => r | _ => (linit 0, []) end.
Lemma day_runs : lock_runs 10 busy_day (fst after_day) (snd after_day).
Proof. vm_compute. reflexivity. Qed.
Lemma day_end : map (ls_at (fst after_day)) [0; 1; 2; 3]%nat =
  [Inside (STick 15) (PTopKey 15 1 []) None; Idle; AtLock (SDel 8) None; Inside (STake 7 5) (PDone (AReq (Some (Request 33028 5 1)))) None] /\
  map (ls_held (fst after_day)) [Mserver; Mtimer; Msession 7] = [None; Some 0%nat; Some 3%nat].
Proof. vm_compute. auto. Qed.
Lemma day_update : exists e1 e2, snd after_day = e1 ++ ETook 1 (SIns 7 15) :: e2 /\ own 1 e1 = [ETook 1 (SReg 7); EFree 1 (SReg 7) ANone; EClock 1 7 5 15; ETook 1 (SDel 7); EFree 1 (SDel 7) ANone] /\ length e1 = 12%nat.
Proof. exists (firstn 12 (snd after_day)), (skipn 13 (snd after_day)). vm_compute. auto. Qed.
(** The timer's goroutine is about to read the element it has taken out, the other one at Lock would like to remove one. *)
Lemma day_uses : reads (fst after_day) 0 Mtimer.
Proof.
  exists 0, (put_timer (ls_data (fst after_day)) (timer_new 0)). eexists. eexists. split; [intros [| |s] N; try reflexivity; congruence|]. split; [reflexivity|]. split; [vm_compute; reflexivity|].
  intros (s2 & E & A & _). vm_compute in E. injection E as <-. vm_compute in A. discriminate A.
Qed.

(** ** The key *)
(** A message whose header asks for encryption *)
Definition asking : message := Message (Header 1 1024 0 1 None) (BEnt (E0001 (T0001 125 512 0))).
Lemma switch_out : snd (krun demo_env (Kst (Some 5) (fun _ => KIdle)) (KSend 0 asking 7 :: [KMove 0; KPut 1 None; KMove 1; KMove 0])) = [KWrote 0 asking (codec_send demo_env None 7 None asking)] /\
  codec_send demo_env None 7 None asking <> codec_send demo_env (Some 5) 7 None asking.
Proof. split; [vm_compute; reflexivity|]. vm_compute. discriminate. Qed.
Lemma raced : exists env ops s evs i j, krun env kinit ops = (s, evs) /\ i <> j /\ stores env s i /\ loads env s j.
Proof.
  exists demo_env, [KPut 1 (Some 5); KSend 2 asking 7]. eexists. eexists. exists 1%nat, 2%nat. split; [reflexivity|]. split; [discriminate|]. split.
  - exists None. vm_compute. discriminate.
  - exists None, (Some 5). left. vm_compute. discriminate.
Qed.
