(** A small history of a whole process, used as an example. *)
From Verif Require Import Base LibBase Bits Env EntTerm EntPlat Registry Message Codec Timer Session Multipart Server Host.
From Verif Require Import SpecGeo SpecEntity SpecMsg SpecStream SpecSession SpecMulti SpecTimer SpecServer Demo DemoServer ProofStream2 SpecHost.

Fixpoint hlegal_from (pre ops : list host_op) : Prop :=
  match ops with [] => True | o :: t => hlegal_op pre o /\ hlegal_from (pre ++ [o]) t end.
Lemma hlegal_from_ok ops : hlegal_from [] ops -> hlegal ops.
Proof.
  assert (G : forall ops pre, hlegal_from pre ops -> forall a o b, ops = a ++ o :: b -> hlegal_op (pre ++ a) o).
  { clear. induction ops as [|x ops IH]; intros pre H a o b E; [destruct a; discriminate|]. cbn in H. destruct H as (H1 & H2). destruct a as [|y a]; cbn in E.
    - injection E as <- _. rewrite app_nil_r. exact H1.
    - injection E as <- E. specialize (IH _ H2 _ _ _ E). rewrite <- app_assoc in IH. exact IH. }
  intros H a o b E. apply (G ops [] H a o b E).
Qed.
(** Turns are always possible. *)
Lemma hlegal_turns ops id now r n : hlegal ops -> hlegal (ops ++ repeat (HTurn id now r) n).
Proof.
  intros L pre p post E. induction n as [|n IH] in pre, p, post, E |- *.
  - cbn in E. rewrite app_nil_r in E. eapply L; eauto.
  - change (S n) with (1 + n)%nat in E. rewrite Nat.add_comm, repeat_app in E. cbn [repeat] in E. destruct post as [|y post] using rev_ind.
    + rewrite app_assoc in E. apply app_inj_tail in E. destruct E as (_ & <-). exact I.
    + clear IHpost. change (pre ++ p :: post ++ [y]) with (pre ++ (p :: post) ++ [y]) in E. rewrite !app_assoc in E. apply app_inj_tail in E. destruct E as (E & _). eapply IH. exact E.
Qed.
(** The process started with the options of DemoServer *)
Definition hrun (key : option Z) (ops : list host_op) := host_run demo_env key (Host (srv false) []) ops.
Definition htrace_of (ops : list host_op) : htrace := match hrun None ops with Ok (_, tr) => tr | _ => [] end.
Definition hfinal (ops : list host_op) : host := match hrun None ops with Ok (h, _) => h | _ => Host (srv false) [] end.

(** A terminal connects and sends a heartbeat and an unknown message in pieces;
    the server handles the first, answers the second and sends two more. *)
Definition beat_frame : bytes := [0; 2; 0; 0; 1; 56; 0; 19; 128; 0; 0; 7; 175].
Definition two_frames : bytes := around beat_frame ++ around demo_frame.
Lemma two_good : Forall2 (good_frame demo_env None) [beat_frame; demo_frame] [beat 13800138000 7; demo_msg].
Proof. constructor; [|constructor; [exact demo_good|constructor]]. split; [cbv; intuition congruence|]. split; [cbv; congruence|]. vm_compute. reflexivity. Qed.
Definition call : list host_op :=
  [HOp (OAddHandler 2 5); HOp (OConnect 1 0); HOp (OAddCb 1); HArrive 1 (firstn 7 two_frames); HTurn 1 1 (Avail 3); HArrive 1 (skipn 7 two_frames)].
Definition listen : list host_op := repeat (HTurn 1 2 (Avail 9)) 100.
Definition talk : list host_op := [HOp (ORequest 1 77 E8104); HOp (OSendTo 1 E8201)].
Lemma demo_bytes : bytes_ok two_frames.
Proof. unfold two_frames. cbn. repeat (constructor; [cbv; intuition congruence|]). constructor. Qed.
Lemma call_ok : hlegal call.
Proof.
  apply hlegal_from_ok. cbn [call hlegal_from]. pose proof demo_bytes as B. rewrite <- (firstn_skipn 7 two_frames) in B. apply bytes_ok_app in B. destruct B as (B1 & B2).
  repeat match goal with |- _ /\ _ => split end; try exact I; try (cbn; intuition lia); assumption.
Qed.
Lemma calls_ok : hlegal (call ++ listen).
Proof. apply hlegal_turns, call_ok. Qed.
Lemma hlegal_snoc a x : hlegal a -> hlegal_op a x -> hlegal (a ++ [x]).
Proof.
  intros L H pre p post E. destruct post as [|y post] using rev_ind.
  - apply app_inj_tail in E. destruct E as (-> & ->). exact H.
  - clear IHpost. change (pre ++ p :: post ++ [y]) with (pre ++ (p :: post) ++ [y]) in E. rewrite app_assoc in E. apply app_inj_tail in E. destruct E as (-> & _). eapply L. reflexivity.
Qed.
Lemma talk_ok : hlegal ((call ++ listen) ++ talk).
Proof.
  change talk with ([HOp (ORequest 1 77 E8104)] ++ [HOp (OSendTo 1 E8201)]). rewrite app_assoc. apply hlegal_snoc; [|exact I]. apply hlegal_snoc; [apply calls_ok|]. cbn [hlegal_op]. intros X. vm_compute in X. exact X.
Qed.
Lemma demo_runs ops h tr : hlegal ops -> hrun None ops = Ok (h, tr) -> hruns demo_env None (opts false) [] ops h tr.
Proof. intros L R. exists (srv false). split; [apply srv_starts|]. split; [exact I|]. split; auto. Qed.
