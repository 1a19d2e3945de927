(** Small histories of a server, used as examples and counterexamples. *)
From Verif Require Import Base LibBase Bits Env EntTerm EntPlat Registry Message Timer Session Multipart Server Decimal GoTime.
From Verif Require Import SpecSession SpecMulti SpecTimer SpecServer ProofServer4.

Fixpoint legal_from (pre ops : list sv_op) : Prop :=
  match ops with [] => True | o :: t => legal_op pre o /\ legal_from (pre ++ [o]) t end.
Lemma legal_from_ok ops : legal_from [] ops -> legal ops.
Proof.
  assert (G : forall ops pre, legal_from pre ops -> forall a o b, ops = a ++ o :: b -> legal_op (pre ++ a) o).
  { clear. induction ops as [|x ops IH]; intros pre H a o b E; [destruct a; discriminate|]. cbn in H. destruct H as (H1 & H2). destruct a as [|y a]; cbn in E.
    - injection E as <- _. rewrite app_nil_r. exact H1.
    - injection E as <- E. specialize (IH _ H2 _ _ _ E). rewrite <- app_assoc in IH. exact IH. }
  intros H a o b E. apply (G ops [] H a o b E).
Qed.

Definition opts (mg : bool) : options := Options 60 mg None.
Definition srv (mg : bool) : server := Server mg [] (timer_new 60) empty_fs [] [].
Lemma srv_starts mg : starts (opts mg) [] (srv mg).
Proof. exists empty_fs, []. split; [constructor|]. split; reflexivity. Qed.
(** The history of this server *)
Definition trace_of (mg : bool) (ops : list sv_op) : trace := match sv_run (srv mg) ops with Ok (_, tr) => tr | _ => [] end.
Definition final (mg : bool) (ops : list sv_op) : server := match sv_run (srv mg) ops with Ok (s, _) => s | _ => srv mg end.
Lemma trace_run mg ops : legal ops -> sv_run (srv mg) ops = Ok (final mg ops, trace_of mg ops).
Proof. intros L. unfold final, trace_of. destruct (server_total _ _ _ ops (srv_starts mg) L) as (sv & tr & -> & _). reflexivity. Qed.
Lemma trace_runs mg ops : legal ops -> runs (opts mg) [] ops (trace_of mg ops).
Proof. intros L. exists (srv mg), (final mg ops). split; [apply srv_starts|]. split; auto. apply trace_run. exact L. Qed.

(** A heartbeat, a message without a readable body, a packet of a medium *)
Definition beat (icc n : Z) : message := Message (Header 2 0 icc n None) (BEnt E0002).
Definition strange (icc n : Z) : message := Message (Header 0x0fff 0 icc n None) BNil.
Definition some_loc : t0200 := T0200 0 0 (Dec 0 0) (Dec 0 0) 0 0 0 (GoTime 0 0 0) [].
Definition packet (icc n media sum sq : Z) (data : bytes) : message :=
  Message (Header 0x0801 0x2000 icc n (Some (sum, sq))) (BEnt (E0801 (T0801 (T0800 media 0 0 0 0) some_loc (Some (Rdr data false))))).
Lemma beat_ok icc n : 1 <= icc < 10 ^ 12 -> is_u16 n -> received (beat icc n).
Proof. unfold received, is_u16. cbn. intros. repeat split; try lia. Qed.
Lemma strange_ok icc n : 1 <= icc < 10 ^ 12 -> is_u16 n -> received (strange icc n).
Proof. unfold received, is_u16. cbn. intros. repeat split; try lia. Qed.
Lemma packet_ok icc n media sum sq data : 1 <= icc < 10 ^ 12 -> is_u16 n -> is_u32 media -> is_u16 sum -> is_u16 sq -> received (packet icc n media sum sq data).
Proof. unfold received, is_u16, is_u32. cbn. intros. repeat split; try lia. eauto. Qed.
Ltac wire := first [apply beat_ok | apply strange_ok | apply packet_ok]; unfold is_u16, is_u32; lia.
Ltac lawful := apply legal_from_ok; cbn [legal_from];
  repeat match goal with
         | |- _ /\ legal_from _ _ => split
         | |- _ /\ _ /\ _ => split
         | |- _ /\ True => split
         | |- True => exact I
         | |- legal_op _ (ODeliver _ _ _) => split; [cbn; tauto|first [wire | unfold received, is_u16; cbn; repeat split; lia]]
         | |- legal_op _ _ => cbn; intuition lia
         end.

(** Ordinary traffic of two terminals *)
Definition traffic : list sv_op :=
  [OAddHandler 2 5; OConnect 1 0; OAddCb 1; OConnect 2 3; OAddCb 2; ODeliver 1 10 (beat 138 1); ORequest 2 77 E8104; ODeliver 2 11 (strange 139 1);
   ODeliver 1 50 (beat 138 2); OTick 62; ODeliver 2 63 (Message (Header 1 0 139 2 None) (BEnt (E0001 (T0001 1 0x8104 0)))); OTick 64; OBroadcast E8201; ORunClose 2; OClose 1; ORunClose 1; OTick 200].
Lemma traffic_ok : legal traffic.
Proof. unfold traffic. lawful. Qed.
(** Position [n] of the history *)
Ltac at_step n := match goal with |- exists _ _ _, ?t = _ /\ _ => exists (firstn n t), (snd (nth n t (OTick 0, []))), (skipn (S n) t) end; split; [vm_compute; reflexivity|].

(** An upload of three packets in the order 2, 1, 3, mixed with others *)
Definition film : mpf := Mpf 138 0x0801 7 3.
Definition upload_ops (last : list sv_op) : list sv_op :=
  [OAddHandler 0x0801 9; OConnect 1 0; OAddCb 1; OConnect 2 0; ODeliver 1 1 (packet 138 1 7 3 2 [3; 4]); ODeliver 2 2 (packet 139 1 7 1 1 [99]); ODeliver 1 2 (beat 138 2)] ++ last.
Definition in_order : list sv_op := upload_ops [ODeliver 1 3 (packet 138 3 7 3 1 [1; 2]); OTick 5; ODeliver 2 6 (packet 138 4 7 3 3 [5]); ODeliver 1 7 (beat 138 5)].
Definition out_of_order : list sv_op := upload_ops [ODeliver 1 3 (packet 138 3 7 3 3 [5]); OTick 5; ODeliver 2 6 (packet 138 4 7 3 1 [1; 2]); ODeliver 1 7 (beat 138 5)].
Definition repeated : list sv_op := upload_ops [ODeliver 1 3 (packet 138 3 7 3 1 [1; 2]); ODeliver 1 3 (packet 138 4 7 3 3 [5]); ODeliver 1 4 (packet 138 4 7 3 3 [5])].
Lemma in_order_ok : legal in_order. Proof. unfold in_order, upload_ops. cbn [app]. lawful. Qed.
Lemma out_of_order_ok : legal out_of_order. Proof. unfold out_of_order, upload_ops. cbn [app]. lawful. Qed.
Lemma repeated_ok : legal repeated. Proof. unfold repeated, upload_ops. cbn [app]. lawful. Qed.
