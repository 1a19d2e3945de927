(** Two terminals at the same time, used as examples. *)
From Verif Require Import Base LibBase Bits Env EntTerm EntPlat Registry Message Codec Timer Session Multipart Server Host.
From Verif Require Import SpecGeo SpecEntity SpecMsg SpecStream SpecSession SpecMulti SpecTimer SpecServer SpecHost SpecAlone Demo DemoServer DemoHost.
From Verif Require Import DemoWorld.

(** Both upload two packets, each in turn doing what it can; then a broadcast and a tick that closes both *)
Definition moving (id : Z) : list host_op := [HTurn id 5 (Avail 40); HTake id; HWrite id 0 None].
Definition rounds (n : nat) : list host_op := concat (repeat (moving 1 ++ moving 2) n).
Definition together : list host_op :=
  [HOp (OAddHandler 0x0801 9); HOp (OConnect 1 0); HOp (OConnect 2 1); HOp (OAddCb 1); HOp (OAddCb 2);
   HArrive 1 first_upload; HArrive 2 second_upload] ++ rounds 9 ++ [HOp (OBroadcast E8104)] ++ rounds 2 ++ [HOp (OTick 70); HOp (ORunClose 2); HOp (ORunClose 1)].
(** Terminal 2 uses the number of terminal 1: it stores the first packet, the other the second. *)
Definition mixed : list host_op :=
  [HOp (OAddHandler 0x0801 9); HOp (OConnect 1 0); HOp (OConnect 2 1);
   HArrive 2 (bytes_of (packet 138 1 7 2 1 [1; 2]))] ++ rounds 4 ++ [HArrive 1 (bytes_of (packet 138 2 7 2 2 [3]))] ++ rounds 4.
Definition hrun_mg (ops : list host_op) := host_run demo_env None (Host (srv true) []) ops.
Definition htrace_mg (ops : list host_op) : htrace := match hrun_mg ops with Ok (_, tr) => tr | _ => [] end.
Definition hfinal_mg (ops : list host_op) : host := match hrun_mg ops with Ok (h, _) => h | _ => Host (srv true) [] end.

Definition legal_b (pre : list Z) (toks : list Z) (o : host_op) : bool :=
  match o with
  | HOp (OConnect id _) => negb (existsb (Z.eqb id) pre)
  | HOp (ORequest _ tok _) => negb (existsb (Z.eqb tok) toks)
  | HOp (ODeliver _ _ _) | HOp (OQueue _ _) => false
  | HArrive id d => existsb (Z.eqb id) pre && forallb (fun b => (0 <=? b) && (b <? 256)) d
  | _ => true
  end.
Fixpoint legal_run (pre : list host_op) (ops : list host_op) : bool :=
  match ops with [] => true | o :: t => legal_b (accepted pre) (requested pre) o && legal_run (pre ++ [o]) t end.
Lemma legal_run_ok ops : legal_run [] ops = true -> hlegal ops.
Proof.
  intros H. apply hlegal_from_ok. revert H. generalize (@nil host_op) as pre. induction ops as [|o ops IH]; intros pre; cbn [legal_run hlegal_from]; auto.
  intros H. apply andb_prop in H. destruct H as (A & B). split; auto. clear - A.
  assert (N : forall x l, negb (existsb (Z.eqb x) l) = true -> ~ In x l).
  { intros x l E I. apply negb_true_iff in E. assert (existsb (Z.eqb x) l = true) by (apply existsb_exists; exists x; split; auto; apply Z.eqb_refl). congruence. }
  destruct o as [op|i d|i now r|i|i rnd wr|i|i kk]; cbn in *; auto.
  - destruct op; cbn in *; auto; discriminate.
  - apply andb_prop in A. destruct A as (A & B). apply existsb_exists in A. destruct A as (y & I & E). assert (i = y) as -> by lia. split; auto.
    rewrite forallb_forall in B. apply Forall_forall. intros b Ib. specialize (B b Ib). unfold is_byte. lia.
Qed.
Lemma mg_runs ops : legal_run [] ops = true -> match hrun_mg ops with Ok _ => true | _ => false end = true ->
  hruns demo_env None (opts true) [] ops (hfinal_mg ops) (htrace_mg ops).
Proof.
  intros L O. exists (srv true). split; [apply srv_starts|]. split; [exact I|]. split; [apply legal_run_ok; exact L|].
  unfold hfinal_mg, htrace_mg, hrun_mg in *. destruct (host_run _ _ _ ops) as [[h tr]|e|]; [reflexivity|discriminate|discriminate].
Qed.
Lemma together_runs : hruns demo_env None (opts true) [] together (hfinal_mg together) (htrace_mg together).
Proof. apply mg_runs; vm_compute; reflexivity. Qed.
(** The number under which each connection uploads *)
Definition numbers_ok (f : Z -> Z) (tr : htrace) : bool :=
  forallb (fun o => match o with ODeliver i _ m => h_icc (m_hdr m) =? f i | _ => true end) (ops_of (inner tr)).
Lemma numbers_apart f id tr : numbers_ok f tr = true -> (forall i, In i (map (fun x => match fst x with ODeliver i _ _ => i | _ => id end) (inner tr)) -> i <> id -> f i <> f id) -> different_numbers id tr.
Proof.
  unfold numbers_ok. rewrite forallb_forall. intros N D i icc NE (now & m & e & I1 & _ & _ & E1) (now' & m' & e' & I2 & _ & _ & E2).
  pose proof (N _ I1) as A. pose proof (N _ I2) as B. cbn in A, B. apply (D i); auto; [|lia].
  unfold ops_of in I2. apply in_map_iff in I2. destruct I2 as (x & X & IX). apply in_map_iff. exists x. rewrite X. auto.
Qed.
Lemma together_apart : different_numbers 1 (htrace_mg together).
Proof.
  apply (numbers_apart (fun i => if i =? 1 then 138 else 139)); [vm_compute; reflexivity|]. intros i _ NE. destruct (Z.eqb_spec i 1); [contradiction|]. cbn. lia.
Qed.
(** What terminal 1 notices: its packets, the answers, the file, the broadcast and the end *)
Lemma together_seen : length (experience 1 (htrace_mg together)) = 13%nat /\ length (filter (fun s => match s with Got _ _ => true | _ => false end) (experience 1 (htrace_mg together))) = 2%nat /\
  existsb (fun s => match s with Did (SvHandle _ 9 m) => match m_body m with BEnt (E0801 e) => match a0801_packet e with Some r => Z.eqb (zlen (rdr_data r)) 3 | None => false end | _ => false end | _ => false end) (experience 1 (htrace_mg together)) = true.
Proof. vm_compute. auto. Qed.
(** With the same number on two connections, the packet of one completes the upload of the other. *)
Lemma mixed_disturbed : exists env key o prior ops h tr h' tr' id, hruns env key o prior ops h tr /\ hruns env key o prior (alone id ops) h' tr' /\ experience id tr' <> experience id tr.
Proof.
  exists demo_env, None, (opts true), [], mixed, (hfinal_mg mixed), (htrace_mg mixed), (hfinal_mg (alone 1 mixed)), (htrace_mg (alone 1 mixed)), 1.
  split; [apply mg_runs; vm_compute; reflexivity|]. split; [apply mg_runs; vm_compute; reflexivity|]. intros E. apply (f_equal (@length seen)) in E. vm_compute in E. discriminate.
Qed.
