(** The whole process goroutine by goroutine: uploads on different sessions do not disturb each other. *)
From Verif Require Import Base LibBase Bits LibBits Env EntTerm EntPlat Registry Message Codec Timer Session Multipart Server Host Overlap Fine World.
From Verif Require Import SpecGeo SpecEntity SpecMsg SpecStream SpecSession SpecMulti SpecTimer SpecServer SpecHost SpecOverlap SpecFine SpecWorld.
From Verif Require Import ProofOverlap ProofOverlap2 ProofHost ProofFine ProofFine2 ProofFine6 ProofFine7 ProofFine13 ProofWorld ProofWorld2 ProofWorld3.

(** ** Where the goroutine of a session is with a packet *)
Definition phase (p : option gpc) : nat :=
  match p with
  | Some (GStore _) => 1
  | Some (GReply _ (Some _)) | Some (GSend _ (Some _)) | Some (GMerge _) => 2
  | _ => 0
  end.
Definition early (k : task) : Prop := match k with TMkdir _ | TTrunc _ | TFill _ => True | _ => False end.
Definition late (k : task) : Prop := match k with TCheck _ | TOpen _ | TCreate _ _ | TCopy _ _ _ | TRead _ => True | _ => False end.

Lemma act_eq w op w' ev : act w op = Ok (w', ev) -> exists s1 e, fstep (wo_fine w) op = Ok (s1, e) /\ ev = map WFine e /\ wo_fs w' = wo_fs w /\ wo_up w' = wo_up w /\ forall id, pc_of (wo_fine w') id = pc_of s1 id.
Proof.
  unfold act. destruct (fstep (wo_fine w) op) as [[s1 e]| |] eqn:E; try discriminate. cbn [bind]. fold (queue_ops (fold_left put_in e (wo_conns w)) e).
  destruct (queue_run (fold_left put_in e (wo_conns w)) e s1) as (s2 & Q & GQ). rewrite Q. cbn [bind]. intros X. injection X as <- <-. exists s1, e. rewrite app_nil_r.
  do 4 (split; [reflexivity|]). intros id. cbn [wo_fine]. unfold pc_of. rewrite GQ. destruct (fobj_get (fi_objs s1) id) as [o|]; [|auto]. cbn [option_map]. unfold refilled. destruct (handed id e); auto. destruct (conn_get _ id); auto.
Qed.
Definition pc_in (l : list (Z * fobj)) (id : Z) : option gpc := match fobj_get l id with Some o => Some (fo_pc o) | None => None end.
Lemma phase_set l i o o' id : fobj_get l i = Some o -> (i = id -> phase (Some (fo_pc o')) = phase (Some (fo_pc o))) -> phase (pc_in (fobj_set l i o') id) = phase (pc_in l id).
Proof. intros G P. unfold pc_in. rewrite fobj_get_set. destruct (Z.eqb_spec i id) as [<-|]; [|reflexivity]. rewrite G. auto. Qed.
Lemma phase_does s e s' id : does s e s' -> got_by id e = [] -> results id e = [] -> phase (pc_of s' id) = phase (pc_of s id).
Proof.
  intros D G R. change (phase (pc_in (fi_objs s') id) = phase (pc_in (fi_objs s) id)). destruct D;
    cbn [fi_objs set_fobj set_tc set_freg set_casts set_tick count_tok];
    try reflexivity; try (eapply phase_set; [eassumption|]; cbn [fo_pc at_pc with_cfg fshut at_close]; try reflexivity; try match goal with H : fo_pc _ = _ |- _ => rewrite H end; cbn [phase go_on]; try reflexivity; try (destruct k; reflexivity); try (destruct p; reflexivity); try (destruct h; reflexivity); try (destruct (taken _ _); reflexivity)).
  - unfold pc_in. rewrite fobj_get_set. destruct (Z.eqb_spec id0 id) as [<-|]; [rewrite H|]; reflexivity.
  - intros ->. cbn in G. rewrite Z.eqb_refl in G. discriminate.
  - intros ->. cbn in R. rewrite Z.eqb_refl in R. discriminate.
  - intros ->. cbn in R. rewrite Z.eqb_refl in R. discriminate.
  - unfold pc_in. rewrite !fobj_get_set. destruct (Z.eqb_spec id0 id) as [<-|]; [rewrite H; cbn; rewrite H0|]; reflexivity.
  - unfold returned in H3. cbn [fo_pc with_cfg] in H3. intros _. destruct (fo_pc o) as [| | | | | | |t0 p| | | | | | |] eqn:Po;
      try (injection H3 as <- <-; destruct closes; cbn [fo_pc fshut with_cfg]; rewrite Po; reflexivity).
    destruct (t0 =? tok); injection H3 as <- <-; destruct closes; cbn [fo_pc fshut with_cfg at_pc]; rewrite ?Po; destruct p; reflexivity.
Qed.
Lemma phase_step s op s1 e id : fstep s op = Ok (s1, e) -> (forall m, op <> FRecv id m) -> (forall b, op <> FStored id b) -> (forall c, op <> FMerged id c) -> phase (pc_of s1 id) = phase (pc_of s id).
Proof.
  intros E N1 N2 N3. destruct (fstep_events s op s1 e id E) as (G & _ & _ & R). specialize (G N1). specialize (R N2 N3).
  assert (D : (s1 = s /\ e = []) \/ does s e s1 \/ exists i m o o' p, op = FRecv i m /\ fobj_get (fi_objs s) i = Some o /\ s1 = set_fobj s i (at_pc o' p)).
  { assert (GD : good_op op \/ exists i m, op = FRecv i m) by (destruct op; cbn; eauto).
    destruct GD as [GD|(id0 & m & ->)]; [destruct (fstep_does s _ s1 e GD E) as [X|X]; [left; exact X|right; left; exact X]|]. cbn [fstep] in E. destruct (fobj_get (fi_objs s) id0) as [o|] eqn:Go; [|injection E as <- <-; auto]. destruct (fo_pc o); try (injection E as <- <-; auto; fail).
    destruct (on_message (fi_auto s) m) as [p| |]; try discriminate. cbn [bind] in E. injection E as <- <-. right. right. exists id0, m, o, o, p. auto. }
  destruct D as [(-> & _)|[D|(i & m & o & o' & p & -> & Go & ->)]]; [reflexivity|eapply phase_does; eauto|].
  change (phase (pc_in (fobj_set (fi_objs s) i (at_pc o' p)) id) = phase (pc_in (fi_objs s) id)). eapply phase_set; eauto. intros ->. destruct (N1 m eq_refl).
Qed.

(** ** One packet *)
Lemma turn_snoc f ps g os p g' o : in_turn f ps g os -> at_once g p g' o -> in_turn f (ps ++ [p]) g' (os ++ [o]).
Proof. induction 1; intros A; cbn [app]; [econstructor; [exact A|constructor]|econstructor; eauto]. Qed.
Lemma step_todo f t : th_at t <> TIdle -> th_todo (snd (thread_step f t)) = th_todo t.
Proof.
  destruct t as [todo a out]. unfold thread_step. cbn [th_at th_todo th_out]. intros N. destruct a as [|p|p|p|m|m|m ns|m ns off|m]; cbn [snd th_todo]; auto; try contradiction.
  - destruct (negb _); reflexivity.
  - destruct (negb _); reflexivity.
  - destruct (fold_left _ _ _); reflexivity.
  - destruct ns; reflexivity.
Qed.
Lemma early_step f t : early (th_at t) -> let t' := snd (thread_step f t) in
  (early (th_at t') /\ th_out t' = th_out t) \/ (late (th_at t') /\ th_out t' = th_out t) \/ (th_at t' = TIdle /\ (th_out t' = th_out t ++ [OFail] \/ th_out t' = th_out t ++ [OKept])).
Proof.
  destruct t as [todo a out]. unfold thread_step. cbn [th_at th_todo th_out]. intros N. destruct a as [|p|p|p|m|m|m ns|m ns off|m]; try contradiction; cbn [snd th_todo].
  - destruct (negb _); cbn; auto.
  - cbn; auto.
  - destruct (negb _); cbn; auto.
Qed.
Lemma late_step f t : late (th_at t) -> let t' := snd (thread_step f t) in
  (late (th_at t') /\ th_out t' = th_out t) \/ (th_at t' = TIdle /\ exists o, o <> OFail /\ th_out t' = th_out t ++ [o]).
Proof.
  destruct t as [todo a out]. unfold thread_step. cbn [th_at th_todo th_out]. intros N. destruct a as [|p|p|p|m|m|m ns|m ns off|m]; try contradiction; cbn [snd th_todo].
  - destruct (fold_left _ _ _); cbn; auto. right. split; auto. exists OKept. split; [discriminate|auto].
  - cbn; auto.
  - cbn; auto.
  - destruct ns; cbn; auto.
  - cbn. right. split; auto. eexists. split; [|reflexivity]. discriminate.
Qed.
Lemma late_steps k : forall f t f' os, late (th_at t) -> th_todo t = [] -> steps k f t = (f', Thread [] TIdle os) -> exists o, o <> OFail /\ os = th_out t ++ [o].
Proof.
  induction k as [|k IH]; intros f t f' os L T E; cbn [steps] in E.
  - injection E as _ E. rewrite E in L. contradiction.
  - pose proof (late_step f t L) as H. pose proof (step_todo f t) as T'. destruct (thread_step f t) as [f1 t1]. cbn [snd] in *. destruct H as [(L1 & O1)|(A & o & N & O1)].
    + rewrite <- O1. eapply IH; eauto. rewrite T'; auto. intros X. rewrite X in L. contradiction.
    + assert (T1 : t1 = Thread [] TIdle (th_out t ++ [o])). { destruct t1; cbn in *. rewrite A, O1, T', T; auto. intros X. rewrite X in L. contradiction. }
      rewrite T1, steps_end in E. injection E as _ <-. eauto.
Qed.
Lemma one_packet g0 p out k g os : fs_ok g0 -> packet_ok p -> steps k g0 (Thread [p] TIdle out) = (g, Thread [] TIdle os) -> exists o, at_once g0 p g o /\ fs_ok g /\ os = out ++ [o].
Proof.
  intros K P E. destruct (packet_alone g0 p [] out K P) as (k' & f' & o & A & F & E'). exists o.
  assert (X : (g, Thread [] TIdle os) = (f', Thread [] TIdle (out ++ [o]))).
  { transitivity (steps (k + k') g0 (Thread [p] TIdle out)); [rewrite steps_app, E, steps_end; reflexivity|]. rewrite Nat.add_comm, steps_app, E', steps_end. reflexivity. }
  injection X as -> ->. auto.
Qed.
Lemma steps_snoc k f t f1 t1 : steps k f t = (f1, t1) -> steps (k + 1) f t = thread_step f1 t1.
Proof. intros E. rewrite steps_app, E. cbn [steps]. destruct (thread_step f1 t1); reflexivity. Qed.

(** ** The invariant *)
Section Uploads.
Variables (merging : bool) (ka : Z) (f0 : fs) (O : Z -> packet -> Prop).
Hypothesis OK : forall id p, O id p -> packet_ok p.
Hypothesis AP : forall i j p q, i <> j -> O i p -> O j q -> same_upload (pk_up p) (pk_up q) = false.
Definition uinv (evs : list wevent) (w : world) (id : Z) : Prop :=
  exists ps0 g0 out0, fs_ok g0 /\ in_turn f0 ps0 g0 out0 /\
  ((packets merging id (inside evs) = ps0 /\ wo_up w id = Thread [] TIdle out0 /\ agree (O id) (wo_fs w) g0 /\
    ((phase (pc_of (wo_fine w) id) = 0%nat /\ results id (inside evs) = flat_map (shown id) out0) \/
     (phase (pc_of (wo_fine w) id) = 2%nat /\ exists o', out0 = o' ++ [OKept] /\ results id (inside evs) = flat_map (shown id) o' ++ [XStored id true]))) \/
   exists p k g, packets merging id (inside evs) = ps0 ++ [p] /\ steps k g0 (Thread [p] TIdle out0) = (g, wo_up w id) /\ agree (O id) (wo_fs w) g /\ tinv (O id) (wo_up w id) /\
     O id p /\ th_todo (wo_up w id) = [] /\ th_out (wo_up w id) = out0 /\
     ((phase (pc_of (wo_fine w) id) = 1%nat /\ early (th_at (wo_up w id)) /\ results id (inside evs) = flat_map (shown id) out0) \/
      (phase (pc_of (wo_fine w) id) = 2%nat /\ late (th_at (wo_up w id)) /\ results id (inside evs) = flat_map (shown id) out0 ++ [XStored id true]))).
Lemma u_same evs w evs' w' id : uinv evs w id -> packets merging id (inside evs') = packets merging id (inside evs) -> results id (inside evs') = results id (inside evs) ->
  wo_up w' id = wo_up w id -> (forall g, agree (O id) (wo_fs w) g -> agree (O id) (wo_fs w') g) -> phase (pc_of (wo_fine w') id) = phase (pc_of (wo_fine w) id) -> uinv evs' w' id.
Proof.
  intros (ps0 & g0 & out0 & F & T & H) E1 E2 E3 E4 E5. exists ps0, g0, out0. split; auto. split; auto. rewrite E1, E2, E3, E5. destruct H as [(H1 & H2 & H3 & H4)|(p & k & g & H1 & H2 & H3 & H4)]; [left; auto|].
  right. exists p, k, g. auto.
Qed.
Lemma u_prefix evs w id : uinv evs w id -> exists f' os, in_turn f0 (packets merging id (inside evs)) f' os /\ is_prefix (results id (inside evs)) (flat_map (shown id) os).
Proof.
  intros (ps0 & g0 & out0 & F & T & [(H1 & H2 & H3 & H4)|(p & k & g & H1 & H2 & H3 & H4 & H5 & H6 & H7 & H8)]).
  - exists g0, out0. rewrite H1. split; auto. destruct H4 as [(_ & ->)|(_ & o' & -> & ->)]; [exists []; rewrite app_nil_r; reflexivity|]. exists [XMerged id None]. rewrite flat_map_app, <- app_assoc. reflexivity.
  - destruct (packet_alone g0 p [] out0 F (OK _ _ H5)) as (k' & f' & o & A & F' & E'). exists f', (out0 ++ [o]). rewrite H1. split; [eapply turn_snoc; eauto|]. rewrite flat_map_app. cbn [flat_map]. rewrite app_nil_r.
    destruct H8 as [(_ & _ & ->)|(_ & L & ->)]; [eexists; reflexivity|].
    assert (N : o <> OFail).
    { destruct (le_lt_dec k' k) as [LE|LT].
      - replace k with (k' + (k - k'))%nat in H2 by lia. rewrite steps_app, E', steps_end in H2. injection H2 as _ H2. rewrite <- H2 in L. contradiction.
      - replace k' with (k + (k' - k))%nat in E' by lia. rewrite steps_app, H2 in E'. destruct (late_steps _ _ _ _ _ L H6 E') as (o1 & N & X). rewrite H7 in X. apply app_inj_tail in X as (_ & ->). exact N. }
    destruct o; [contradiction|exists [XMerged id None]; rewrite <- app_assoc; reflexivity|exists [XMerged id (Some c)]; rewrite <- app_assoc; reflexivity].
Qed.

(** ** Steps *)
Lemma packets_app id a b : packets merging id (a ++ b) = packets merging id a ++ packets merging id b.
Proof. unfold packets. rewrite got_app. apply flat_map_app. Qed.
Lemma results_app id a b : results id (a ++ b) = results id a ++ results id b.
Proof. apply filter_app. Qed.
Lemma packets_none id e : got_by id e = [] -> packets merging id e = [].
Proof. unfold packets. intros ->. reflexivity. Qed.
Lemma u_act evs pre w w0 op w' ev : (forall id, uinv evs w id) -> wo_fine w0 = wo_fine w -> wo_fs w0 = wo_fs w -> wo_up w0 = wo_up w -> inside pre = [] ->
  act w0 op = Ok (w', ev) -> (forall id m, op <> FRecv id m) -> (forall id b, op <> FStored id b) -> (forall id c, op <> FMerged id c) -> forall id, uinv (evs ++ pre ++ ev) w' id.
Proof.
  intros U E1 E2 E3 P A N1 N2 N3 id. destruct (act_eq _ _ _ _ A) as (s1 & e & E & -> & F1 & F2 & F3). rewrite E1 in E. destruct (fstep_events _ _ _ _ id E) as (G & _ & _ & R).
  apply (u_same evs w); auto.
  - rewrite !inside_app, inside_fine, P. cbn [app]. rewrite packets_app, (packets_none id e), app_nil_r; auto.
  - rewrite !inside_app, inside_fine, P. cbn [app]. rewrite results_app, R, app_nil_r; auto.
  - rewrite F2, E3. reflexivity.
  - rewrite F1, E2. auto.
  - rewrite F3. eapply phase_step; eauto.
Qed.
Lemma u_quiet evs pre w w' : (forall id, uinv evs w id) -> wo_fine w' = wo_fine w -> wo_fs w' = wo_fs w -> wo_up w' = wo_up w -> inside pre = [] -> forall id, uinv (evs ++ pre) w' id.
Proof. intros U E1 E2 E3 P id. apply (u_same evs w); auto; rewrite ?inside_app, ?P, ?app_nil_r, ?E1, ?E2, ?E3; auto. Qed.
Lemma part_cases m p : received m -> on_message merging m = Ok p ->
  match part_of merging m with
  | Some (mf, sq, data) => p = GStore m /\ packet_of m = Some (Packet mf sq data)
  | None => phase (Some p) = 0%nat
  end.
Proof.
  intros (_ & _ & _ & HP & _ & MB) E. unfold on_message in E. unfold part_of, packet_of. destruct (m_body m) as [|n|b] eqn:B; try (injection E as <-; destruct (h_packet (m_hdr m)) as [[]|]; reflexivity).
  destruct (h_packet (m_hdr m)) as [[sum sq]|] eqn:HK.
  - assert (PK : is_enable_packet (h_prop (m_hdr m)) = true). { rewrite is_enable_packet_bit. destruct HP as (_ & _ & HP). exact HP. }
    rewrite PK in E. cbn [negb] in E. rewrite orb_false_r in E. destruct merging; cbn [negb] in E.
    + destruct b; try (injection E as <-; reflexivity). destruct MB as (_ & _ & data & MB). rewrite MB in *. injection E as <-. split; reflexivity.
    + injection E as <-. destruct b; reflexivity.
  - assert (PK : is_enable_packet (h_prop (m_hdr m)) = false) by (rewrite is_enable_packet_bit; exact HP).
    rewrite PK in E. cbn [negb] in E. rewrite orb_true_r in E. injection E as <-. reflexivity.
Qed.
Lemma u_recv evs w c id m w1 ev : (forall i, uinv evs w i) -> fi_auto (wo_fine w) = merging -> pc_of (wo_fine w) id = Some GRecv -> act (set_wconn w id c) (FRecv id m) = Ok (w1, ev) -> received m ->
  (forall i p, In p (packets merging i (inside (evs ++ ev))) -> O i p) -> forall i, uinv (evs ++ ev) (begin_upload w1 id) i.
Proof.
  intros U AU PC A RM IN i. destruct (act_eq _ _ _ _ A) as (s1 & e & E & -> & F1 & F2 & F3). cbn [set_wconn wo_fine wo_fs wo_up] in *. pose proof E as E0. cbn [fstep] in E0. unfold pc_of in PC.
  destruct (fobj_get (fi_objs (wo_fine w)) id) as [o|] eqn:Go; [|discriminate]. injection PC as PC. rewrite PC, AU in E0. destruct (on_message merging m) as [p| |] eqn:OM; try discriminate. cbn [bind] in E0. injection E0 as <- <-.
  pose proof (part_cases m p RM OM) as PK.
  assert (P1 : pc_of (wo_fine w1) id = Some p). { rewrite F3. unfold pc_of. rewrite set_fobj_get, Z.eqb_refl. reflexivity. }
  destruct (Z.eq_dec i id) as [->|N].
  - specialize (U id). destruct U as (ps0 & g0 & out0 & F & T & H).
    assert (P0 : phase (pc_of (wo_fine w) id) = 0%nat) by (unfold pc_of; rewrite Go, PC; reflexivity). rewrite P0 in H.
    destruct H as [(H1 & H2 & H3 & [(_ & H4)|(X & _)])|(q & k & g & _ & _ & _ & _ & _ & _ & _ & [(X & _)|(X & _)])]; try discriminate.
    assert (PE : packets merging id (inside (evs ++ map WFine [XRecv id m])) = ps0 ++ match part_of merging m with Some (mf, sq, data) => [Packet mf sq data] | None => [] end).
    { rewrite inside_app, inside_fine, packets_app, H1. f_equal. unfold packets. cbn [got_by flat_map]. rewrite Z.eqb_refl. cbn [app flat_map]. rewrite app_nil_r. reflexivity. }
    assert (RE : results id (inside (evs ++ map WFine [XRecv id m])) = flat_map (shown id) out0). { rewrite inside_app, inside_fine, results_app, H4. cbn. apply app_nil_r. }
    exists ps0, g0, out0. split; auto. split; auto. unfold begin_upload. rewrite P1. destruct (part_of merging m) as [[[mf sq] data]|].
    + destruct PK as (-> & ->). right. exists (Packet mf sq data), 1%nat, g0. cbn [set_up wo_up wo_fs wo_fine]. rewrite Z.eqb_refl. rewrite PE, RE, F1, F2, H2.
      assert (OP : O id (Packet mf sq data)) by (apply IN; rewrite PE; apply in_app_iff; right; left; reflexivity).
      split; [reflexivity|]. split; [reflexivity|]. split; [exact H3|]. cbn [th_out th_todo th_at]. split; [split; [constructor|exact OP]|]. split; [exact OP|]. split; [reflexivity|]. split; [reflexivity|].
      left. split; [rewrite P1; reflexivity|]. split; [exact Logic.I|reflexivity].
    + left. rewrite PE, app_nil_r, RE. assert (BU : match p with GStore m0 => match packet_of m0 with Some p0 => set_up w1 id (wo_fs w1) (Thread [] (TMkdir p0) (th_out (wo_up w1 id))) | None => w1 end | _ => w1 end = w1) by (destruct p; try reflexivity; discriminate).
      rewrite BU, F1, F2, P1, PK. split; [reflexivity|]. split; [exact H2|]. split; [exact H3|]. left. auto.
  - assert (X : uinv (evs ++ map WFine [XRecv id m]) w1 i).
    { apply (u_same evs w); auto.
      - rewrite inside_app, inside_fine, packets_app. unfold packets at 2. cbn [got_by flat_map]. replace (id =? i) with false by lia. cbn. apply app_nil_r.
      - rewrite inside_app, inside_fine, results_app. cbn. apply app_nil_r.
      - rewrite F2. reflexivity.
      - rewrite F1. auto.
      - rewrite F3. unfold pc_of. rewrite set_fobj_get. destruct (Z.eqb_spec id i); [congruence|reflexivity]. }
    unfold begin_upload. rewrite P1. destruct p; auto. destruct (packet_of m0); auto. apply (u_same _ _ _ _ _ X); auto. cbn [set_up wo_up]. destruct (Z.eqb_spec i id); [contradiction|]. destruct (Z.eqb_spec id i); [congruence|]. reflexivity.
Qed.

(** An access of a session to the files *)
Lemma foreign_agree i id f t g : i <> id -> tinv (O id) t -> agree (O i) f g -> agree (O i) (fst (thread_step f t)) g.
Proof.
  intros N I [P A]. destruct (other_step (O id) (O i) f t (OK id) (OK i) (fun p q => AP id i p q (not_eq_sym N)) I) as [Q1 Q2]. split; [congruence|]. intros m U. rewrite Q2 by exact U. apply A, U.
Qed.
Lemma u_others evs ev w w' id f : (forall i, uinv evs w i) -> tinv (O id) (wo_up w id) -> f = fst (thread_step (wo_fs w) (wo_up w id)) -> wo_fs w' = f -> (forall i, i <> id -> wo_up w' i = wo_up w i) ->
  (forall i, i <> id -> got_by i (inside ev) = [] /\ results i (inside ev) = [] /\ phase (pc_of (wo_fine w') i) = phase (pc_of (wo_fine w) i)) -> uinv (evs ++ ev) w' id -> forall i, uinv (evs ++ ev) w' i.
Proof.
  intros U TI FE E1 E2 E3 UI i. destruct (Z.eq_dec i id) as [->|N]; [exact UI|]. destruct (E3 i N) as (G & R & P). apply (u_same evs w); auto.
  - rewrite inside_app, packets_app, (packets_none i (inside ev)), app_nil_r; auto.
  - rewrite inside_app, results_app, R, app_nil_r; auto.
  - rewrite E1, FE. intros g A. apply foreign_agree with (id := id); auto.
Qed.
Lemma acted_own w0 id op w' ev s1 e : act w0 op = Ok (w', ev) -> fstep (wo_fine w0) op = Ok (s1, e) -> (exists b, op = FStored id b) \/ (exists c, op = FMerged id c) ->
  ev = map WFine e /\ wo_fs w' = wo_fs w0 /\ wo_up w' = wo_up w0 /\ (forall i, pc_of (wo_fine w') i = pc_of s1 i) /\
  (forall i, i <> id -> got_by i (inside ev) = [] /\ results i (inside ev) = [] /\ phase (pc_of (wo_fine w') i) = phase (pc_of (wo_fine w0) i)).
Proof.
  intros A E H. destruct (act_eq _ _ _ _ A) as (s1' & e' & E' & -> & F1 & F2 & F3). rewrite E in E'. injection E' as <- <-. split; [reflexivity|]. split; [exact F1|]. split; [exact F2|]. split; [exact F3|].
  intros i N. rewrite inside_fine, F3. destruct (fstep_events _ _ _ _ i E) as (G & _ & _ & R). split; [apply G; destruct H as [(bb & ->)|(cc & ->)]; discriminate|].
  split; [apply R; intros; destruct H as [(bb & ->)|(cc & ->)]; congruence|]. eapply phase_step; eauto; intros; destruct H as [(bb & ->)|(cc & ->)]; congruence.
Qed.
Lemma stored_step s id m b : pc_of s id = Some (GStore m) -> exists s1, fstep s (FStored id b) = Ok (s1, [XStored id b]) /\ phase (pc_of s1 id) = if b then 2%nat else 0%nat.
Proof.
  unfold pc_of at 1. intros P. cbn [fstep]. destruct (fobj_get (fi_objs s) id) as [o|] eqn:Go; [|discriminate]. injection P as ->. eexists. split; [reflexivity|]. unfold pc_of. rewrite set_fobj_get, Z.eqb_refl. destruct b; reflexivity.
Qed.
Lemma merged_step s id m c : pc_of s id = Some (GMerge m) -> exists s1, fstep s (FMerged id c) = Ok (s1, [XMerged id c]) /\ phase (pc_of s1 id) = 0%nat.
Proof.
  unfold pc_of at 1. intros P. cbn [fstep]. destruct (fobj_get (fi_objs s) id) as [o|] eqn:Go; [|discriminate]. injection P as ->. eexists. split; [reflexivity|]. unfold pc_of. rewrite set_fobj_get, Z.eqb_refl. destruct c; reflexivity.
Qed.
Lemma u_file evs w id w' ev : (forall i, uinv evs w i) -> access w id = Ok (w', ev) -> forall i, uinv (evs ++ ev) w' i.
Proof.
  intros U A. pose proof (U id) as (ps0 & g0 & out0 & F & T & H). unfold access in A.
  assert (STILL : Ok (w, []) = Ok (w', ev) -> forall i, uinv (evs ++ ev) w' i) by (intros X; injection X as <- <-; rewrite app_nil_r; exact U).
  destruct (pc_of (wo_fine w) id) as [p|] eqn:PC; [|auto]. destruct p; auto; cbn [phase] in H.
  - (* storing *)
    destruct H as [(_ & _ & _ & [(X & _)|(X & _)])|(p & k & g & H1 & H2 & H3 & H4 & H5 & H6 & H7 & [(_ & EA & H8)|(X & _)])]; try discriminate.
    destruct (own_step (O id) (OK id) (wo_fs w) g (wo_up w id) H3 H4) as (S1 & S2 & S3). pose proof (early_step (wo_fs w) (wo_up w id) EA) as ES. cbn zeta in ES. pose proof (step_todo (wo_fs w) (wo_up w id)) as TD.
    assert (NI : th_at (wo_up w id) <> TIdle) by (intros X; rewrite X in EA; contradiction). specialize (TD NI). pose proof (steps_snoc _ _ _ _ _ H2) as SS.
    assert (FE : fst (thread_step (wo_fs w) (wo_up w id)) = fst (thread_step (wo_fs w) (wo_up w id))) by reflexivity.
    destruct (thread_step (wo_fs w) (wo_up w id)) as [f t] eqn:TS. destruct (thread_step g (wo_up w id)) as [g' t'] eqn:TG. cbn [fst snd] in *. subst t'.
    assert (A' : (early (th_at t) /\ Ok (set_up w id f t, []) = Ok (w', ev)) \/ (late (th_at t) /\ act (set_up w id f t) (FStored id true) = Ok (w', ev)) \/
                 (th_at t = TIdle /\ act (set_up w id f t) (FStored id (match last (th_out t) OKept with OFail => false | _ => true end)) = Ok (w', ev))).
    { clear -A EA. destruct (th_at (wo_up w id)); try contradiction; destruct (th_at t); cbn; auto. }
    clear A EA. rewrite H7 in ES.
    assert (UP : forall j, j <> id -> wo_up (set_up w id f t) j = wo_up w j) by (intros j N; cbn [set_up wo_up]; destruct (Z.eqb_spec j id); [contradiction|reflexivity]).
    assert (UO : wo_up (set_up w id f t) id = t) by (cbn [set_up wo_up]; rewrite Z.eqb_refl; reflexivity).
    destruct A' as [(L & A)|[(L & A)|(TI & A)]].
    + injection A as <- <-. eapply (u_others evs [] w _ id f); eauto; [rewrite TS; reflexivity|]. rewrite app_nil_r. exists ps0, g0, out0. split; [exact F|]. split; [exact T|]. right. exists p, (k + 1)%nat, g'.
      rewrite UO. cbn [set_up wo_fs wo_fine]. assert (OU : th_out t = out0) by (destruct ES as [(X & X')|[(X & X')|(X & _)]]; [exact X'|exact X'|rewrite X in L; contradiction]).
      split; [exact H1|]. split; [exact SS|]. split; [exact S2|]. split; [exact S3|]. split; [exact H5|]. split; [congruence|]. split; [exact OU|]. left. rewrite PC. auto.
    + destruct (stored_step (wo_fine w) id m true PC) as (s1 & E & PH). destruct (acted_own _ id _ _ _ _ _ A E (or_introl (ex_intro _ _ eq_refl))) as (-> & F1 & F2 & F3 & F4).
      eapply (u_others evs _ w _ id f); eauto; [rewrite TS; reflexivity|rewrite F2; exact UP|]. exists ps0, g0, out0. split; [exact F|]. split; [exact T|]. right. exists p, (k + 1)%nat, g'.
      rewrite F1, F2, F3, UO. cbn [set_up wo_fs]. assert (OU : th_out t = out0) by (destruct ES as [(X & X')|[(X & X')|(X & _)]]; [exact X'|exact X'|rewrite X in L; contradiction]).
      rewrite inside_app, inside_fine, packets_app, results_app, H1, H8. cbn [packets got_by results flat_map filter]. rewrite Z.eqb_refl, app_nil_r.
      split; [reflexivity|]. split; [exact SS|]. split; [exact S2|]. split; [exact S3|]. split; [exact H5|]. split; [congruence|]. split; [exact OU|]. right. auto.
    + assert (TE : t = Thread [] TIdle (th_out t)) by (destruct t; cbn in *; congruence). rewrite TE in SS. destruct (one_packet _ _ _ _ _ _ F (OK _ _ H5) SS) as (o & O1 & O2 & O3).
      assert (OO : o = OFail \/ o = OKept). { destruct ES as [(X & _)|[(X & _)|(_ & [X|X])]]; try (rewrite TI in X; contradiction); rewrite O3 in X; apply app_inj_tail in X as (_ & ->); auto. }
      rewrite O3, last_last in A. rewrite O3 in TE.
      destruct (stored_step (wo_fine w) id m (match o with OFail => false | _ => true end) PC) as (s1 & E & PH). destruct (acted_own _ id _ _ _ _ _ A E (or_introl (ex_intro _ _ eq_refl))) as (-> & F1 & F2 & F3 & F4).
      eapply (u_others evs _ w _ id f); eauto; [rewrite TS; reflexivity|rewrite F2; exact UP|]. exists (ps0 ++ [p]), g', (out0 ++ [o]). split; [exact O2|]. split; [eapply turn_snoc; eauto|]. left.
      rewrite F1, F2, F3, UO. cbn [set_up wo_fs]. rewrite inside_app, inside_fine, packets_app, results_app, H1, H8. cbn [packets got_by results flat_map filter]. rewrite Z.eqb_refl, app_nil_r.
      split; [reflexivity|]. split; [exact TE|]. split; [exact S2|]. destruct OO as [-> | ->]; cbn [shown] in *.
      * left. split; [exact PH|]. rewrite flat_map_app. reflexivity.
      * right. split; [exact PH|]. exists out0. auto.
  - (* merging *)
    destruct H as [(H1 & H2 & H3 & [(X & _)|(_ & o' & H4 & H5)])|(p & k & g & H1 & H2 & H3 & H4 & H5 & H6 & H7 & [(X & _)|(_ & LA & H8)])]; try discriminate.
    + rewrite H2 in A. cbn [th_at] in A. destruct (merged_step (wo_fine w) id m None PC) as (s1 & E & PH). destruct (acted_own _ id _ _ _ _ _ A E (or_intror (ex_intro _ _ eq_refl))) as (-> & F1 & F2 & F3 & F4).
      intros i. destruct (Z.eq_dec i id) as [->|N].
      * exists ps0, g0, out0. split; [exact F|]. split; [exact T|]. left. rewrite F1, F2, F3. rewrite inside_app, inside_fine, packets_app, results_app, H1, H5. cbn [packets got_by results flat_map filter]. rewrite Z.eqb_refl, app_nil_r.
        split; [reflexivity|]. split; [exact H2|]. split; [exact H3|]. left. split; [exact PH|]. rewrite H4, flat_map_app. cbn [flat_map shown app]. rewrite <- app_assoc. reflexivity.
      * destruct (F4 i N) as (G & R & P). apply (u_same evs w); auto.
        -- rewrite inside_app, packets_app, (packets_none i (inside (map WFine [XMerged id None]))), app_nil_r; auto.
        -- rewrite inside_app, results_app, R, app_nil_r; auto.
        -- rewrite F2. reflexivity.
        -- rewrite F1. auto.
    + destruct (own_step (O id) (OK id) (wo_fs w) g (wo_up w id) H3 H4) as (S1 & S2 & S3). pose proof (late_step (wo_fs w) (wo_up w id) LA) as ES. cbn zeta in ES. pose proof (step_todo (wo_fs w) (wo_up w id)) as TD.
      assert (NI : th_at (wo_up w id) <> TIdle) by (intros X; rewrite X in LA; contradiction). specialize (TD NI). pose proof (steps_snoc _ _ _ _ _ H2) as SS.
      destruct (thread_step (wo_fs w) (wo_up w id)) as [f t] eqn:TS. destruct (thread_step g (wo_up w id)) as [g' t'] eqn:TG. cbn [fst snd] in *. subst t'.
      assert (A' : (late (th_at t) /\ Ok (set_up w id f t, []) = Ok (w', ev)) \/ (th_at t = TIdle /\ act (set_up w id f t) (FMerged id (content t)) = Ok (w', ev))).
      { destruct ES as [(L & _)|(L & _)]; [left|right]; (split; [exact L|]); clear -A LA L; destruct (th_at (wo_up w id)); try contradiction; destruct (th_at t); try contradiction; try discriminate; exact A. }
      clear A LA. rewrite H7 in ES.
      assert (UP : forall j, j <> id -> wo_up (set_up w id f t) j = wo_up w j) by (intros j N; cbn [set_up wo_up]; destruct (Z.eqb_spec j id); [contradiction|reflexivity]).
      assert (UO : wo_up (set_up w id f t) id = t) by (cbn [set_up wo_up]; rewrite Z.eqb_refl; reflexivity).
      destruct A' as [(L & A)|(TI & A)].
      * injection A as <- <-. eapply (u_others evs [] w _ id f); eauto; [rewrite TS; reflexivity|]. rewrite app_nil_r. exists ps0, g0, out0. split; [exact F|]. split; [exact T|]. right. exists p, (k + 1)%nat, g'.
        rewrite UO. cbn [set_up wo_fs wo_fine]. assert (OU : th_out t = out0) by (destruct ES as [(X & X')|(X & _)]; [exact X'|rewrite X in L; contradiction]).
        split; [exact H1|]. split; [exact SS|]. split; [exact S2|]. split; [exact S3|]. split; [exact H5|]. split; [congruence|]. split; [exact OU|]. right. rewrite PC. auto.
      * assert (TE : t = Thread [] TIdle (th_out t)) by (destruct t; cbn in *; congruence). rewrite TE in SS. destruct (one_packet _ _ _ _ _ _ F (OK _ _ H5) SS) as (o & O1 & O2 & O3).
        assert (OO : o <> OFail). { destruct ES as [(X & _)|(_ & o1 & N & X)]; try (rewrite TI in X; contradiction); rewrite O3 in X; apply app_inj_tail in X as (_ & ->); auto. }
        assert (CO : content t = match o with OWhole c => Some c | _ => None end) by (unfold content; rewrite O3, last_last; reflexivity). rewrite O3 in TE. rewrite CO in A.
        destruct (merged_step (wo_fine w) id m (match o with OWhole c => Some c | _ => None end) PC) as (s1 & E & PH). destruct (acted_own _ id _ _ _ _ _ A E (or_intror (ex_intro _ _ eq_refl))) as (-> & F1 & F2 & F3 & F4).
        eapply (u_others evs _ w _ id f); eauto; [rewrite TS; reflexivity|rewrite F2; exact UP|]. exists (ps0 ++ [p]), g', (out0 ++ [o]). split; [exact O2|]. split; [eapply turn_snoc; eauto|]. left.
        rewrite F1, F2, F3, UO. cbn [set_up wo_fs]. rewrite inside_app, inside_fine, packets_app, results_app, H1, H8. cbn [packets got_by results flat_map filter]. rewrite Z.eqb_refl, app_nil_r.
        split; [reflexivity|]. split; [exact TE|]. split; [exact S2|]. left. split; [exact PH|]. rewrite flat_map_app, <- app_assoc. f_equal. destruct o; [contradiction|reflexivity|reflexivity].
Qed.
End Uploads.
