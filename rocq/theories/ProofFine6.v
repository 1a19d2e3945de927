(** No goroutine of a server crashes. *)
From Verif Require Import Base LibBase Bits LibBits Env EntTerm EntPlat Registry Message Timer Session Server Fine.
From Verif Require Import SpecSession SpecTimer SpecServer SpecFine ProofTimer3 ProofSession3 ProofFine ProofFine3 ProofFine4 ProofFine5.

Lemma tstep_fine c s o : crel c s -> exists c', tstep c o = Ok c'.
Proof.
  intro R. destruct o; try (edestruct (crel_step c s) as (c' & E & _); [exact R| |exists c'; exact E]; exact I). eexists. reflexivity.
Qed.
Lemma sstep_fine c o : (o = STake -> match sc_busy c with Some m => proper m | None => True end) -> exists c', sstep c o = Ok c'.
Proof.
  intro P. destruct o; cbn; try (eexists; reflexivity).
  - destruct (find_call _ _) as [[? ? ? ? [?|] ?]|]; eexists; reflexivity.
  - destruct (find_call _ _) as [[? ? ? ? [?|] [|]]|]; try (destruct ok); eexists; reflexivity.
  - destruct (find_call _ _) as [[? ? ? ? [?|] [|]]|]; eexists; reflexivity.
  - destruct (sc_busy c); eexists; reflexivity.
  - specialize (P eq_refl). destruct (sc_busy c) as [m|]; [|eexists; reflexivity]. destruct (reply_proper m P) as (n & -> & _). cbn [bind].
    destruct (n =? 0); [eexists; reflexivity|]. destruct (take_request _ _) as [[?|] ?]; eexists; reflexivity.
Qed.
Lemma on_message_fine auto m : received m -> exists p, on_message auto m = Ok p.
Proof.
  intros (_ & _ & _ & Hp & _ & Rb). unfold on_message. destruct (m_body m) as [|k|b]; try (eexists; reflexivity). destruct Rb as (_ & Rb).
  destruct (negb auto || negb (is_enable_packet (h_prop (m_hdr m)))) eqn:En; [eexists; reflexivity|]. destruct b; try (eexists; reflexivity).
  destruct Rb as (_ & data & ->). destruct (h_packet (m_hdr m)) as [[sum sq]|]; [eexists; reflexivity|].
  exfalso. apply orb_false_iff in En as (_ & En). apply negb_false_iff in En. rewrite is_enable_packet_bit in En. congruence.
Qed.
Ltac ok := eexists; eexists; reflexivity.
Lemma fstep_fine ka evs s op : timing ka evs s -> calling evs s -> good_op op -> exists s' e, fstep s op = Ok (s', e).
Proof.
  intros [(run & T & _ & _) _ _] C G.
  assert (Ts : forall o, exists t, tstep (fi_tc s) o = Ok t) by (intro o; exact (tstep_fine _ _ o T)).
  assert (Ss : forall id o so, fobj_get (fi_objs s) id = Some o -> exists c, sstep (fo_cfg o) so = Ok c).
  { intros id o so E. apply sstep_fine. intros _. pose proof (ca_obj _ _ C id) as V. rewrite E in V. destruct V as (_ & V2 & V3). rewrite V2. unfold pc_busy. destruct (fo_pc o); try exact I. exact V3. }
  destruct op; cbn -[sstep tstep]; try ok.
  - destruct (fobj_get (fi_objs s) id); ok.
  - destruct (fobj_get (fi_objs s) id) as [o|]; [|ok]. destruct (fo_pc o); try ok; edestruct Ts as (t & ->); ok.
  - destruct (fobj_get (fi_objs s) id) as [o|]; [|ok]. destruct (fo_pc o); try ok; edestruct Ts as (t & ->); ok.
  - destruct (fobj_get (fi_objs s) id) as [o|]; [|ok]. destruct (fo_pc o); try ok; edestruct Ts as (t & ->); ok.
  - destruct (fobj_get (fi_objs s) id) as [o|]; [|ok]. destruct (fo_pc o); ok.
  - destruct (fobj_get (fi_objs s) id) as [o|]; [|ok]. destruct (fo_pc o); try ok. destruct (on_message_fine (fi_auto s) m G) as (p & ->). ok.
  - destruct (fobj_get (fi_objs s) id) as [o|]; [|ok]. destruct (fo_pc o); ok.
  - destruct (fobj_get (fi_objs s) id) as [o|]; [|ok]. destruct (fo_pc o); ok.
  - destruct (fobj_get (fi_objs s) id) as [o|]; [|ok]. destruct (fo_pc o); try ok. destruct (fclose _ _ _). ok.
  - destruct (fobj_get (fi_objs s) id) as [o|] eqn:Go; [|ok]. destruct (fo_pc o); try ok; edestruct (Ss id o) as (c & ->); try exact Go; ok.
  - destruct (fobj_get (fi_objs s) id) as [o|] eqn:Go; [|ok]. destruct (fo_pc o); try ok; edestruct (Ss id o) as (c & ->); try exact Go; ok.
  - destruct (fobj_get (fi_objs s) id) as [o|] eqn:Go; [|ok]. destruct (fo_pc o); ok.
  - destruct (fobj_get (fi_objs s) id) as [o|] eqn:Go; [|ok]. destruct (fo_pc o); ok.
  - destruct (fobj_get (fi_objs s) id) as [o|] eqn:Go; [|ok]. destruct (fo_pc o); ok.
  - destruct (fobj_get (fi_objs s) id) as [o|] eqn:Go; [|ok]. destruct (fo_pc o); try ok; unfold enter; edestruct (Ss id o) as (c & ->); try exact Go; ok.
  - destruct (fobj_get (fi_objs s) id) as [o|] eqn:Go; [|ok]. unfold enter. edestruct (Ss id o) as (c & ->); try exact Go; ok.
  - destruct (fobj_get (fi_objs s) id) as [o|] eqn:Go; [|ok]. destruct (find_call _ _) as [[? ? ? ? [?|] ?]|]; try ok; edestruct (Ss id o) as (c & ->); try exact Go; ok.
  - destruct (fobj_get (fi_objs s) id) as [o|] eqn:Go; [|ok]. destruct (call_message _ _); [|ok]. destruct (link_send o) as [? ?]. edestruct (Ss id o) as (c & ->); [exact Go|]. cbn [bind].
    destruct (returned _ _ _). ok.
  - destruct (fobj_get (fi_objs s) id) as [o|] eqn:Go; [|ok]. destruct (find_call _ _) as [[? ? ? ? [?|] [|]]|]; try ok; edestruct (Ss id o) as (c & ->); try exact Go; ok.
  - destruct (cast_get _ _) as [[? ids [?|] ?]|]; try ok. destruct (mem ids id); [|ok]. destruct (fobj_get (fi_objs s) id) as [o|] eqn:Go; [|ok]. unfold enter. edestruct (Ss id o) as (c & ->); try exact Go; ok.
  - destruct (cast_get _ _) as [[? [|? ?] [?|] ?]|]; ok.
  - destruct (fobj_get (fi_objs s) id) as [o|]; [|ok]. destruct (fclose _ _ _). ok.
  - destruct (fobj_get (fi_objs s) id) as [o|]; ok.
  - destruct (fi_tick s) as [[|? ?]|]; try ok; edestruct Ts as (t & ->); ok.
  - destruct (fi_tick s) as [[|? ?]|]; ok.
  - destruct (fi_tick s) as [?|id ?]; try ok. destruct (fobj_get (fi_objs s) id) as [o|]; [|ok]. destruct (fclose _ _ _). ok.
  - destruct (fobj_get (fi_objs s) id) as [o|]; [|ok]. destruct (fo_close o); try ok. destruct (fo_closed o && fo_cb o); ok.
  - destruct (fobj_get (fi_objs s) id) as [o|]; [|ok]. destruct (fo_close o); try ok; edestruct Ts as (t & ->); ok.
  - destruct (fobj_get (fi_objs s) id) as [o|]; [|ok]. destruct (fo_close o); ok.
Qed.
Lemma frun_fine ka : forall ops evs s, timing ka evs s -> calling evs s -> Forall good_op ops -> exists s' e, frun s ops = Ok (s', e).
Proof.
  induction ops as [|op ops IH]; intros evs s T C G; [ok|]. inversion G as [|? ? G1 G2]; subst. destruct (fstep_fine ka evs s op T C G1) as (s1 & e1 & E1). cbn. rewrite E1. cbn [bind].
  destruct (fstep_does _ _ _ _ G1 E1) as [[-> ->]|D].
  - destruct (IH evs s T C G2) as (s2 & e2 & ->). ok.
  - destruct (IH (evs ++ e1) s1 (timing_step ka _ _ _ _ T D) (calling_step _ _ _ _ C D) G2) as (s2 & e2 & ->). ok.
Qed.
Lemma fine_total auto ka ops : fine_received ops -> exists s evs, frun (fine_init auto ka) ops = Ok (s, evs).
Proof. intro G. exact (frun_fine ka ops [] _ (timing_init auto ka) (calling_init auto ka) G). Qed.
