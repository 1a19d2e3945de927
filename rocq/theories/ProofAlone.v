(** A connection and the process without the other ones, in lockstep: the server. *)
From Verif Require Import Base LibBase Bits Bcd Env EntTerm EntPlat Registry Message Codec Timer Session Multipart Server Host.
From Verif Require Import SpecGeo SpecEntity SpecMsg SpecStream SpecSession SpecMulti SpecTimer SpecServer SpecHost SpecAlone.
From Verif Require Import LibBcd LibMulti ProofTimer ProofTimer2 ProofServer.

Section Alone.
Variable id : Z.
Variable P : bytes -> Prop.
Variable mg : bool.

Record sim (a b : server) : Prop := {
  s_auto : sv_auto a = sv_auto b;
  s_mg : sv_auto a = mg;
  s_hand : sv_handlers a = sv_handlers b;
  s_time : exists f g ka, tight (sv_timer a) /\ view (sv_timer a) f /\ tm_seconds (sv_timer a) = ka /\
                          tight (sv_timer b) /\ view (sv_timer b) g /\ tm_seconds (sv_timer b) = ka /\ f id = g id;
  s_priv : fs_priv (sv_fs a) = fs_priv (sv_fs b);
  s_dirs : forall r, P r -> alist_get (fs_dirs (sv_fs a)) r = alist_get (fs_dirs (sv_fs b)) r;
  s_obj : obj_get (sv_objs a) id = obj_get (sv_objs b) id;
  s_none : forall i, i <> id -> obj_get (sv_objs b) i = None;
  s_reg : filter (fun i => i =? id) (sv_reg a) = sv_reg b }.

Lemma sim_own a b o : sim a b -> sim (set_obj a id o) (set_obj b id o).
Proof.
  intros []. constructor; cbn; auto.
  - rewrite !obj_get_set, Z.eqb_refl. reflexivity.
  - intros i H. rewrite obj_get_set. destruct (Z.eqb_spec id i); [congruence|auto].
Qed.
Lemma sim_other a b i o : i <> id -> sim a b -> sim (set_obj a i o) b.
Proof. intros H []. constructor; cbn; auto. rewrite obj_get_set. destruct (Z.eqb_spec i id); [congruence|auto]. Qed.

(** Sending does the same whatever the server. *)
Lemma send_shape i o e : exists o' evs, (forall sv, sv_send sv i o e = (set_obj sv i o', o', evs)) /\ Forall (fun ev => owner ev = Some i) evs.
Proof.
  unfold sv_send. destruct (session_send (so_sess o) e) as (m, s). destruct (so_closed o); [|destruct (so_full o)].
  - exists (with_sess o s), []. split; auto.
  - exists (shut (with_sess o s)), [SvShut i]. split; auto; repeat constructor.
  - exists (with_sess o s), [SvSend i m]. split; auto; repeat constructor.
Qed.
Lemma owned_all i evs : Forall (fun ev => owner ev = Some i) evs -> filter (owned i) evs = evs.
Proof. induction 1 as [|x l E _ IH]; auto. cbn. unfold owned at 1. rewrite E, Z.eqb_refl, IH. reflexivity. Qed.
Lemma owned_none i j evs : i <> j -> Forall (fun ev => owner ev = Some i) evs -> filter (owned j) evs = [].
Proof. intros H. induction 1 as [|x l E _ IH]; auto. cbn. unfold owned at 1. rewrite E. destruct (Z.eqb_spec i j); [congruence|auto]. Qed.

(** The timer *)
Lemma time_own a b now : sim a b -> exists t u, timer_update (sv_timer a) id now = Ok t /\ timer_update (sv_timer b) id now = Ok u /\ sim (set_timer a t) (set_timer b u).
Proof.
  intros S. destruct (s_time _ _ S) as (f & g & ka & T & V & K & T' & V' & K' & E).
  destruct (timer_update_ok ka _ id now f T V K) as (t & A & T1 & V1 & K1). destruct (timer_update_ok ka _ id now g T' V' K') as (u & B & T2 & V2 & K2).
  exists t, u. split; auto. split; auto. destruct S. constructor; cbn; auto. eexists _, _, ka. repeat (split; [eassumption|]). unfold put. rewrite Z.eqb_refl. reflexivity.
Qed.
Lemma time_other a b i now t : i <> id -> sim a b -> timer_update (sv_timer a) i now = Ok t -> sim (set_timer a t) b.
Proof.
  intros H S E. destruct (s_time _ _ S) as (f & g & ka & T & V & K & T' & V' & K' & F).
  destruct (timer_update_ok ka _ i now f T V K) as (t1 & A & T1 & V1 & K1). assert (t1 = t) as -> by congruence.
  destruct S. constructor; cbn; auto. eexists _, _, ka. repeat (split; [eassumption|]). unfold put. destruct (Z.eqb_spec id i); [congruence|auto].
Qed.
Lemma gone_own a b : sim a b -> exists t u, timer_remove (sv_timer a) id = Ok t /\ timer_remove (sv_timer b) id = Ok u /\ sim (set_timer a t) (set_timer b u).
Proof.
  intros S. destruct (s_time _ _ S) as (f & g & ka & T & V & K & T' & V' & K' & E).
  destruct (tight_remove _ id f T V) as (t & A & T1 & V1 & K1). destruct (tight_remove _ id g T' V') as (u & B & T2 & V2 & K2).
  exists t, u. split; auto. split; auto. destruct S. constructor; cbn; auto. eexists _, _, ka. repeat (split; [first [eassumption|congruence]|]). unfold put. rewrite Z.eqb_refl. reflexivity.
Qed.
Lemma gone_other a b i t : i <> id -> sim a b -> timer_remove (sv_timer a) i = Ok t -> sim (set_timer a t) b.
Proof.
  intros H S E. destruct (s_time _ _ S) as (f & g & ka & T & V & K & T' & V' & K' & F).
  destruct (tight_remove _ i f T V) as (t1 & A & T1 & V1 & K1). assert (t1 = t) as -> by congruence.
  destruct S. constructor; cbn; auto. eexists _, _, ka. repeat (split; [first [eassumption|congruence]|]). unfold put. destruct (Z.eqb_spec id i); [congruence|auto].
Qed.

(** Messages passed on *)
Lemma pass_own a b now o m a' evs : sim a b -> message_and_dispatch a id now o m = Ok (a', evs) ->
  exists b', message_and_dispatch b id now o m = Ok (b', evs) /\ sim a' b' /\ Forall (fun ev => owner ev = Some id) evs.
Proof.
  intros S. unfold message_and_dispatch. destruct (session_message (so_sess o) m) as [[s cb]|e|]; cbn [bind]; try discriminate. unfold dispatch.
  pose proof (sim_own _ _ (with_sess o s) S) as S1. rewrite <- (s_hand _ _ S1).
  destruct (load_handler _ _) as [h|].
  - destruct (time_own _ _ now S1) as (t & u & A & B & S2). rewrite A, B. cbn [bind]. intros E. injection E as <- <-. eexists. split; [reflexivity|]. split; auto.
    destruct cb; repeat constructor.
  - cbn [bind]. intros E. injection E as <- <-. eexists. split; [reflexivity|]. split; auto. destruct cb; repeat constructor.
Qed.
Lemma pass_other a b i now o m a' evs : i <> id -> sim a b -> message_and_dispatch a i now o m = Ok (a', evs) ->
  sim a' b /\ Forall (fun ev => owner ev = Some i) evs.
Proof.
  intros H S. unfold message_and_dispatch. destruct (session_message (so_sess o) m) as [[s cb]|e|]; cbn [bind]; try discriminate. unfold dispatch.
  pose proof (sim_other _ _ i (with_sess o s) H S) as S1.
  destruct (load_handler _ _) as [h|].
  - destruct (timer_update _ i now) as [t|e|] eqn:T; cbn [bind]; try discriminate. intros E. injection E as <- <-. split; [eapply time_other; eauto|]. destruct cb; repeat constructor.
  - cbn [bind]. intros E. injection E as <- <-. split; auto. destruct cb; repeat constructor.
Qed.

(** Files *)
Definition alike (f g : fs) : Prop := fs_priv f = fs_priv g /\ forall r, P r -> alist_get (fs_dirs f) r = alist_get (fs_dirs g) r.
Lemma sim_fs a b f g : sim a b -> alike f g -> sim (set_fs a f) (set_fs b g).
Proof. intros [] (A & B). constructor; cbn; auto. Qed.
Lemma sim_fs_l a b f : sim a b -> alike f (sv_fs b) -> sim (set_fs a f) b.
Proof. intros [] (A & B). constructor; cbn; auto. Qed.
Lemma alike_set f g r d : alike f g -> alike (Fs (fs_priv f) (alist_set (fs_dirs f) r d)) (Fs (fs_priv g) (alist_set (fs_dirs g) r d)).
Proof. intros (A & B). split; auto. intros x X. cbn. rewrite !alist_get_set. destruct (beq r x); auto. Qed.
Lemma alike_set_l f g r d : ~ P r -> alike f g -> alike (Fs (fs_priv f) (alist_set (fs_dirs f) r d)) g.
Proof. intros N (A & B). split; auto. intros x X. cbn. rewrite !alist_get_set. destruct (beq_spec r x); auto. congruence. Qed.
Lemma write_own f g m s d : P (root_dir m) -> alike f g ->
  match mp_write f m s d with Ok f' => exists g', mp_write g m s d = Ok g' /\ alike f' g' | r => mp_write g m s d = r end.
Proof.
  intros H A. pose proof A as (A1 & A2). unfold mp_write. rewrite <- (A2 _ H), <- A1. destruct (negb (fs_priv f)) eqn:N; auto.
  eexists. split; [reflexivity|]. split; auto. intros x X. cbn [fs_dirs]. rewrite !alist_get_set. destruct (beq (root_dir m) x); auto.
Qed.
Lemma write_other f g m s d f' : ~ P (root_dir m) -> alike f g -> mp_write f m s d = Ok f' -> alike f' g.
Proof. intros H A. unfold mp_write. destruct (negb (fs_priv f)); [discriminate|]. intros E. injection E as <-. apply alike_set_l; auto. Qed.
Lemma walk_own f g m : P (root_dir m) -> alike f g -> walk_parts f m = walk_parts g m.
Proof. intros H (A1 & A2). unfold walk_parts. rewrite (A2 _ H). reflexivity. Qed.
Lemma merge_own f g m : P (root_dir m) -> alike f g ->
  match mp_merge f m with Ok (c, f') => exists g', mp_merge g m = Ok (c, g') /\ alike f' g' | Err e => mp_merge g m = Err e | Panic => mp_merge g m = Panic end.
Proof.
  intros H A. unfold mp_merge. rewrite (walk_own f g m H A). destruct (walk_parts g m) as [ps|e|]; cbn [bind]; auto. rewrite (proj2 A _ H).
  destruct (alist_get (fs_dirs g) (root_dir m)) as [d|]; auto. eexists. split; [reflexivity|]. apply alike_set; auto.
Qed.
Lemma merge_other f g m c f' : ~ P (root_dir m) -> alike f g -> mp_merge f m = Ok (c, f') -> alike f' g.
Proof.
  intros H A. unfold mp_merge. destruct (walk_parts f m) as [ps|e|]; cbn [bind]; try discriminate. destruct (alist_get (fs_dirs f) (root_dir m)) as [d|]; [|discriminate].
  intros E. injection E as <- <-. apply alike_set_l; auto.
Qed.

(** One message *)
Definition collects (m : message) : Prop :=
  mg = true /\ is_enable_packet (h_prop (m_hdr m)) = true /\ exists e, m_body m = BEnt (E0801 e).
Lemma deliver_own a b now o m a' evs : sim a b -> (collects m -> P (format_uint (h_icc (m_hdr m)))) -> deliver a id now o m = Ok (a', evs) ->
  exists b', deliver b id now o m = Ok (b', evs) /\ sim a' b' /\ Forall (fun ev => owner ev = Some id) evs.
Proof.
  intros S C. unfold deliver. rewrite <- (s_auto _ _ S).
  assert (R : forall c, (let '(sv1, _, evs) := sv_send a id o (reply_entity m c) in Ok (sv1, evs)) = Ok (a', evs) ->
    exists b', (let '(sv1, _, evs) := sv_send b id o (reply_entity m c) in Ok (sv1, evs)) = Ok (b', evs) /\ sim a' b' /\ Forall (fun ev => owner ev = Some id) evs).
  { intros c. destruct (send_shape id o (reply_entity m c)) as (o' & es & Q & F). rewrite !Q. intros E. injection E as <- <-. eexists. split; [reflexivity|]. split; auto. apply sim_own; auto. }
  destruct (m_body m) as [| |b0] eqn:B; [apply R|apply R|].
  destruct (negb (sv_auto a) || negb (is_enable_packet (h_prop (m_hdr m)))) eqn:N; [intros; eapply pass_own; eauto|].
  apply orb_false_elim in N. destruct N as (N1 & N2). apply negb_false_iff in N1, N2.
  destruct b0; try (intros; eapply pass_own; eauto; fail).
  rename e into x. destruct (h_packet (m_hdr m)) as [[sum sq]|]; [|discriminate]. destruct (a0801_packet x) as [r|]; [|discriminate].
  destruct (rdr_fail r); [apply R|]. assert (PR : P (format_uint (h_icc (m_hdr m)))) by (apply C; unfold collects; rewrite <- (s_mg _ _ S); eauto).
  set (mf := Mpf (h_icc (m_hdr m)) (h_id (m_hdr m)) (a0800_media (a0801_head x)) sum).
  assert (AL : alike (sv_fs a) (sv_fs b)) by (destruct S; split; auto).
  pose proof (write_own _ _ mf sq (rdr_data r) PR AL) as W. destruct (mp_write (sv_fs a) mf sq (rdr_data r)) as [f1|e|]; [|rewrite W; apply R|discriminate].
  destruct W as (g1 & -> & AL1). destruct (send_shape id o (reply_entity m result_success)) as (o1 & es & Q & F). rewrite !Q.
  pose proof (sim_own _ _ o1 (sim_fs _ _ _ _ S AL1)) as S1. destruct (negb (sq =? sum)).
  { intros E. injection E as <- <-. eexists. split; [reflexivity|]. auto. }
  assert (FU : is_full f1 mf = is_full g1 mf) by (unfold is_full; rewrite (walk_own f1 g1 mf PR AL1); reflexivity).
  rewrite <- FU. destruct (is_full f1 mf) as [full|e|]; cbn [bind]; try discriminate. destruct (negb full).
  { intros E. injection E as <- <-. eexists. split; [reflexivity|]. auto. }
  pose proof (merge_own f1 g1 mf PR AL1) as M. destruct (mp_merge f1 mf) as [[c f2]|e|]; [| |discriminate].
  - destruct M as (g2 & -> & AL2). pose proof (sim_fs _ _ _ _ S1 AL2) as S2.
    destruct (message_and_dispatch (set_fs (set_obj (set_fs a f1) id o1) f2) _ _ _ _) as [[sv2 evs2]|e|] eqn:D; cbn [bind]; try discriminate.
    intros E. injection E as <- <-. destruct (pass_own _ _ _ _ _ _ _ S2 D) as (b' & -> & S3 & F2). cbn [bind]. eexists. split; [reflexivity|]. split; auto. apply Forall_app; auto.
  - rewrite M. intros E. injection E as <- <-. eexists. split; [reflexivity|]. auto.
Qed.
Lemma deliver_other a b i now o m a' evs : i <> id -> sim a b -> (collects m -> ~ P (format_uint (h_icc (m_hdr m)))) -> deliver a i now o m = Ok (a', evs) ->
  sim a' b /\ Forall (fun ev => owner ev = Some i) evs.
Proof.
  intros H S C. unfold deliver.
  assert (R : forall c, (let '(sv1, _, evs) := sv_send a i o (reply_entity m c) in Ok (sv1, evs)) = Ok (a', evs) -> sim a' b /\ Forall (fun ev => owner ev = Some i) evs).
  { intros c. destruct (send_shape i o (reply_entity m c)) as (o' & es & Q & F). rewrite !Q. intros E. injection E as <- <-. split; auto. apply sim_other; auto. }
  destruct (m_body m) as [| |b0] eqn:B; [apply R|apply R|].
  destruct (negb (sv_auto a) || negb (is_enable_packet (h_prop (m_hdr m)))) eqn:N; [intros; eapply pass_other; eauto|].
  apply orb_false_elim in N. destruct N as (N1 & N2). apply negb_false_iff in N1, N2.
  destruct b0; try (intros; eapply pass_other; eauto; fail).
  rename e into x. destruct (h_packet (m_hdr m)) as [[sum sq]|]; [|discriminate]. destruct (a0801_packet x) as [r|]; [|discriminate].
  destruct (rdr_fail r); [apply R|]. assert (PR : ~ P (format_uint (h_icc (m_hdr m)))) by (apply C; unfold collects; rewrite <- (s_mg _ _ S); eauto).
  set (mf := Mpf (h_icc (m_hdr m)) (h_id (m_hdr m)) (a0800_media (a0801_head x)) sum).
  assert (AL : alike (sv_fs a) (sv_fs b)) by (destruct S; split; auto).
  destruct (mp_write (sv_fs a) mf sq (rdr_data r)) as [f1|e|] eqn:W; [|apply R|discriminate].
  pose proof (write_other _ _ mf _ _ _ PR AL W) as AL1. destruct (send_shape i o (reply_entity m result_success)) as (o1 & es & Q & F). rewrite !Q.
  pose proof (sim_other _ _ i o1 H (sim_fs_l _ _ _ S AL1)) as S1. destruct (negb (sq =? sum)); [intros E; injection E as <- <-; auto|].
  destruct (is_full f1 mf) as [full|e|]; cbn [bind]; try discriminate. destruct (negb full); [intros E; injection E as <- <-; auto|].
  destruct (mp_merge f1 mf) as [[c f2]|e|] eqn:M; [|intros E; injection E as <- <-; auto|discriminate].
  pose proof (merge_other _ _ mf _ _ PR AL1 M) as AL2. pose proof (sim_fs_l _ _ _ S1 AL2) as S2.
  destruct (message_and_dispatch _ _ _ _ _) as [[sv2 evs2]|e|] eqn:D; cbn [bind]; try discriminate.
  intros E. injection E as <- <-. destruct (pass_other _ _ _ _ _ _ _ _ H S2 D) as (S3 & F2). split; auto. apply Forall_app; auto.
Qed.
End Alone.
