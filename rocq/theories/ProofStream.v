(** The codec hears what is in the stream, however it is cut. *)
From Verif Require Import Base LibBase Bits Env Registry Message Codec SpecFrame SpecMsg SpecGeo SpecEntity SpecStream ProofFrame ProofMsg.

Lemma runs_nonempty s : exists r l, runs s = r :: l.
Proof. destruct s as [|b t]; cbn; [eauto|]. destruct (b =? 126); [eauto|]. destruct (runs t); eauto. Qed.
Lemma runs_app g s : ~ In 126 g -> exists r l, runs s = r :: l /\ runs (g ++ s) = (g ++ r) :: l.
Proof.
  induction g as [|b g IH]; cbn; intros H.
  - destruct (runs_nonempty s) as (r & l & E). eauto.
  - destruct IH as (r & l & E & F); [tauto|]. exists r, l. rewrite F. destruct (Z.eqb_spec b 126); [intuition|]. auto.
Qed.
Lemma runs_quiet g : ~ In 126 g -> runs g = [g].
Proof. intros H. destruct (runs_app g [] H) as (r & l & E & F). cbn in E. injection E as <- <-. rewrite !app_nil_r in F. exact F. Qed.
Lemma runs_delim s : runs (126 :: s) = [] :: runs s. Proof. reflexivity. Qed.
Lemma runs_frame f s : ~ In 126 f -> runs (126 :: f ++ 126 :: s) = [] :: f :: runs s.
Proof. intros H. rewrite runs_delim. destruct (runs_app f (126 :: s) H) as (r & l & E & F). rewrite runs_delim in E. injection E as <- <-. rewrite F, app_nil_r. reflexivity. Qed.
Lemma insides_head a b l : insides (a :: l) = insides (b :: l).
Proof. destruct l as [|f [|c l]]; reflexivity. Qed.
Lemma insides_frame s0 f s : insides (s0 :: f :: runs s) = f :: insides (runs s).
Proof. destruct (runs_nonempty s) as (r & l & ->). reflexivity. Qed.
Lemma insides_app g s : ~ In 126 g -> insides (runs (g ++ s)) = insides (runs s).
Proof. intros H. destruct (runs_app g s H) as (r & l & -> & ->). apply insides_head. Qed.

(** The scan loop. *)
Lemma find_spec l : (find_prefix l = length l /\ ~ In 126 l) \/ exists f r, l = f ++ 126 :: r /\ ~ In 126 f /\ find_prefix l = length f.
Proof.
  induction l as [|b t IH]; cbn [find_prefix length]; [left; auto|]. unfold prefix_id. destruct (Z.eqb_spec b 126) as [->|N].
  - right. exists [], t. auto.
  - destruct IH as [(E & H)|(f & r & -> & H & E)].
    + left. rewrite E. cbn. split; auto. intuition.
    + right. exists (b :: f), r. cbn. rewrite E. split; auto. split; auto. intuition.
Qed.
(** What readFromBuffer does, by the shape of the buffer. *)
Inductive shape : bytes -> Prop :=
| sh_empty : shape []
| sh_garbage b g r : ~ In 126 (b :: g) -> (r = [] \/ exists t, r = 126 :: t) -> shape ((b :: g) ++ r)
| sh_open f : ~ In 126 f -> shape (126 :: f)
| sh_frame f r : ~ In 126 f -> shape (126 :: f ++ 126 :: r).
Lemma shapes l : shape l.
Proof.
  destruct l as [|b t]; [constructor|]. destruct (Z.eq_dec b 126) as [->|N].
  - destruct (find_spec t) as [(E & H)|(f & r & -> & H & E)]; [apply sh_open|apply sh_frame]; auto.
  - destruct (find_spec t) as [(E & H)|(f & r & -> & H & E)].
    + rewrite <- (app_nil_r (b :: t)). apply sh_garbage; auto. cbn. intuition.
    + change (b :: f ++ 126 :: r) with ((b :: f) ++ 126 :: r). apply sh_garbage; eauto. cbn. intuition.
Qed.
Lemma find_app f r : ~ In 126 f -> find_prefix (f ++ 126 :: r) = length f.
Proof. induction f as [|b f IH]; cbn; intros H; [reflexivity|]. unfold prefix_id. destruct (Z.eqb_spec b 126); [intuition|]. rewrite IH; auto. Qed.
Lemma find_quiet f : ~ In 126 f -> find_prefix f = length f.
Proof. induction f as [|b f IH]; cbn; intros H; [reflexivity|]. unfold prefix_id. destruct (Z.eqb_spec b 126); [intuition|]. rewrite IH; auto. Qed.
Lemma rfb_garbage env key b g r : ~ In 126 (b :: g) -> (r = [] \/ exists t, r = 126 :: t) ->
  read_from_buffer env key ((b :: g) ++ r) = (ScanErr ErrNotFoundPrefixID, r).
Proof.
  intros H R. unfold read_from_buffer. change ((b :: g) ++ r) with (b :: g ++ r). cbv iota. unfold prefix_id at 1.
  destruct (Z.eqb_spec b 126); [subst; cbn in H; intuition|]. cbn [negb]. change (b :: g ++ r) with ((b :: g) ++ r). f_equal.
  assert (E : find_prefix ((b :: g) ++ r) = length (b :: g)).
  { destruct R as [->|(t & ->)]; [rewrite app_nil_r; apply find_quiet; auto|apply find_app; auto]. }
  rewrite E, skipn_app, skipn_all, Nat.sub_diag. reflexivity.
Qed.
Lemma rfb_open env key f : ~ In 126 f -> read_from_buffer env key (126 :: f) = (ScanNone, 126 :: f).
Proof. intros H. unfold read_from_buffer. cbn [negb Z.eqb prefix_id Pos.eqb]. change (126 =? prefix_id) with true. cbn [negb]. rewrite find_quiet by auto. cbn [length]. rewrite Nat.eqb_refl. reflexivity. Qed.
Lemma rfb_frame env key f r : ~ In 126 f -> read_from_buffer env key (126 :: f ++ 126 :: r) =
  match msg_decode env key (around f) with
  | Ok m => (ScanMsg m, r) | Err e => (ScanErr e, r) | Panic => (ScanPanic, 126 :: f ++ 126 :: r)
  end.
Proof.
  intros H. unfold read_from_buffer. change (126 =? prefix_id) with true. cbn [negb]. rewrite find_app by auto.
  replace (Nat.eqb (S (length f)) (length (126 :: f ++ 126 :: r))) with false
    by (symmetry; apply Nat.eqb_neq; cbn [length]; rewrite app_length; cbn [length]; lia).
  assert (A : firstn (S (S (length f))) (126 :: f ++ 126 :: r) = around f).
  { change (around f) with (126 :: f ++ [126]). rewrite firstn_cons. f_equal. rewrite firstn_app. replace (S (length f) - length f)%nat with 1%nat by lia.
    rewrite firstn_all2 by lia. reflexivity. }
  assert (B : skipn (S (S (length f))) (126 :: f ++ 126 :: r) = r).
  { rewrite skipn_cons, skipn_app. replace (S (length f) - length f)%nat with 1%nat by lia. rewrite skipn_all2 by lia. reflexivity. }
  rewrite A, B. reflexivity.
Qed.
(** An incomplete buffer takes the next read. *)
Definition incomplete (b : bytes) : Prop := b = [] \/ exists f, b = 126 :: f /\ ~ In 126 f.
Lemma rfb_none env key b : incomplete b -> read_from_buffer env key b = (ScanNone, b).
Proof. intros [->|(f & -> & H)]; [reflexivity|apply rfb_open; auto]. Qed.
Lemma receive_more env key b d evs : incomplete b -> zlen (b ++ d) <= 65535 ->
  receive env key b (RData d :: evs) = receive env key (b ++ d) evs.
Proof.
  intros I N. unfold receive at 1. rewrite (rfb_none env key b I). cbn [read_loop]. destruct (Z.eqb_spec (zlen (b ++ d)) 0) as [Z|Z].
  - assert (E : b ++ d = []) by (destruct (b ++ d) as [|y l]; [reflexivity|rewrite zlen_cons in Z; pose proof (zlen_nonneg l); lia]). rewrite E. reflexivity.
  - replace (65535 <? zlen (b ++ d)) with false by lia. unfold receive. destruct (read_from_buffer env key (b ++ d)) as [[] ?]; reflexivity.
Qed.

Lemma manageable_skip g s : ~ In 126 g -> manageable (g ++ s) -> manageable s.
Proof.
  unfold manageable. intros H F. destruct (runs_app g s H) as (r & l & E & G). rewrite G in F. rewrite E. inversion F; subst. constructor; auto.
  unfold zlen in *. rewrite app_length in *. lia.
Qed.
Lemma manageable_frame f s : ~ In 126 f -> manageable (126 :: f ++ 126 :: s) -> zlen f <= 65406 /\ manageable s.
Proof. unfold manageable. intros H F. rewrite runs_frame in F by auto. inversion F; subst. inversion H3; subst. auto. Qed.
(** The unfinished frame in front of a manageable rest is short. *)
Lemma manageable_open b s : incomplete b -> manageable (b ++ s) -> zlen b <= 65407.
Proof.
  intros [->|(f & -> & H)] F; [rewrite zlen_nil; lia|]. unfold manageable in F. cbn [app] in F. rewrite runs_delim in F.
  destruct (runs_app f s H) as (r & l & E & G). rewrite G in F. inversion F; subst. inversion H3; subst.
  rewrite zlen_cons. unfold zlen in *. rewrite app_length in *. lia.
Qed.
Lemma heard_skip env key g s : ~ In 126 g -> heard env key (g ++ s) = heard env key s.
Proof. intros H. unfold heard. rewrite insides_app by auto. reflexivity. Qed.
Lemma harmless_skip env key g s : ~ In 126 g -> harmless env key (g ++ s) -> harmless env key s.
Proof. intros H. unfold harmless. rewrite insides_app by auto. auto. Qed.
Lemma heard_frame env key f s : ~ In 126 f -> heard env key (126 :: f ++ 126 :: s) =
  match msg_decode env key (around f) with Ok m => [m] | _ => [] end ++ heard env key s.
Proof. intros H. unfold heard. rewrite runs_frame, insides_frame by auto. reflexivity. Qed.
Lemma harmless_frame env key f s : ~ In 126 f -> harmless env key (126 :: f ++ 126 :: s) ->
  msg_decode env key (around f) <> Panic /\ harmless env key s.
Proof. intros H. unfold harmless. rewrite runs_frame, insides_frame by auto. intros F. inversion F; auto. Qed.
Lemma heard_open env key b : incomplete b -> heard env key b = [].
Proof. intros [->|(f & -> & H)]; [reflexivity|]. unfold heard. rewrite runs_delim, runs_quiet by auto. reflexivity. Qed.
Lemma calls_same env key b1 e1 b2 e2 ms : receive env key b1 e1 = receive env key b2 e2 -> calls env key b2 e2 ms -> calls env key b1 e1 ms.
Proof. intros E C. inversion C; subst; rewrite <- E in H; econstructor; eauto. Qed.
(** A caller that goes on after errors gets exactly the messages in the stream. *)
Lemma calls_heard env key n : forall b cs, (2 * length b + length cs + 2 * length (concat cs) <= n)%nat ->
  reads_ok cs -> manageable (b ++ concat cs) -> harmless env key (b ++ concat cs) ->
  calls env key b (map RData cs) (heard env key (b ++ concat cs)).
Proof.
  induction n as [n IH] using lt_wf_ind. intros b cs N R M P.
  assert (I : incomplete b -> calls env key b (map RData cs) (heard env key (b ++ concat cs))).
  { intros I. destruct cs as [|d cs].
    - cbn [map concat]. rewrite app_nil_r, heard_open by auto. eapply calls_wait. unfold receive. rewrite rfb_none by auto. reflexivity.
    - cbn [map concat] in *. inversion R; subst. pose proof (manageable_open _ _ I M) as L.
      eapply calls_same; [apply receive_more; auto; unfold zlen in *; rewrite app_length; lia|].
      rewrite app_assoc in *. eapply (IH (n - 1)%nat); auto; cbn [length] in N; rewrite ?app_length in *; lia. }
  destruct (shapes b) as [|x g r H Hr|f H|f r H].
  - apply I. left; auto.
  - rewrite <- app_assoc in *. rewrite heard_skip by auto. apply manageable_skip in M; auto. apply harmless_skip in P; auto.
    eapply calls_err; [unfold receive; rewrite rfb_garbage by auto; reflexivity|].
    eapply (IH (n - 1)%nat); auto; rewrite app_length in N; cbn [length] in N; lia.
  - apply I. right. eauto.
  - cbn [app] in *. rewrite <- app_assoc in *. cbn [app] in *. rewrite heard_frame by auto.
    apply manageable_frame in M; auto. destruct M as (_ & M). apply harmless_frame in P; auto. destruct P as (P1 & P2).
    assert (K : calls env key r (map RData cs) (heard env key (r ++ concat cs))).
    { eapply (IH (n - 1)%nat); auto; cbn [length] in N; rewrite app_length in N; cbn [length] in N; lia. }
    pose proof (rfb_frame env key f r H) as Q. destruct (msg_decode env key (around f)); [| |contradiction].
    + eapply calls_msg; [unfold receive; rewrite Q; reflexivity|exact K].
    + eapply calls_err; [unfold receive; rewrite Q; reflexivity|exact K].
Qed.
Lemma calls_fun env key b evs m1 : calls env key b evs m1 -> forall m2, calls env key b evs m2 -> m1 = m2.
Proof. induction 1; intros m2 C; inversion C; subst; try congruence. f_equal; [congruence|]. apply IHcalls. congruence.
  apply IHcalls. congruence.
Qed.

(** Stopping at the first error. *)
Lemma ue_frame env key fin f s : until_error env key fin ([] :: f :: runs s) =
  match msg_decode env key (around f) with
  | Ok m => let '(ms, e) := until_error env key fin (runs s) in (m :: ms, e)
  | Err e => ([], GotErr e) | Panic => ([], GotPanic)
  end.
Proof. destruct (runs_nonempty s) as (r & l & E). cbn [until_error]. rewrite E. reflexivity. Qed.
Lemma ue_open env key fin b : incomplete b -> until_error env key fin (runs b) = ([], fin).
Proof. intros [->|(f & -> & H)]; [reflexivity|]. rewrite runs_delim, runs_quiet by auto. reflexivity. Qed.
Lemma receive_all_more fuel env key b d evs : incomplete b -> zlen (b ++ d) <= 65535 ->
  receive_all fuel env key b (RData d :: evs) = receive_all fuel env key (b ++ d) evs.
Proof. intros I N. destruct fuel; [reflexivity|]. cbn [receive_all]. rewrite receive_more by auto. reflexivity. Qed.
Lemma receive_until env key n : forall b cs tail fuel, (2 * length b + length cs + 2 * length (concat cs) <= n)%nat ->
  (length (fst (until_error env key (ending tail) (runs (b ++ concat cs)))) < fuel)%nat ->
  quiet_tail tail -> reads_ok cs -> manageable (b ++ concat cs) ->
  receive_all fuel env key b (map RData cs ++ tail) = until_error env key (ending tail) (runs (b ++ concat cs)).
Proof.
  induction n as [n IH] using lt_wf_ind. intros b cs tail fuel N F Q R M.
  assert (I : incomplete b -> receive_all fuel env key b (map RData cs ++ tail) = until_error env key (ending tail) (runs (b ++ concat cs))).
  { intros I. destruct cs as [|d cs].
    - cbn [map concat app] in *. rewrite app_nil_r in *. rewrite ue_open in * by auto. destruct fuel; [cbn in F; lia|]. cbn [receive_all].
      unfold receive. rewrite rfb_none by auto. destruct tail as [|[|] tail]; [reflexivity|contradiction|reflexivity].
    - cbn [map concat app] in *. inversion R; subst. pose proof (manageable_open _ _ I M) as L.
      rewrite receive_all_more by (auto; unfold zlen in *; rewrite app_length; lia).
      rewrite app_assoc in *. eapply (IH (n - 1)%nat); auto; cbn [length] in N; rewrite ?app_length in *; lia. }
  destruct (shapes b) as [|x g r H Hr|f H|f r H].
  - apply I. left; auto.
  - destruct fuel; [lia|]. cbn [receive_all]. unfold receive. rewrite rfb_garbage by auto.
    rewrite <- app_assoc. destruct (runs_app (x :: g) (r ++ concat cs) H) as (r' & l & _ & ->). reflexivity.
  - apply I. right. eauto.
  - cbn [app] in *. rewrite <- app_assoc in *. cbn [app] in *. rewrite runs_frame in * by auto. rewrite ue_frame in *.
    apply manageable_frame in M; auto. destruct M as (_ & M).
    pose proof (rfb_frame env key f r H) as K. destruct fuel as [|fuel]; [lia|]. cbn [receive_all]. unfold receive.
    destruct (msg_decode env key (around f)); rewrite K; [|reflexivity|reflexivity].
    rewrite (IH (n - 1)%nat); auto.
    + cbn [length] in N; rewrite app_length in N; cbn [length] in N; lia.
    + cbn [length] in N; rewrite app_length in N; cbn [length] in N; lia.
    + destruct (until_error env key (ending tail) (runs (r ++ concat cs))). cbn [fst length] in *. lia.
Qed.
