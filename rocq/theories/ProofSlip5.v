(** One byte of a stream of messages changed on the way: what the receiver makes of the stream; lemmas behind C169. *)
From Verif Require Import Base LibBase Env Registry Message Codec SpecFrame ProofFrame SpecMsg ProofMsg SpecStream ProofStream ProofStream2 SpecSlip ProofSlip ProofSlip2 ProofSlip3 ProofSlip4.

Lemma changed_where ds s' : one_changed (concat ds) s' ->
  exists da d d' db, ds = da ++ d :: db /\ one_changed d d' /\ s' = concat da ++ d' ++ concat db.
Proof.
  intros (a & x & y & b & E & -> & N). revert a E. induction ds as [|d ds IH]; intros a E; cbn [concat] in E; [destruct a; discriminate|].
  assert (C : (exists v, d = a ++ x :: v /\ b = v ++ concat ds) \/ exists t, a = d ++ t /\ concat ds = t ++ x :: b).
  { clear IH. revert a E. induction d as [|z d IH]; intros a E; cbn [app] in E; [right; exists a; auto|]. destruct a as [|z' a]; cbn [app] in E; injection E as E1 E2.
    - subst x b. left. exists d. auto.
    - subst z'. destruct (IH a E2) as [(v & -> & ->)|(t & -> & T)]; [left; exists v; auto|right; exists t; auto]. }
  destruct C as [(v & -> & ->)|(t & -> & T)].
  - exists [], (a ++ x :: v), (a ++ y :: v), ds. split; [reflexivity|]. split; [exists a, x, y, v; auto|]. cbn [concat app]. rewrite <- app_assoc. reflexivity.
  - destruct (IH t T) as (da & d0 & d' & db & -> & O & S). exists (d :: da), d0, d', db. split; [reflexivity|]. split; [exact O|]. cbn [concat]. rewrite <- !app_assoc, S. reflexivity.
Qed.

Section Stream.
Context (env : Env) (key : option Z) (env' : Env) (key' : option Z).
Notation ship := (shipped env key env' key').

Lemma ship_data d r : ship d r -> exists w, d = [126] ++ w ++ [126].
Proof.
  intros (rnd & m & e & m' & B & P & L & E & _). destruct (encode_delimited _ _ _ _ _ _ E) as (mid & -> & _). exists mid. reflexivity.
Qed.
Lemma manageable_frame f s : ~ In 126 f -> zlen f <= 65406 -> manageable s -> manageable (126 :: f ++ 126 :: s).
Proof. intros N L M. unfold manageable. rewrite runs_frame by exact N. constructor; [cbv; discriminate|]. constructor; auto. Qed.
Lemma manageable_nil : manageable [].
Proof. constructor; [cbv; discriminate|constructor]. Qed.
Lemma manageable_open f s : ~ In 126 f -> zlen f <= 65406 -> manageable s -> manageable (f ++ 126 :: s).
Proof.
  intros N L M. unfold manageable. destruct (runs_app f (126 :: s) N) as (r & l & E & ->). rewrite runs_delim in E. injection E as <- <-. rewrite app_nil_r. constructor; auto.
Qed.
Lemma manageable_end f : ~ In 126 f -> zlen f <= 65406 -> manageable f.
Proof.
  intros N L. unfold manageable. destruct (runs_app f [] N) as (r & l & E & R). rewrite app_nil_r in R. rewrite R. injection E as <- <-. rewrite app_nil_r. constructor; auto.
Qed.

(** The messages in front of the damaged one *)
Lemma before fin ds rs s : Forall2 ship ds rs ->
  until_error env' key' fin (runs (concat ds ++ s)) = (rs ++ fst (until_error env' key' fin (runs s)), snd (until_error env' key' fin (runs s))).
Proof.
  induction 1 as [|d r ds rs H F IH]; [destruct (until_error _ _ _ _); reflexivity|]. destruct (ship_data d r H) as (w & W).
  destruct (ship_wire env key env' key' d r w H W) as (N & _). pose proof (ship_clear env key env' key' d r w H W) as C.
  cbn [concat]. rewrite W, <- !app_assoc. cbn [app]. rewrite runs_frame by exact N. rewrite ue_frame, C, IH. reflexivity.
Qed.
Lemma before_size ds rs s : Forall2 ship ds rs -> manageable s -> manageable (concat ds ++ s).
Proof.
  induction 1 as [|d r ds rs H F IH]; intros M; [exact M|]. destruct (ship_data d r H) as (w & W).
  destruct (ship_wire env key env' key' d r w H W) as (N & _ & _ & L). cbn [concat]. rewrite W, <- !app_assoc. cbn [app]. apply manageable_frame; auto. lia.
Qed.
Lemma all_said fin ds rs : Forall2 ship ds rs -> until_error env' key' fin (runs (concat ds)) = (rs, fin).
Proof. intros F. pose proof (before fin ds rs [] F) as H. rewrite app_nil_r in H. rewrite H. cbn [runs until_error fst snd]. rewrite app_nil_r. reflexivity. Qed.
Lemma all_size ds rs : Forall2 ship ds rs -> manageable (concat ds).
Proof. intros F. pose proof (before_size ds rs [] F manageable_nil) as H. rewrite app_nil_r in H. exact H. Qed.

Lemma stops_early fin f t : (exists z f', f = z :: f') -> ~ In 126 f -> fst (until_error env' key' fin (runs (f ++ t))) = [].
Proof.
  intros (z & f' & ->) N. destruct (runs_app (z :: f') t N) as (r & l & E & ->). reflexivity.
Qed.

(** The damaged message and what follows *)
Lemma damaged fin d d' r ds rs : ship d r -> Forall2 ship ds rs -> one_changed d d' ->
  manageable (d' ++ concat ds) /\
  (fst (until_error env' key' fin (runs (d' ++ concat ds))) = [] \/
   exists n, (n = r \/ m_body n = BNil) /\ (fst (until_error env' key' fin (runs (d' ++ concat ds))) = [n] \/ fst (until_error env' key' fin (runs (d' ++ concat ds))) = n :: rs)).
Proof.
  intros H F (a & x & y & b & D & -> & NE). destruct (ship_data d r H) as (w & W). destruct (ship_wire env key env' key' d r w H W) as (N & NW & L2 & L).
  rewrite W in D. cbn [app] in D. destruct a as [|a0 a]; cbn [app] in *.
  - (* the opening delimiter *)
    injection D as <- <-. rewrite <- app_assoc. cbn [app].
    assert (NY : ~ In 126 (y :: w)) by (intros [X|X]; [congruence|contradiction]).
    split; [apply (manageable_open (y :: w) (concat ds)); [exact NY|rewrite zlen_cons; lia|eapply all_size; eauto]|].
    left. apply (stops_early fin (y :: w) (126 :: concat ds)); [eauto|exact NY].
  - injection D as <- D. destruct (last_case b) as [->|(b' & l & ->)].
    + (* the closing delimiter *)
      apply app_inj_tail in D as [<- <-]. assert (NY : ~ In 126 (w ++ [y])) by (rewrite in_app_iff; intros [X|[X|[]]]; [contradiction|congruence]).
      assert (LY : zlen (w ++ [y]) <= 65406) by (zl; change (zlen (@nil Z)) with 0; lia).
      destruct F as [|d2 r2 ds rs H2 F].
      * cbn [concat]. rewrite app_nil_r. split.
        -- unfold manageable. rewrite runs_delim. constructor; [cbv; discriminate|]. apply manageable_end; auto.
        -- left. rewrite runs_delim. destruct (runs_app (w ++ [y]) [] NY) as (q & k & E & R). rewrite app_nil_r in R. rewrite R. injection E as <- <-. reflexivity.
      * destruct (ship_data d2 r2 H2) as (w2 & W2). destruct (ship_wire env key env' key' d2 r2 w2 H2 W2) as (N2 & NW2 & _ & L2').
        assert (EQ : (126 :: w ++ [y]) ++ concat (d2 :: ds) = 126 :: (w ++ [y]) ++ 126 :: (w2 ++ 126 :: concat ds)) by (cbn [concat]; rewrite W2, <- !app_assoc; cbn [app]; rewrite <- !app_assoc; reflexivity).
        cbn [app] in EQ. rewrite EQ. split; [apply manageable_frame; auto; apply manageable_open; [exact N2|lia|eapply all_size; eauto]|].
        rewrite runs_frame, ue_frame by exact NY. pose proof (harm_merged env key env' key' d r w H W y ltac:(congruence)) as HM.
        destruct (msg_decode env' key' (around (w ++ [y]))) as [n|e|] eqn:DE; [|left; reflexivity|left; reflexivity].
        right. exists n. split; [exact (HM n DE)|]. left.
        pose proof (stops_early fin w2 (126 :: concat ds)) as S. destruct (until_error env' key' fin (runs (w2 ++ 126 :: concat ds))). cbn [fst] in *. rewrite S; [reflexivity| |exact N2].
        destruct w2 as [|z w2]; [congruence|eauto].
    + (* a byte inside *)
      rewrite app_comm_cons, app_assoc in D. apply app_inj_tail in D as [D <-].
      assert (NU : ~ In 126 a) by (intros X; apply N; rewrite D; apply in_or_app; auto). assert (NV : ~ In 126 b') by (intros X; apply N; rewrite D; apply in_or_app; right; right; exact X).
      assert (LN : zlen a + zlen b' + 1 = zlen w) by (rewrite D; zl; lia). pose proof (zlen_nonneg a). pose proof (zlen_nonneg b').
      assert (EQ : (126 :: a ++ y :: b' ++ [126]) ++ concat ds = 126 :: (a ++ y :: b') ++ 126 :: concat ds) by (cbn [app]; rewrite <- !app_assoc; cbn [app]; rewrite <- !app_assoc; reflexivity).
      cbn [app] in EQ. rewrite EQ. clear EQ. destruct (Z.eq_dec y 126) as [->|NY].
      * assert (EQ : 126 :: (a ++ 126 :: b') ++ 126 :: concat ds = 126 :: a ++ 126 :: (b' ++ 126 :: concat ds)) by (rewrite <- app_assoc; reflexivity).
        rewrite EQ. clear EQ. split; [apply manageable_frame; [exact NU|lia|]; apply manageable_open; [exact NV|lia|eapply all_size; eauto]|].
        rewrite runs_frame, ue_frame by exact NU. pose proof (harm_cut env key env' key' d r w H W a x b' D) as HM.
        destruct (msg_decode env' key' (around a)) as [n|e|] eqn:DE; [|left; reflexivity|left; reflexivity].
        right. exists n. split; [exact (HM n DE)|]. left.
        assert (S : fst (until_error env' key' fin (runs (b' ++ 126 :: concat ds))) = []).
        { destruct b' as [|z b']; [|apply stops_early; eauto]. cbn [app]. rewrite runs_delim. destruct F as [|d2 r2 ds rs H2 F]; [reflexivity|].
          destruct (ship_data d2 r2 H2) as (w2 & W2). cbn [concat]. rewrite W2, <- !app_assoc. cbn [app]. rewrite runs_delim, ue_frame. reflexivity. }
        destruct (until_error env' key' fin (runs (b' ++ 126 :: concat ds))). cbn [fst] in *. rewrite S. reflexivity.
      * assert (NN : ~ In 126 (a ++ y :: b')) by (rewrite in_app_iff; intros [X|[X|X]]; [contradiction|congruence|contradiction]).
        split; [apply manageable_frame; [exact NN|zl; lia|eapply all_size; eauto]|].
        rewrite runs_frame, ue_frame by exact NN. pose proof (harm_inside env key env' key' d r w H W a x y b' D NE NY) as HM.
        destruct (msg_decode env' key' (around (a ++ y :: b'))) as [n|e|] eqn:DE; [|left; reflexivity|left; reflexivity].
        right. exists n. split; [exact (HM n DE)|]. right. rewrite (all_said fin ds rs F). reflexivity.
Qed.

Lemma damaged_stream ds rs s' cs tail : Forall2 ship ds rs -> one_changed (concat ds) s' -> concat cs = s' -> reads_ok cs -> quiet_tail tail ->
  exists da d d' db a r b ms e, ds = da ++ d :: db /\ rs = a ++ r :: b /\ length da = length a /\ one_changed d d' /\ s' = concat da ++ d' ++ concat db /\
    (ms = a \/ exists n, (n = r \/ m_body n = BNil) /\ (ms = a ++ [n] \/ ms = a ++ n :: b)) /\
    forall fuel, (length ms < fuel)%nat -> receive_all fuel env' key' [] (map RData cs ++ tail) = (ms, e).
Proof.
  intros F O C R Q. destruct (changed_where ds s' O) as (da & d & d' & db & -> & O' & S).
  apply Forall2_app_inv_l in F as (a & rb & FA & FB & ->). inversion FB as [|d0 r ds0 b H FB']; subst d0 ds0 rb.
  destruct (damaged (ending tail) d d' r db b H FB' O') as (M & OUT).
  assert (MS : manageable (concat cs)) by (rewrite C, S; eapply before_size; eauto).
  pose proof (before (ending tail) da a (d' ++ concat db) FA) as UE. set (o := until_error env' key' (ending tail) (runs (d' ++ concat db))) in *.
  exists da, d, d', db, a, r, b, (a ++ fst o), (snd o). split; [reflexivity|]. split; [reflexivity|]. split; [clear - FA; induction FA; cbn [length]; auto|]. split; [exact O'|]. split; [exact S|].
  split.
  - destruct OUT as [E|(n & NR & [E|E])]; rewrite E; [left; apply app_nil_r|right; exists n; auto|right; exists n; auto].
  - intros fuel L. pose proof (first_error env' key' cs tail R Q MS fuel) as FE. cbv zeta in FE. rewrite C, S, UE in FE. apply FE. exact L.
Qed.
End Stream.
