(** The room in the queues of the senders. *)
From Verif Require Import Base LibBase Env Registry EntTerm EntPlat Message Pool SpecPool ProofPool ProofPool3.

Lemma line_put s1 l1 l2 h c pl s l : nth_error (pl_lines pl) s1 = Some l1 ->
  nth_error (pl_lines (Pool h (put_nth s1 l2 (pl_lines pl)) c)) s = Some l -> (s = s1 /\ l = l2) \/ nth_error (pl_lines pl) s = Some l.
Proof.
  cbn [pl_lines]. intros E H. rewrite put_nth_get in H. destruct (Nat.eqb_spec s s1) as [->|]; [|now right]. rewrite E in H. injection H as <-. now left.
Qed.
Lemma room env ops pl evs : pool_runs env ops pl evs -> forall s l, nth_error (pl_lines pl) s = Some l -> (length (ln_queue l) <= 24)%nat.
Proof.
  revert ops pl evs. apply (pool_ind env (fun pl evs => forall s l, nth_error (pl_lines pl) s = Some l -> (length (ln_queue l) <= 24)%nat)); [intros [|s] l; discriminate|].
  intros pl evs op pl' es IH S s l E.
  destruct op; step S; unfold set_line in E; cbn [pl_heap pl_calls] in E; try (eapply IH; eassumption).
  1:{ cbn [pl_lines] in E. destruct (Nat.lt_ge_cases s (length (pl_lines pl))) as [L|L]; [rewrite nth_error_app1 in E by exact L; eapply IH; eassumption|].
      rewrite nth_error_app2 in E by exact L. destruct (s - _)%nat as [|[|?]]; try discriminate. injection E as <-. cbn. lia. }
  all: cbn [pl_lines] in E; match goal with H : nth_error (pl_lines _) ?x = Some ?y, E : nth_error (put_nth ?x ?l2 ?pls) _ = Some _ |- _ =>
     destruct (line_put x y l2 [] [] pl _ _ H E) as [[-> ->]|E']; [cbn [ln_queue]; pose proof (IH _ _ H)|eapply IH; eassumption] end.
  all: try assumption.
  all: try (match goal with H : ln_queue _ = _ |- _ => rewrite H in * end; cbn [length] in *; lia).
  match goal with H : (_ =? _)%nat = false |- _ => apply Nat.eqb_neq in H; rewrite app_length; cbn [length]; unfold chan_size in H; lia end.
Qed.
Definition why_closed (ops : list pool_op) (evs : list pool_event) (s : nat) : Prop :=
  In (BClose s) ops \/ (exists g m, In (VRefused g s m) evs) \/ (exists m v, In (VFailed s m v) evs).
Lemma why_more ops evs s op es : why_closed ops evs s -> why_closed (ops ++ [op]) (evs ++ es) s.
Proof.
  intros [H|[(g & m & H)|(m & v & H)]]; [left|right; left; exists g, m|right; right; exists m, v]; apply in_app_iff; now left.
Qed.
Lemma closed_why env : forall ops pl evs, pool_runs env ops pl evs -> forall s l, nth_error (pl_lines pl) s = Some l -> ln_closed l = true -> why_closed ops evs s.
Proof.
  induction ops as [|op ops IH] using rev_ind; intros pl evs R; unfold pool_runs in *.
  - injection R as <- <-. intros [|s] l; discriminate.
  - rewrite pool_run_app in R. destruct (pool_run env pool_init ops) as [[p1 e1]| |] eqn:R1; try discriminate. cbn [bind pool_run] in R.
    destruct (pool_step env p1 op) as [[p2 e2]| |] eqn:S; try discriminate. cbn [bind] in R. injection R as <- <-. rewrite app_nil_r.
    specialize (IH _ _ eq_refl). intros s l E C.
    destruct op; step S; unfold set_line in E; cbn [pl_heap pl_calls] in E; try (apply why_more; eapply IH; eassumption).
    1:{ cbn [pl_lines] in E. apply why_more. destruct (Nat.lt_ge_cases s (length (pl_lines p1))) as [L|L]; [rewrite nth_error_app1 in E by exact L; eapply IH; eassumption|].
        rewrite nth_error_app2 in E by exact L. destruct (s - _)%nat as [|[|?]]; try discriminate. injection E as <-. discriminate. }
    all: cbn [pl_lines] in E; match goal with H : nth_error (pl_lines _) ?x = Some ?y, E : nth_error (put_nth ?x ?l2 ?pls) _ = Some _ |- _ =>
       destruct (line_put x y l2 [] [] p1 _ _ H E) as [[-> ->]|E']; [cbn [ln_closed] in C|apply why_more; eapply IH; eassumption] end.
    all: try discriminate.
    all: try (apply why_more; eapply IH; eassumption).
    all: try (left; apply in_app_iff; right; now left).
    all: try (right; left; eexists _, _; apply in_app_iff; right; now left).
    all: right; right; eexists _, _; apply in_app_iff; right; now left.
Qed.
Lemma pool_moment_at env ops pl evs a ev b : pool_runs env ops pl evs -> evs = a ++ ev :: b ->
  exists ops1 op ops2 pl1 pl2, ops = ops1 ++ op :: ops2 /\ pool_runs env ops1 pl1 a /\ pool_step env pl1 op = Ok (pl2, [ev]).
Proof.
  revert pl evs a b. induction ops as [|op ops IH] using rev_ind; intros pl evs a b R E; unfold pool_runs in *.
  - injection R as _ <-. destruct a; discriminate.
  - rewrite pool_run_app in R. destruct (pool_run env pool_init ops) as [[p1 e1]| |] eqn:R1; try discriminate. cbn [bind pool_run] in R.
    destruct (pool_step env p1 op) as [[p2 e2]| |] eqn:S; try discriminate. cbn [bind] in R. injection R as _ <-. rewrite app_nil_r in E.
    assert (K : forall b', e1 = a ++ ev :: b' -> exists ops1 op0 ops2 pl1 pl2, ops ++ [op] = ops1 ++ op0 :: ops2 /\ pool_run env pool_init ops1 = Ok (pl1, a) /\ pool_step env pl1 op0 = Ok (pl2, [ev])).
    { intros b' E'. destruct (IH _ _ a b' eq_refl E') as (o1 & o & o2 & q1 & q2 & -> & A & B). exists o1, o, (o2 ++ [op]), q1, q2. rewrite <- app_assoc. now split. }
    destruct (pool_step_single _ _ _ _ _ S) as [->|(x & ->)].
    + rewrite app_nil_r in E. eapply K; eauto.
    + destruct b as [|y b _] using rev_ind.
      * apply app_inj_tail in E as [<- <-]. exists ops, op, [], p1, p2. now repeat split.
      * assert (E' : e1 ++ [x] = (a ++ ev :: b) ++ [y]) by (rewrite E, <- app_assoc; reflexivity). apply app_inj_tail in E' as [-> _]. eapply K; eauto.
Qed.
Lemma waiting_room env ops pl evs s : pool_runs env ops pl evs -> exists rest, accepted_posts s evs = dealt s evs ++ rest /\ (length rest <= 24)%nat.
Proof.
  intro R. exists (queue_of pl s). split; [exact (queues env ops pl evs R s)|]. unfold queue_of.
  destruct (nth_error (pl_lines pl) s) as [l|] eqn:E; [exact (room env ops pl evs R s l E)|cbn; lia].
Qed.
Lemma call_in l g c : call_of l g = Some c -> In (g, c) l.
Proof.
  induction l as [|[i x] t IH]; cbn; [discriminate|]. destruct (Nat.eqb_spec i g) as [->|]; intro H; [injection H as ->; now left|right; auto].
Qed.
Lemma refused_why env ops pl evs a g s m b : pool_runs env ops pl evs -> evs = a ++ VRefused g s m :: b ->
  (exists rest, accepted_posts s a = dealt s a ++ rest /\ length rest = 24%nat) \/ In (BClose s) ops \/
  (exists g' m', In (VRefused g' s m') a) \/ (exists m' v, In (VFailed s m' v) a).
Proof.
  intros R E. destruct (pool_moment_at env ops pl evs a _ b R E) as (ops1 & op & ops2 & p1 & p2 & -> & R1 & S).
  destruct (calls_ok env ops1 p1 a R1) as [_ B]. pose proof (queues env ops1 p1 a R1) as Q.
  destruct op; cbn [pool_step] in S; cbv zeta in S;
  repeat (first [discriminate | match type of S with context [match ?x with _ => _ end] => destruct x eqn:? end]); try discriminate; injection S as _ <- <- <-.
  - right. match goal with H : nth_error _ _ = Some ?l, C : ln_closed ?l = true |- _ => destruct (closed_why env ops1 p1 a R1 _ _ H C) as [X|X] end.
    + left. apply in_app_iff. now left.
    + right. exact X.
  - left. match goal with H : nth_error _ ?t = Some ?l, C : (_ =? chan_size)%nat = true |- _ => exists (ln_queue l); specialize (Q t); unfold queue_of in Q; rewrite H in Q; apply Nat.eqb_eq in C; now split end.
  - exfalso. match goal with H : call_of _ _ = Some _ |- _ => apply call_in in H; specialize (B _ H); cbn in B end.
    match goal with H : nth_error _ _ = None |- _ => apply nth_error_None in H; lia end.
Qed.
