(** Bodies shared between callers and send loops. *)
From Verif Require Import Base LibBase Bits Env Registry EntTerm EntPlat Message Session SpecSession SpecMsg ProofSession ProofBody4 Pool SpecPool.

Lemma put_nth_len {A} n (v : A) l : length (put_nth n v l) = length l.
Proof. revert n. induction l; intros [|n]; cbn; auto. Qed.
Lemma put_nth_get {A} n (v : A) l k : nth_error (put_nth n v l) k = if Nat.eqb k n then match nth_error l k with Some _ => Some v | None => None end else nth_error l k.
Proof. revert n k. induction l as [|x l IH]; intros [|n] [|k]; cbn; auto. destruct (Nat.eqb k n); reflexivity. Qed.
Definition queue_of (pl : pool) (s : nat) : list post := match nth_error (pl_lines pl) s with Some l => ln_queue l | None => [] end.
Definition next_of (pl : pool) (s : nat) : Z := match nth_error (pl_lines pl) s with Some l => ln_next l | None => 0 end.

(** ** Runs *)
Lemma pool_run_app env a : forall b pl, pool_run env pl (a ++ b) = do (p1, e1) <- pool_run env pl a ; do (p2, e2) <- pool_run env p1 b ; Ok (p2, e1 ++ e2).
Proof.
  induction a as [|op a IH]; intros b pl; cbn [app pool_run bind].
  - destruct (pool_run env pl b) as [[? ?]| |]; reflexivity.
  - destruct (pool_step env pl op) as [[p1 e1]| |]; [|reflexivity|reflexivity]. cbn [bind]. rewrite IH. destruct (pool_run env p1 a) as [[p2 e2]| |]; [|reflexivity|reflexivity]. cbn [bind].
    destruct (pool_run env p2 b) as [[p3 e3]| |]; [|reflexivity|reflexivity]. cbn [bind]. rewrite app_assoc. reflexivity.
Qed.
(** a property of states and logs kept by every step *)
Lemma pool_ind env (P : pool -> list pool_event -> Prop) : P pool_init [] ->
  (forall pl evs op pl' es, P pl evs -> pool_step env pl op = Ok (pl', es) -> P pl' (evs ++ es)) -> forall ops pl evs, pool_runs env ops pl evs -> P pl evs.
Proof.
  intros H0 HS ops. induction ops as [|op ops IH] using rev_ind; intros pl evs R; unfold pool_runs in *.
  - injection R as <- <-. exact H0.
  - rewrite pool_run_app in R. destruct (pool_run env pool_init ops) as [[p1 e1]| |]; try discriminate. cbn [bind pool_run] in R.
    destruct (pool_step env p1 op) as [[p2 e2]| |] eqn:S; try discriminate. cbn [bind] in R. injection R as <- <-. rewrite app_nil_r. eapply HS; eauto.
Qed.
(** every step has at most one effect *)
Lemma pool_step_single env pl op pl' es : pool_step env pl op = Ok (pl', es) -> es = [] \/ exists ev, es = [ev].
Proof.
  intros S. destruct op; cbn [pool_step] in S; cbv zeta in S;
    repeat (first [discriminate | match type of S with context [match ?x with _ => _ end] => destruct x end]); injection S as _ <-; eauto.
Qed.
(** the moment before an effect *)
Lemma pool_moment env ops pl evs a ev b : pool_runs env ops pl evs -> evs = a ++ ev :: b ->
  exists ops1 op pl1 pl2, pool_runs env ops1 pl1 a /\ pool_step env pl1 op = Ok (pl2, [ev]).
Proof.
  revert pl evs a b. induction ops as [|op ops IH] using rev_ind; intros pl evs a b R E; unfold pool_runs in *.
  - injection R as _ <-. destruct a; discriminate.
  - rewrite pool_run_app in R. destruct (pool_run env pool_init ops) as [[p1 e1]| |] eqn:R1; try discriminate. cbn [bind pool_run] in R.
    destruct (pool_step env p1 op) as [[p2 e2]| |] eqn:S; try discriminate. cbn [bind] in R. injection R as _ <-. rewrite app_nil_r in E.
    destruct (pool_step_single _ _ _ _ _ S) as [->|(x & ->)].
    + rewrite app_nil_r in E. eapply IH; eauto.
    + destruct b as [|y b _] using rev_ind.
      * apply app_inj_tail in E as [<- <-]. eauto 8.
      * assert (E' : e1 ++ [x] = (a ++ ev :: b) ++ [y]) by (rewrite E, <- app_assoc; reflexivity). apply app_inj_tail in E' as [-> _]. eapply IH; eauto.
Qed.
Ltac step S := cbn [pool_step] in S; cbv zeta in S;
  repeat (first [discriminate | match type of S with context [match ?x with _ => _ end] => destruct x eqn:? end]); injection S as <- <-.

(** ** The value of a body *)
Lemma value_snoc p evs es : value p (evs ++ es) = fold_left (after p) es (value p evs).
Proof. apply fold_left_app. Qed.
Lemma heap_value env ops pl evs : pool_runs env ops pl evs -> forall p, nth_error (pl_heap pl) p = value p evs.
Proof.
  revert ops pl evs. apply (pool_ind env (fun pl evs => forall p, nth_error (pl_heap pl) p = value p evs)); [intros [|p]; reflexivity|].
  intros pl evs op pl' es IH S p. rewrite value_snoc, <- IH. destruct op; step S; cbn [fold_left after pl_heap set_line po_ptr]; try reflexivity.
  1:{ destruct (Nat.eqb_spec (length (pl_heap pl)) p) as [<-|N].
    - rewrite nth_error_app2, Nat.sub_diag by lia. reflexivity.
    - destruct (Nat.lt_ge_cases p (length (pl_heap pl))); [apply nth_error_app1; assumption|].
      rewrite nth_error_app2 by lia. destruct (p - length (pl_heap pl))%nat as [|k] eqn:D; [lia|]. cbn. destruct k; symmetry; apply nth_error_None; lia. }
  all: match goal with |- nth_error (put_nth ?k _ _) ?x = _ => rewrite put_nth_get; destruct (Nat.eqb_spec x k) as [->|N];
         [rewrite Nat.eqb_refl; match goal with H : nth_error (pl_heap _) _ = Some _ |- _ => rewrite H end; reflexivity
         |destruct (Nat.eqb_spec k x); [congruence|reflexivity]] end.
Qed.

Lemma written_value env ops pl evs a s rnd m d b : pool_runs env ops pl evs -> evs = a ++ VWire s rnd m d :: b ->
  exists e, value (po_ptr m) a = Some e /\ frame_of env (po_hdr m) e rnd d.
Proof.
  intros R E. destruct (pool_moment env ops pl evs a _ b R E) as (ops1 & op & pl1 & pl2 & R1 & S). pose proof (heap_value env _ _ _ R1 (po_ptr m)) as H.
  destruct op; cbn [pool_step] in S; cbv zeta in S;
  repeat (first [discriminate | match type of S with context [match ?x with _ => _ end] => destruct x eqn:? end]); try discriminate.
  injection S as _ <- <- <- <-. rewrite <- H. eexists. split; [eassumption|]. unfold frame_of. eauto.
Qed.

(** ** Queues *)
Lemma accepted_app s a b : accepted_posts s (a ++ b) = accepted_posts s a ++ accepted_posts s b.
Proof. apply flat_map_app. Qed.
Lemma dealt_app s a b : dealt s (a ++ b) = dealt s a ++ dealt s b.
Proof. apply flat_map_app. Qed.
Lemma made_app s a b : made s (a ++ b) = made s a ++ made s b.
Proof. apply flat_map_app. Qed.
Lemma queue_put pl s l s' : nth_error (pl_lines pl) s <> None -> queue_of (set_line pl s l) s' = if Nat.eqb s' s then ln_queue l else queue_of pl s'.
Proof.
  intros H. unfold queue_of, set_line. cbn [pl_lines]. rewrite put_nth_get. destruct (Nat.eqb_spec s' s) as [->|]; [|reflexivity].
  destruct (nth_error (pl_lines pl) s); [reflexivity|congruence].
Qed.
Lemma queues env ops pl evs : pool_runs env ops pl evs -> forall s, accepted_posts s evs = dealt s evs ++ queue_of pl s.
Proof.
  revert ops pl evs. apply (pool_ind env (fun pl evs => forall s, accepted_posts s evs = dealt s evs ++ queue_of pl s)); [intros [|s]; reflexivity|].
  intros pl evs op pl' es IH S s. rewrite accepted_app, dealt_app, IH.
  assert (Q : forall s1 l1 l2 h c, nth_error (pl_lines pl) s1 = Some l1 ->
    queue_of (Pool h (put_nth s1 l2 (pl_lines pl)) c) s = if Nat.eqb s s1 then ln_queue l2 else queue_of pl s).
  { intros s1 l1 l2 h c E. exact (queue_put (Pool h (pl_lines pl) c) s1 l2 s ltac:(cbn; congruence)). }
  assert (K : forall s1 l1, nth_error (pl_lines pl) s1 = Some l1 -> queue_of pl s1 = ln_queue l1) by (intros s1 l1 E; unfold queue_of; rewrite E; reflexivity).
  destruct op; step S; unfold set_line; cbn [accepted_posts dealt flat_map pl_heap pl_lines pl_calls]; rewrite ?app_nil_r; try reflexivity.
  1:{ f_equal. unfold queue_of. cbn [pl_lines]. destruct (Nat.lt_ge_cases s (length (pl_lines pl))) as [L|L]; [rewrite nth_error_app1 by exact L; reflexivity|].
      rewrite nth_error_app2 by exact L. rewrite (proj2 (nth_error_None _ _) L). destruct (s - _)%nat as [|[|?]]; reflexivity. }
  all: match goal with H : nth_error (pl_lines _) ?x = Some ?y |- _ => erewrite (Q x y) by exact H; pose proof (K x y H) as K1; cbn [ln_queue];
         destruct (Nat.eqb_spec s x) as [->|N]; rewrite ?K1, ?Nat.eqb_refl; try (destruct (Nat.eqb_spec x s); [congruence|]); rewrite ?app_nil_r, <- ?app_assoc; try reflexivity end.
  all: match goal with H : ln_queue _ = _ |- _ => rewrite H; reflexivity | _ => idtac end.
Qed.
