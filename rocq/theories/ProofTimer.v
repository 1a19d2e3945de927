(** The operations of the timer in terms of deadlines. *)
From Coq Require Import Permutation Sorted.
From Verif Require Import Base LibBase Timer LibHeap SpecTimer.
Local Open Scope nat_scope.

Record good (h : hst) : Prop := { g_wf : wf_q h; g_heap : heap h (length (snd h)) }.

Lemma pop_ok h n : wf_q h -> length (snd h) = S n -> heap h n ->
  good (q_pop h) /\ same h (q_pop h) /\ Permutation (snd h) (nth n (snd h) 0 :: snd (q_pop h)).
Proof.
  intros W L H. destruct h as [st q]. cbn [q_pop fst snd] in *. rewrite L, Nat.sub_succ, Nat.sub_0_r.
  assert (P : nth n q 0 < length st) by (apply (wq_ptr _ W n); cbn [snd]; lia).
  assert (N : forall k, k < n -> nth k (firstn n q) 0 = nth k q 0).
  { intros k K. rewrite <- (firstn_skipn n q) at 2. rewrite app_nth1; auto. rewrite firstn_length. lia. }
  assert (FL : length (firstn n q) = n) by (rewrite firstn_length; lia).
  split; [|split].
  - constructor; [constructor|]; cbn [fst snd]; rewrite FL.
    + intros i I. rewrite N, set_index_len by auto. apply (wq_ptr _ W). cbn [snd]. lia.
    + intros i I. rewrite N, index_set by auto. destruct (Nat.eqb_spec (nth i q 0) (nth n q 0)) as [E|E].
      * apply (wf_inj (st, q)) in E; auto; cbn [snd]; lia.
      * apply (wq_idx _ W). cbn [snd]. lia.
    + intros k K. pose proof (H k K) as Hk. unfold ex in *. cbn [fst snd] in *. pose proof (par_lt k). rewrite !expire_set, !N by lia. exact Hk.
  - constructor; cbn [fst]; intros; rewrite ?set_index_len, ?key_set, ?expire_set; reflexivity.
  - rewrite <- (firstn_skipn n q) at 1. assert (S1 : skipn n q = [nth n q 0]).
    { assert (SL : length (skipn n q) = 1) by (rewrite skipn_length; lia). destruct (skipn n q) as [|x [|]] eqn:E; try (cbn in SL; lia).
      f_equal. rewrite <- (firstn_skipn n q), E, app_nth2, FL, Nat.sub_diag by (rewrite FL; lia). reflexivity. }
    rewrite S1. apply Permutation_sym, Permutation_cons_append.
Qed.
Lemma push_ok h p : good h -> p < length (fst h) -> ~ In p (snd h) ->
  good (heap_push h p) /\ same h (heap_push h p) /\ Permutation (p :: snd h) (snd (heap_push h p)).
Proof.
  intros [W H] P NI. destruct h as [st q]. cbn [fst snd] in *. unfold heap_push. set (h1 := q_push (st, q) p).
  assert (L1 : length (snd h1) = S (length q)) by (unfold h1; cbn [q_push snd]; rewrite app_length; cbn; lia).
  assert (N : forall k, k < length q -> nth k (snd h1) 0 = nth k q 0) by (intros; unfold h1; cbn [q_push snd]; apply app_nth1; auto).
  assert (NL : nth (length q) (snd h1) 0 = p) by (unfold h1; cbn [q_push snd]; rewrite app_nth2, Nat.sub_diag by lia; reflexivity).
  assert (SM : same (st, q) h1) by (constructor; cbn [h1 q_push fst]; intros; rewrite ?set_index_len, ?key_set, ?expire_set; reflexivity).
  assert (W1 : wf_q h1).
  { constructor; rewrite L1; intros i I; destruct (Nat.eq_dec i (length q)) as [->|D].
    - rewrite NL. cbn [h1 q_push fst]. rewrite set_index_len. auto.
    - rewrite N by lia. cbn [h1 q_push fst]. rewrite set_index_len. apply (wq_ptr _ W). cbn [snd]. lia.
    - rewrite NL. cbn [h1 q_push fst]. rewrite index_set, Nat.eqb_refl by auto. reflexivity.
    - rewrite N by lia. cbn [h1 q_push fst]. rewrite index_set by auto. destruct (Nat.eqb_spec (nth i q 0) p) as [E|E]; [exfalso; apply NI; rewrite <- E; apply nth_In; lia|].
      apply (wq_idx _ W). cbn [snd]. lia. }
  assert (X : forall k, k < length q -> ex h1 k = ex (st, q) k) by (intros; unfold ex; rewrite N by auto; apply (sm_exp _ _ SM)).
  rewrite L1, Nat.sub_succ, Nat.sub_0_r.
  destruct (up_ok (S (length q)) h1 (length q) (S (length q))) as (M & HP); try lia.
  - split.
    + intros k K K1 K2. pose proof (par_lt k). rewrite !X by lia. apply H. cbn [snd]. lia.
    + intros k K K1. pose proof (par_lt k). lia.
  - intros k K K1. pose proof (par_lt k). lia.
  - split; [|split].
    + constructor; [apply (mv_wf _ _ _ M); auto|]. rewrite (mv_len _ _ _ M), L1. exact HP.
    + eapply same_trans; [exact SM|apply (mv_same _ _ _ M)].
    + eapply Permutation_trans; [|apply (mv_perm _ _ _ M)]. unfold h1. cbn [q_push snd]. apply Permutation_cons_append.
Qed.
Lemma remove_ok h i : good h -> i < length (snd h) ->
  good (heap_remove h i) /\ same h (heap_remove h i) /\ Permutation (snd h) (nth i (snd h) 0 :: snd (heap_remove h i)).
Proof.
  intros [W H] I. unfold heap_remove. set (n := length (snd h) - 1). assert (L : length (snd h) = S n) by lia.
  destruct (Nat.eqb_spec n i) as [<-|D].
  - apply pop_ok; auto. intros k K. apply H. lia.
  - set (h1 := q_swap h i n). assert (M1 : moved h h1 (S n)) by (apply moved_swap; lia).
    assert (N1 : nth n (snd h1) 0 = nth i (snd h) 0).
    { unfold h1. destruct h as [st q]. cbn [q_swap snd] in *. rewrite nth_swap, Nat.eqb_refl by lia. reflexivity. }
    assert (X : forall k, k < n -> k <> i -> ex h1 k = ex h k).
    { intros k K K1. unfold h1. rewrite ex_swap by lia. destruct (Nat.eqb_spec k n); [lia|]. destruct (Nat.eqb_spec k i); [lia|]. reflexivity. }
    assert (HO : hole h1 n i).
    { split.
      - intros k K K1 K2. pose proof (par_lt k). rewrite !X by lia. apply H. lia.
      - intros k K K1 K2. pose proof (par_lt k). pose proof (par_lt i). rewrite !X by lia. apply Z.le_trans with (ex h i); [apply H; lia|]. rewrite <- K1. apply H. lia. }
    pose proof (fix_ok h1 i n ltac:(lia) ltac:(rewrite (mv_len _ _ _ M1); lia) HO (S n) (S n) ltac:(lia) ltac:(lia)) as F.
    destruct (heap_down (S n) h1 i n) as [h2 i']. cbv zeta in F. set (h3 := if i <? i' then h2 else heap_up (S n) h2 i) in *. destruct F as (M2 & H3).
    destruct (pop_ok h3 n) as (A & B & C); auto.
    + apply (mv_wf _ _ _ M2), (mv_wf _ _ _ M1), W.
    + rewrite (mv_len _ _ _ M2), (mv_len _ _ _ M1). exact L.
    + split; auto. split.
      * eapply same_trans; [apply (mv_same _ _ _ M1)|]. eapply same_trans; [apply (mv_same _ _ _ M2)|exact B].
      * rewrite <- N1, <- (mv_rest _ _ _ M2 n) by lia. eapply Permutation_trans; [apply (mv_perm _ _ _ M1)|]. eapply Permutation_trans; [apply (mv_perm _ _ _ M2)|exact C].
Qed.
Lemma q_remove_ok h p : good h -> In p (snd h) -> exists h', q_remove h p = Ok h' /\ good h' /\ same h h' /\ Permutation (snd h) (p :: snd h').
Proof.
  intros G P. apply In_nth with (d := 0) in P. destruct P as (i & I & E). unfold q_remove.
  pose proof (wq_idx _ (g_wf _ G) i I) as X. rewrite E in X. rewrite X. unfold zlen.
  replace ((Z.of_nat i <? 0)%Z || (Z.of_nat (length (snd h)) <=? Z.of_nat i)%Z) with false by lia. rewrite Nat2Z.id.
  eexists. split; [reflexivity|]. rewrite <- E. apply remove_ok; auto.
Qed.

(** expirationQueue.Update *)
Lemma q_update_ok h p x : good h -> In p (snd h) -> exists h', q_update h p x = Ok h' /\ good h' /\ Permutation (snd h) (snd h') /\
  (forall a, e_key (deref (fst h') a) = e_key (deref (fst h) a)) /\
  (forall a, e_expire (deref (fst h') a) = if a =? p then x else e_expire (deref (fst h) a)).
Proof.
  intros G P. destruct G as [W H]. apply In_nth with (d := 0) in P. destruct P as (i & I & E). unfold q_update.
  pose proof (wq_idx _ W i I) as X. rewrite E in X. rewrite X. unfold zlen.
  replace ((Z.of_nat i <? 0)%Z || (Z.of_nat (length (snd h)) <=? Z.of_nat i)%Z) with false by lia. rewrite Nat2Z.id.
  pose proof (wq_ptr _ W i I) as PT. rewrite E in PT. destruct h as [st q]. cbn [fst snd] in *.
  set (h1 := (set_expire st p x, q)).
  assert (D : forall a, deref (fst h1) a = if a =? p then Elem (e_key (deref st p)) (e_index (deref st p)) x else deref st a).
  { intros a. unfold h1, set_expire, deref. cbn [fst]. rewrite upd_nth_at. destruct (Nat.eqb_spec a p), (Nat.ltb_spec p (length st)); try lia; reflexivity. }
  assert (W1 : wf_q h1).
  { constructor; cbn [h1 fst snd]; intros k K.
    - unfold set_expire. rewrite upd_len. apply (wq_ptr _ W). auto.
    - change (set_expire st p x) with (fst h1). rewrite D. destruct (Nat.eqb_spec (nth k q 0) p) as [F|F]; [rewrite <- F|]; apply (wq_idx _ W); auto. }
  assert (EX : forall k, k < length q -> k <> i -> ex h1 k = ex (st, q) k).
  { intros k K K1. unfold ex. rewrite D. cbn [h1 snd fst]. destruct (Nat.eqb_spec (nth k q 0) p) as [F|F]; auto. rewrite <- F in E. apply (wf_inj (st, q)) in E; auto. lia. }
  assert (HO : hole h1 (length q) i).
  { split.
    - intros k K K1 K2. pose proof (par_lt k). rewrite !EX by lia. apply H. cbn [snd]. lia.
    - intros k K K1 K2. pose proof (par_lt k). pose proof (par_lt i). rewrite !EX by lia. apply Z.le_trans with (ex (st, q) i); [apply H; cbn [snd]; lia|]. rewrite <- K1. apply H. cbn [snd]. lia. }
  unfold heap_fix. cbn [h1 snd]. fold h1.
  pose proof (fix_ok h1 i (length q) I ltac:(cbn [h1 snd]; lia) HO (S (length q)) (S (length q)) ltac:(lia) ltac:(lia)) as F.
  destruct (heap_down (S (length q)) h1 i (length q)) as [h2 i']. cbv zeta in F. destruct F as (M & HP).
  eexists. split; [reflexivity|]. split; [|split; [|split]].
  - constructor; [apply (mv_wf _ _ _ M); auto|]. rewrite (mv_len _ _ _ M). exact HP.
  - apply (mv_perm _ _ _ M).
  - intros a. rewrite (sm_key _ _ (mv_same _ _ _ M)), D. destruct (Nat.eqb_spec a p) as [->|]; reflexivity.
  - intros a. rewrite (sm_exp _ _ (mv_same _ _ _ M)), D. destruct (Nat.eqb_spec a p) as [->|]; reflexivity.
Qed.

(** ** The map *)
Lemma map_get_in m k p : map_get m k = Some p -> In (k, p) m.
Proof. induction m as [|[k' p'] m IH]; cbn; [discriminate|]. destruct (Z.eqb_spec k' k); [intros H; injection H as ->; subst; auto|auto]. Qed.
Lemma map_get_del m k x : map_get (map_del m k) x = if (x =? k)%Z then None else map_get m x.
Proof.
  induction m as [|[k' p'] m IH]; cbn [map_del map_get]; [destruct (x =? k)%Z; reflexivity|].
  destruct (Z.eqb_spec k' k) as [E|E]; [rewrite IH|cbn [map_get]; rewrite IH]; destruct (Z.eqb_spec x k); auto; destruct (Z.eqb_spec k' x); subst; congruence.
Qed.
Lemma map_get_set m k p x : map_get (map_set m k p) x = if (x =? k)%Z then Some p else map_get m x.
Proof. unfold map_set. cbn [map_get]. rewrite map_get_del. destruct (Z.eqb_spec x k), (Z.eqb_spec k x); auto; lia. Qed.

(** ** The timer in any state *)
Definition hof (t : timer) : hst := (tm_store t, tm_q t).
Definition key_of (t : timer) (p : nat) : Z := e_key (deref (tm_store t) p).
Definition exp_of (t : timer) (p : nat) : Z := e_expire (deref (tm_store t) p).
Record tinv (t : timer) : Prop := {
  ti_good : good (hof t);
  ti_map : forall k p, map_get (tm_map t) k = Some p -> In p (tm_q t) /\ key_of t p = k }.
Lemma good_lt t p : good (hof t) -> In p (tm_q t) -> p < length (tm_store t).
Proof. intros G P. apply In_nth with (d := 0) in P. destruct P as (i & I & <-). apply (wq_ptr _ (g_wf _ G)). exact I. Qed.

Lemma tinv_new s : tinv (timer_new s).
Proof. constructor; [|cbn; discriminate]. constructor; [constructor|]; intros i I; cbn [hof timer_new snd tm_q length] in I; lia. Qed.
(** [t'] has the same elements in its memory as [t]. *)
Definition keeps (t t' : timer) : Prop := tm_seconds t' = tm_seconds t /\ forall p, key_of t' p = key_of t p /\ exp_of t' p = exp_of t p.

Lemma remove_step t k : tinv t -> exists t', timer_remove t k = Ok t' /\ tinv t' /\ keeps t t' /\
  (forall x, map_get (tm_map t') x = if (x =? k)%Z then None else map_get (tm_map t) x) /\
  match map_get (tm_map t) k with
  | Some p => Permutation (tm_q t) (p :: tm_q t')
  | None => tm_q t' = tm_q t
  end.
Proof.
  intros [G M]. unfold timer_remove. destruct (map_get (tm_map t) k) as [p|] eqn:E.
  - destruct (M k p E) as (P & K). destruct (q_remove_ok (hof t) p G P) as (h' & Q & G' & S & PM). unfold hof in Q. rewrite Q. cbn [bind].
    eexists. split; [reflexivity|]. cbn [tm_map tm_q].
    assert (KK : keeps t (Timer (tm_seconds t) (fst h') (snd h') (map_del (tm_map t) k))).
    { split; [reflexivity|]. intros x. split; [apply (sm_key _ _ S)|apply (sm_exp _ _ S)]. }
    split; [|split; [exact KK|split; [intros; apply map_get_del|exact PM]]].
    constructor; [unfold hof; cbn [tm_store tm_q]; destruct h'; exact G'|]. cbn [tm_map tm_q]. intros k1 p1. rewrite map_get_del. destruct (Z.eqb_spec k1 k); [discriminate|].
    intros H. destruct (M k1 p1 H) as (A & B). split; [|rewrite (proj1 (proj2 KK p1)); exact B].
    apply (Permutation_in _ PM) in A. destruct A as [<-|A]; auto. congruence.
  - exists t. split; [reflexivity|]. split; [constructor; auto|]. split; [split; auto|]. split; auto. intros x. destruct (Z.eqb_spec x k); subst; auto.
Qed.
Lemma insert_step t k x : tinv t -> let t' := timer_insert t k x in let p := length (tm_store t) in
  tinv t' /\ tm_seconds t' = tm_seconds t /\ key_of t' p = k /\ exp_of t' p = x /\ ~ In p (tm_q t) /\
  (forall a, In a (tm_q t) -> key_of t' a = key_of t a /\ exp_of t' a = exp_of t a) /\
  Permutation (p :: tm_q t) (tm_q t') /\ (forall y, map_get (tm_map t') y = if (y =? k)%Z then Some p else map_get (tm_map t) y).
Proof.
  intros [G M] t' p.
  assert (NI : ~ In p (tm_q t)) by (intros H; apply (good_lt t) in H; auto; unfold p in H; lia).
  set (h0 := (tm_store t ++ [Elem k 0 x], tm_q t)).
  assert (D : forall a, In a (tm_q t) -> deref (fst h0) a = deref (tm_store t) a).
  { intros a A. unfold deref, h0. cbn [fst]. apply app_nth1. apply (good_lt t); auto. }
  assert (DP : deref (fst h0) p = Elem k 0 x) by (unfold deref, h0, p; cbn [fst]; rewrite app_nth2, Nat.sub_diag by lia; reflexivity).
  assert (G0 : good h0).
  { destruct G as [W H]. constructor; [constructor|]; cbn [h0 snd]; intros i I.
    - change (nth i (tm_q t) 0 < length (tm_store t ++ [Elem k 0 x])). rewrite app_length. pose proof (wq_ptr _ W i I) as PI. cbn [hof fst snd length] in *. lia.
    - change (e_index (deref (fst h0) (nth i (tm_q t) 0)) = Z.of_nat i). rewrite D by (apply nth_In; auto). apply (wq_idx _ W). exact I.
    - pose proof (H i I) as HI. pose proof (par_lt i ltac:(lia)). unfold ex in *. change (snd h0) with (tm_q t). cbn [h0 snd] in I. rewrite !D by (apply nth_In; lia). exact HI. }
  destruct (push_ok h0 p G0) as (A & B & C); auto. { unfold h0, p. cbn [fst]. rewrite app_length. cbn. lia. }
  assert (K : key_of t' p = k). { unfold key_of, t', timer_insert. cbn [tm_store]. fold h0. fold p. rewrite (sm_key _ _ B), DP. reflexivity. }
  assert (E : exp_of t' p = x). { unfold exp_of, t', timer_insert. cbn [tm_store]. fold h0. fold p. rewrite (sm_exp _ _ B), DP. reflexivity. }
  assert (O : forall a, In a (tm_q t) -> key_of t' a = key_of t a /\ exp_of t' a = exp_of t a).
  { intros a Ha. unfold key_of, exp_of, t', timer_insert. cbn [tm_store]. fold h0. fold p. rewrite (sm_key _ _ B), (sm_exp _ _ B), D by auto. auto. }
  assert (MG : forall y, map_get (tm_map t') y = if (y =? k)%Z then Some p else map_get (tm_map t) y) by (intros; apply map_get_set).
  split; [|auto 10]. constructor.
  - unfold hof, t', timer_insert. cbn [tm_store tm_q]. fold h0. fold p. destruct (heap_push h0 p). exact A.
  - intros k1 p1. rewrite MG. change (tm_q t') with (snd (heap_push h0 p)). destruct (Z.eqb_spec k1 k) as [->|].
    + intros H. injection H as <-. split; auto. apply (Permutation_in _ C). left. reflexivity.
    + intros H. destruct (M k1 p1 H) as (X & Y). split; [apply (Permutation_in _ C); right; exact X|]. rewrite (proj1 (O p1 X)). exact Y.
Qed.
(** The minimum is at the front. *)
Lemma heap_min h : heap h (length (snd h)) -> forall k, k < length (snd h) -> (ex h 0 <= ex h k)%Z.
Proof.
  intros H k. induction k as [k IH] using lt_wf_ind. intros K. destruct k as [|k]; [lia|]. pose proof (par_lt (S k) ltac:(lia)). pose proof (IH (par (S k)) H0 ltac:(lia)). pose proof (H (S k) ltac:(lia)). lia.
Qed.
Lemma tick_step fuel : forall t now, tinv t -> length (tm_q t) < fuel -> exists t' ps, timer_tick fuel t now = Ok (t', map (key_of t) ps) /\
  tinv t' /\ keeps t t' /\ Permutation (tm_q t) (ps ++ tm_q t') /\
  Forall (fun p => (exp_of t p <= now)%Z) ps /\ Forall (fun p => (now < exp_of t p)%Z) (tm_q t') /\ StronglySorted Z.le (map (exp_of t) ps) /\
  (forall x, map_get (tm_map t') x = if existsb (Z.eqb x) (map (key_of t) ps) then None else map_get (tm_map t) x).
Proof.
  induction fuel as [|fuel IH]; intros t now I F; [lia|]. cbn [timer_tick]. destruct (tm_q t) as [|top q] eqn:Q.
  { exists t, []. split; [reflexivity|]. rewrite Q. split; auto. split; [split; auto|]. split; [constructor|]. repeat split; constructor. }
  assert (MIN : forall p, In p (tm_q t) -> (exp_of t top <= exp_of t p)%Z).
  { intros p P. apply In_nth with (d := 0) in P. destruct P as (i & Hi & <-). pose proof (heap_min _ (g_heap _ (ti_good t I)) i Hi) as HM.
    unfold ex, hof in HM. cbn [fst snd] in HM. rewrite Q in HM at 1. exact HM. }
  fold (exp_of t top). fold (key_of t top). destruct (Z.ltb_spec now (exp_of t top)) as [L|L].
  { exists t, []. split; [reflexivity|]. split; auto. split; [split; auto|]. split; [rewrite ?Q; apply Permutation_refl|]. split; [constructor|].
    split; [|repeat split; constructor]. apply Forall_forall. intros p P. specialize (MIN p P). lia. }
  destruct (q_remove_ok (hof t) top (ti_good t I)) as (h' & QR & G' & S & PM). { cbn [hof snd]. rewrite Q. left. reflexivity. }
  unfold hof in QR. rewrite Q in QR. rewrite QR. cbn [bind].
  set (t1 := Timer (tm_seconds t) (fst h') (snd h') (map_del (tm_map t) (key_of t top))).
  assert (K1 : keeps t t1) by (split; [reflexivity|]; intros x; split; [apply (sm_key _ _ S)|apply (sm_exp _ _ S)]).
  cbn [hof snd] in PM. fold (tm_q t1) in PM. change (snd h') with (tm_q t1) in PM.
  assert (I1 : tinv t1).
  { constructor; [unfold hof, t1; cbn [tm_store tm_q]; destruct h'; exact G'|]. intros k p. cbn [t1 tm_map]. rewrite map_get_del. destruct (Z.eqb_spec k (key_of t top)); [discriminate|].
    intros H. destruct (ti_map t I k p H) as (A & B). rewrite (proj1 (proj2 K1 p)). split; auto. apply (Permutation_in _ PM) in A. destruct A as [<-|A]; auto. congruence. }
  assert (LEN : length (tm_q t1) < fuel) by (pose proof (Permutation_length PM) as PL; rewrite Q in PL; cbn [length] in *; lia).
  destruct (IH t1 now I1 LEN) as (t' & ps & E & I' & K' & P' & D & N & SS & MG). rewrite E. cbn [bind].
  assert (KE : map (key_of t1) ps = map (key_of t) ps) by (apply map_ext; intros; apply K1).
  assert (EE : map (exp_of t1) ps = map (exp_of t) ps) by (apply map_ext; intros; apply K1).
  rewrite KE in *. rewrite EE in *.
  exists t', (top :: ps). split; [reflexivity|]. split; auto.
  split; [split; [rewrite (proj1 K'); reflexivity|]; intros x; split; [rewrite (proj1 (proj2 K' x))|rewrite (proj2 (proj2 K' x))]; apply K1|].
  split; [rewrite <- Q; eapply Permutation_trans; [exact PM|]; cbn [app]; constructor; exact P'|].
  assert (X : forall p, exp_of t1 p = exp_of t p) by (intros; apply K1).
  split; [constructor; auto; eapply Forall_impl; [|exact D]; cbn beta; intros a; rewrite X; auto|].
  split; [eapply Forall_impl; [|exact N]; cbn beta; intros a; rewrite X; auto|].
  split.
  - cbn [map]. constructor; auto. apply Forall_forall. intros y Hy. apply in_map_iff in Hy. destruct Hy as (p & <- & Hp). apply MIN.
    apply (Permutation_in _ (Permutation_sym PM)). right. apply (Permutation_in _ (Permutation_sym P')). apply in_or_app. auto.
  - intros x. rewrite MG. cbn [map existsb t1 tm_map]. rewrite map_get_del. destruct (x =? key_of t top)%Z; cbn [orb]; [destruct (existsb _ _); reflexivity|reflexivity].
Qed.
