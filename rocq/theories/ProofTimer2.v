(** The timer does what SpecTimer says. *)
From Coq Require Import Permutation Sorted.
From Verif Require Import Base LibBase Timer LibHeap SpecTimer ProofTimer.

Record tight (t : timer) : Prop := {
  tg_inv : tinv t;
  tg_all : forall p, In p (tm_q t) -> map_get (tm_map t) (key_of t p) = Some p }.
Definition view (t : timer) (f : dls) : Prop :=
  forall k, f k = match map_get (tm_map t) k with Some p => Some (exp_of t p) | None => None end.

Lemma tight_new s : tight (timer_new s). Proof. constructor; [apply tinv_new|intros p []]. Qed.
Lemma view_new s : view (timer_new s) none_due. Proof. intros k. reflexivity. Qed.
Lemma tight_nodup t : tight t -> NoDup (tm_q t).
Proof. intros T. apply (wf_nodup (hof t)), g_wf, ti_good, T. Qed.
Lemma tight_remove t k f : tight t -> view t f -> exists t', timer_remove t k = Ok t' /\ tight t' /\ view t' (put f k None) /\ tm_seconds t' = tm_seconds t.
Proof.
  intros T V. destruct (remove_step t k (tg_inv t T)) as (t' & E & I & K & M & Q). exists t'. split; auto.
  assert (S : forall p, In p (tm_q t') -> In p (tm_q t) /\ key_of t p <> k).
  { destruct (map_get (tm_map t) k) as [p0|] eqn:G.
    - intros p P. assert (P' : In p (tm_q t)) by (apply (Permutation_in _ (Permutation_sym Q)); right; auto). split; auto. intros X.
      pose proof (tg_all t T p P') as Y. rewrite X, G in Y. injection Y as ->. pose proof (tight_nodup t T) as N. apply (Permutation_NoDup Q) in N. inversion N. contradiction.
    - rewrite Q. intros p P. split; auto. intros X. pose proof (tg_all t T p P) as Y. rewrite X, G in Y. discriminate. }
  split; [|split; [|apply K]].
  - constructor; auto. intros p P. destruct (S p P) as (A & B). rewrite M, (proj1 (proj2 K p)). destruct (Z.eqb_spec (key_of t p) k); [contradiction|]. apply (tg_all t T); auto.
  - intros x. unfold put. rewrite M. destruct (x =? k); auto. rewrite V. destruct (map_get (tm_map t) x); auto. f_equal. symmetry. apply K.
Qed.
Lemma tight_insert t k x f : tight t -> view t f -> f k = None -> tight (timer_insert t k x) /\ view (timer_insert t k x) (put f k (Some x)) /\ tm_seconds (timer_insert t k x) = tm_seconds t.
Proof.
  intros T V N. destruct (insert_step t k x (tg_inv t T)) as (I & S & K & X & NI & O & P & M).
  rewrite V in N. destruct (map_get (tm_map t) k) as [p0|] eqn:G; [discriminate|]. split; [|split; auto].
  - constructor; auto. intros p Hp. apply (Permutation_in _ (Permutation_sym P)) in Hp. rewrite M. destruct Hp as [<-|Hp]; [rewrite K, Z.eqb_refl; reflexivity|].
    rewrite (proj1 (O p Hp)). pose proof (tg_all t T p Hp) as Y. destruct (Z.eqb_spec (key_of t p) k) as [E|]; auto. rewrite E, G in Y. discriminate.
  - intros y. unfold put. rewrite M. destruct (y =? k); [rewrite X; reflexivity|]. rewrite V. destruct (map_get (tm_map t) y) as [p|] eqn:E; auto. f_equal. symmetry. apply O.
    apply (ti_map t (tg_inv t T) y p E).
Qed.
Lemma existsb_in x l : existsb (Z.eqb x) l = true <-> In x l.
Proof. rewrite existsb_exists. split; [intros (y & H & E); apply Z.eqb_eq in E; subst; auto|intros H; exists x; split; auto; apply Z.eqb_refl]. Qed.
Lemma map_inj_nodup {A B} (g : A -> B) l : NoDup l -> (forall x y, In x l -> In y l -> g x = g y -> x = y) -> NoDup (map g l).
Proof.
  intros N. induction N as [|a l H N IH]; intros I; cbn; constructor.
  - intros M. apply in_map_iff in M. destruct M as (y & E & Y). apply H. rewrite (I a y); cbn; auto.
  - apply IH. intros. apply I; cbn; auto.
Qed.
Lemma tight_tick t now f : tight t -> view t f -> exists t' keys, timer_check t now = Ok (t', keys) /\ tight t' /\ view t' (without_expired f now) /\ tm_seconds t' = tm_seconds t /\ fires f now keys.
Proof.
  intros T V. unfold timer_check. destruct (tick_step (S (length (tm_q t))) t now (tg_inv t T) (Nat.lt_succ_diag_r _)) as (t' & ps & E & I & K & P & D & L & SS & M).
  exists t', (map (key_of t) ps). split; auto.
  assert (IN : forall p, In p (ps ++ tm_q t') -> In p (tm_q t)) by (intros p; apply (Permutation_in _ (Permutation_sym P))).
  assert (INJ : forall a b, In a (tm_q t) -> In b (tm_q t) -> key_of t a = key_of t b -> a = b).
  { intros a b A B X. pose proof (tg_all t T a A) as Y. pose proof (tg_all t T b B) as Z. rewrite X in Y. congruence. }
  assert (ND : NoDup (ps ++ tm_q t')) by (apply (Permutation_NoDup P), tight_nodup, T).
  assert (EXP : forall k, expired f now k = true <-> In k (map (key_of t) ps)).
  { intros k. unfold expired. rewrite V. split.
    - destruct (map_get (tm_map t) k) as [p|] eqn:G; [|discriminate]. intros H. destruct (ti_map t (tg_inv t T) k p G) as (A & B). apply (Permutation_in _ P) in A.
      apply in_app_or in A. destruct A as [A|A]; [rewrite <- B; apply in_map; auto|]. rewrite Forall_forall in L. apply L in A. lia.
    - intros H. apply in_map_iff in H. destruct H as (p & <- & H). rewrite (tg_all t T p) by (apply IN, in_or_app; auto). rewrite Forall_forall in D. apply D in H. lia. }
  split; [|split; [|split]].
  - constructor; auto. intros p Hp. rewrite (proj1 (proj2 K p)), M.
    destruct (existsb (Z.eqb (key_of t p)) (map (key_of t) ps)) eqn:X; [|apply (tg_all t T), IN, in_or_app; auto].
    exfalso. apply existsb_in, in_map_iff in X. destruct X as (a & X & A). assert (a = p) by (apply INJ; auto; apply IN, in_or_app; auto). subst a.
    apply in_split in A. destruct A as (l1 & l2 & ->). rewrite <- app_assoc in ND. cbn [app] in ND. apply NoDup_remove_2 in ND. apply ND. rewrite !in_app_iff. auto.
  - intros k. unfold without_expired. rewrite M. destruct (expired f now k) eqn:X.
    + apply EXP in X. apply existsb_in in X. rewrite X. reflexivity.
    + destruct (existsb (Z.eqb k) (map (key_of t) ps)) eqn:Y; [apply existsb_in, EXP in Y; congruence|]. rewrite V. destruct (map_get (tm_map t) k); auto. f_equal. symmetry. apply K.
  - apply K.
  - split; [|split].
    + apply map_inj_nodup.
      * clear - ND. induction ps; [constructor|]. cbn [app] in ND. inversion ND; subst. constructor; auto. intros H. apply H1. apply in_or_app. auto.
      * intros a b A B. apply INJ; apply IN, in_or_app; auto.
    + intros k. split; apply EXP.
    + exists (map (exp_of t) ps). split; auto. rewrite !map_map. apply map_ext_in. intros p Hp. rewrite V, (tg_all t T p) by (apply IN, in_or_app; auto). reflexivity.
Qed.
Lemma tight_set t n f : tight t -> view t f -> tight (timer_set_expiration t n) /\ view (timer_set_expiration t n) f /\ tm_seconds (timer_set_expiration t n) = (if 0 <? n then n else tm_seconds t).
Proof. intros [[G M] A] V. unfold timer_set_expiration. destruct (0 <? n); split; auto; try (constructor; auto; constructor; auto). Qed.

(** ** Calls that do not overlap *)
Lemma urun_conforms dead ops : forall t f, tight t -> view t f ->
  (forall s now, In s (tm_seconds t :: flat_map (fun o => match o with USet n => [n] | _ => [] end) ops) ->
     In now (flat_map (fun o => match o with UUpdate _ n => [n] | _ => [] end) ops) -> s64 (now + s) = dead now s) ->
  exists t' out, urun t ops = Ok (t', out) /\ conforms dead (Tspec (tm_seconds t) f) ops out.
Proof.
  induction ops as [|o ops IH]; intros t f T V H; [exists t, []; split; [reflexivity|exact I]|].
  destruct o as [k now|k|n|now]; cbn [urun ustep].
  - unfold timer_update. destruct (tight_remove t k f T V) as (t1 & E & T1 & V1 & S1). rewrite E. cbn [bind].
    destruct (tight_insert t1 k (deadline t now) _ T1 V1) as (T2 & V2 & S2). { unfold put. rewrite Z.eqb_refl. reflexivity. }
    destruct (IH _ _ T2 V2) as (t' & out & R & C).
    { rewrite S2, S1. intros s x A B. apply H; cbn [flat_map app]; [exact A|right; exact B]. }
    rewrite R. cbn [bind]. exists t', ([] :: out). split; auto. split; auto. cbn [spec_step ts_secs ts_dl]. rewrite S2, S1 in C.
    assert (DD : deadline t now = dead now (tm_seconds t)) by (apply H; cbn; auto).
    revert C. rewrite DD. clear. intros C.
    assert (X : forall ops out s f g, (forall x, f x = g x) -> conforms dead (Tspec s f) ops out -> conforms dead (Tspec s g) ops out).
    { clear. induction ops as [|o ops IH]; intros [|ks out] s f g E C; cbn [conforms] in *; auto. destruct C as (A & B). split.
      - destruct o; auto. destruct A as (N & D & ds & M & SS). split; auto. split; [intros k; rewrite D; unfold expired; cbn [ts_dl]; rewrite E; tauto|].
        exists ds. split; auto. rewrite <- M. apply map_ext. intros. cbn [ts_dl]. auto.
      - destruct o; cbn [spec_step ts_secs ts_dl] in *.
        + eapply IH; [|exact B]. intros x. unfold put. destruct (x =? key); auto.
        + eapply IH; [|exact B]. intros x. unfold put. destruct (x =? key); auto.
        + destruct (0 <? seconds); eapply IH; try exact B; auto.
        + eapply IH; [|exact B]. intros x. unfold without_expired, expired. rewrite E. reflexivity. }
    eapply X; [|exact C]. intros x. unfold put. destruct (x =? k); reflexivity.
  - destruct (tight_remove t k f T V) as (t1 & E & T1 & V1 & S1). rewrite E. cbn [bind].
    destruct (IH _ _ T1 V1) as (t' & out & R & C). { rewrite S1. exact H. }
    rewrite R. cbn [bind]. exists t', ([] :: out). split; auto. split; auto. rewrite S1 in C. exact C.
  - cbn [bind]. destruct (tight_set t n f T V) as (T1 & V1 & S1). destruct (IH _ _ T1 V1) as (t' & out & R & C).
    { rewrite S1. intros s x A B. apply H; auto. cbn [flat_map app]. destruct A as [<-|A]; [destruct (0 <? n); cbn; auto|cbn; auto]. }
    rewrite R. cbn [bind]. exists t', ([] :: out). split; auto. split; auto. rewrite S1 in C. cbn [spec_step ts_secs ts_dl]. destruct (0 <? n); exact C.
  - destruct (tight_tick t now f T V) as (t1 & keys & E & T1 & V1 & S1 & F). rewrite E. cbn [bind].
    destruct (IH _ _ T1 V1) as (t' & out & R & C). { rewrite S1. exact H. }
    rewrite R. cbn [bind]. exists t', (keys :: out). split; auto. split; [exact F|]. rewrite S1 in C. exact C.
Qed.
Lemma s64_wrapped now s : s64 (now + s) = wrapped now s. Proof. reflexivity. Qed.
Lemma timer_exact_wrapped s0 ops : exists t out, urun (timer_new s0) ops = Ok (t, out) /\ conforms wrapped (Tspec s0 none_due) ops out.
Proof. apply (urun_conforms wrapped ops (timer_new s0) none_due (tight_new s0) (view_new s0)). intros. apply s64_wrapped. Qed.
Lemma s64_id x : - 2 ^ 63 <= x < 2 ^ 63 -> s64 x = x.
Proof. unfold s64. intros. rewrite Z.mod_small; lia. Qed.
Lemma timer_exact s0 ops : ordinary s0 -> Forall ordinary_op ops ->
  exists t out, urun (timer_new s0) ops = Ok (t, out) /\ conforms Z.add (Tspec s0 none_due) ops out.
Proof.
  intros S0 O. apply (urun_conforms Z.add ops (timer_new s0) none_due (tight_new s0) (view_new s0)). cbn [tm_seconds timer_new]. intros s now A B.
  assert (X : ordinary s). { destruct A as [<-|A]; auto. apply in_flat_map in A. destruct A as (o & P & Q). rewrite Forall_forall in O. apply O in P. destruct o; cbn [In] in Q; try contradiction; destruct Q as [<-|[]]; exact P. }
  assert (Y : ordinary now). { apply in_flat_map in B. destruct B as (o & P & Q). rewrite Forall_forall in O. apply O in P. destruct o; cbn [In] in Q; try contradiction; destruct Q as [<-|[]]; exact P. }
  apply s64_id. unfold ordinary in *. lia.
Qed.
