(** C204 over whole histories. *)
From Coq Require Import Permutation.
From Verif Require Import Base LibBase Timer LibHeap SpecTimer ProofTimer ProofTimer2 Compares SpecCompares ProofCompares.

(** Every entry belongs to a key of [ks], and no key has two. *)
Definition within (ks : list Z) (t : timer) : Prop := tight t /\ forall k p, map_get (tm_map t) k = Some p -> In k ks.
Definition seen (t : timer) : dls := fun k => match map_get (tm_map t) k with Some p => Some (exp_of t p) | None => None end.
Lemma seen_view t : view t (seen t). Proof. intros k. reflexivity. Qed.

Lemma within_new ks s : within ks (timer_new s).
Proof. split; [apply tight_new|]. cbn. discriminate. Qed.
Lemma within_len ks t : within ks t -> zlen (tm_q t) <= zlen ks.
Proof.
  intros (T & K). unfold zlen. rewrite <- (map_length (key_of t) (tm_q t)). apply inj_le. apply NoDup_incl_length.
  - apply map_inj_nodup; [apply tight_nodup, T|]. intros a b A B X. pose proof (tg_all t T a A) as Y. pose proof (tg_all t T b B) as Z. rewrite X in Y. congruence.
  - intros k I. apply in_map_iff in I. destruct I as (p & <- & P). apply (K _ p). apply (tg_all t T p P).
Qed.
Lemma within_remove ks t k : within ks t -> exists t', timer_remove t k = Ok t' /\ within ks t' /\ map_get (tm_map t') k = None.
Proof.
  intros (T & K). destruct (tight_remove t k (seen t) T (seen_view t)) as (t' & E & T' & _ & _). destruct (remove_step t k (tg_inv t T)) as (t2 & E2 & _ & _ & M & _).
  rewrite E in E2. injection E2 as <-. exists t'. split; [exact E|]. split; [split; [exact T'|]|rewrite M, Z.eqb_refl; reflexivity].
  intros x p. rewrite M. destruct (x =? k); [discriminate|]. apply K.
Qed.
Lemma within_insert ks t k x : within ks t -> In k ks -> map_get (tm_map t) k = None -> within ks (timer_insert t k x).
Proof.
  intros (T & K) I N. destruct (insert_step t k x (tg_inv t T)) as (_ & _ & _ & _ & _ & _ & _ & M). split.
  - apply (tight_insert t k x (seen t) T (seen_view t)). unfold seen. rewrite N. reflexivity.
  - intros y p. rewrite M. destruct (Z.eqb_spec y k) as [->|]; [intros _; exact I|apply K].
Qed.
Lemma within_tick ks t now : within ks t -> exists t' keys, timer_check t now = Ok (t', keys) /\ within ks t'.
Proof.
  intros (T & K). destruct (tight_tick t now (seen t) T (seen_view t)) as (t' & keys & E & T' & _). 
  destruct (tick_step (S (length (tm_q t))) t now (tg_inv t T) (Nat.lt_succ_diag_r _)) as (t2 & ps & E2 & _ & _ & _ & _ & _ & _ & M).
  pose proof E as E1. unfold timer_check in E1. rewrite E1 in E2. injection E2 as <- _. exists t', keys. split; [exact E|]. split; [exact T'|].
  intros x p. rewrite M. destruct (existsb _ _); [discriminate|]. apply K.
Qed.
Lemma within_set ks t n : within ks t -> within ks (timer_set_expiration t n) /\ tm_q (timer_set_expiration t n) = tm_q t.
Proof.
  intros (T & K). split; [split|unfold timer_set_expiration; destruct (0 <? n); reflexivity].
  - apply (tight_set t n (seen t) T (seen_view t)).
  - unfold timer_set_expiration. destruct (0 <? n); exact K.
Qed.

Definition is_update (o : uop) : Z := match o with UUpdate _ _ => 1 | _ => 0 end.
Lemma step_most ks t o : within ks t -> (forall k now, o = UUpdate k now -> In k ks) -> exists t' r,
  ustep_n t o = Ok (t', r) /\ ustep t o = Ok (t', snd r) /\ within ks t' /\ allowed (Z.log2 (zlen ks)) o r /\
  fst r + 2 * Z.log2 (zlen ks) * zlen (tm_q t') <= 2 * Z.log2 (zlen ks) * zlen (tm_q t) + 3 * Z.log2 (zlen ks) * is_update o.
Proof.
  intros W I. set (L := Z.log2 (zlen ks)). pose proof (Z.log2_nonneg (zlen ks)) as NN. fold L in NN. pose proof (log_le _ _ (within_len ks t W)) as HL. fold L in HL. unfold allowed.
  destruct o as [k now|k|n|now]; cbn [ustep_n ustep is_update].
  - unfold timer_update_n, timer_update. destruct (within_remove ks t k W) as (t1 & E & W1 & N). rewrite E. destruct (timer_remove_most t k t1 L HL E) as (c & F & A & B & C). rewrite F. cbn [bind].
    pose proof (within_insert ks t1 k (deadline t now) W1 (I _ _ eq_refl) N) as W2. pose proof (log_le _ _ (within_len ks _ W2)) as H2. fold L in H2.
    destruct (insert_most t1 k (deadline t now)) as (Q & c' & G & D).
    rewrite G. cbn [bind]. eexists. exists (c + c', []). split; [reflexivity|]. split; [reflexivity|]. split; [exact W2|]. cbn [fst snd]. rewrite Q. split; nia.
  - destruct (within_remove ks t k W) as (t1 & E & W1 & N). rewrite E. destruct (timer_remove_most t k t1 L HL E) as (c & F & A & B & C). rewrite F. cbn [bind].
    exists t1, (c, []). split; [reflexivity|]. split; [reflexivity|]. split; [exact W1|]. cbn [fst snd]. split; lia.
  - destruct (within_set ks t n W) as (W1 & Q). eexists. exists (0, []). split; [reflexivity|]. split; [reflexivity|]. split; [exact W1|]. cbn [fst snd]. rewrite Q. split; lia.
  - destruct (within_tick ks t now W) as (t1 & keys & E & W1). destruct (tick_most _ t now t1 keys L HL E) as (c & F & A & B). unfold timer_check_n. rewrite F. cbn [bind].
    exists t1, (c, keys). split; [reflexivity|]. split; [exact E|]. split; [exact W1|]. cbn [fst snd]. split; [lia|]. rewrite B. lia.
Qed.
Lemma run_most ks ops : forall t, within ks t -> (forall k now, In (UUpdate k now) ops -> In k ks) -> exists t' out,
  urun_n t ops = Ok (t', out) /\ urun t ops = Ok (t', map snd out) /\ Forall2 (allowed (Z.log2 (zlen ks))) ops out /\ zlen (tm_q t') <= zlen ks /\
  total out + 2 * Z.log2 (zlen ks) * zlen (tm_q t') <= 2 * Z.log2 (zlen ks) * zlen (tm_q t) + 3 * Z.log2 (zlen ks) * updates ops.
Proof.
  induction ops as [|o ops IH]; intros t W I.
  - exists t, []. split; [reflexivity|]. split; [reflexivity|]. split; [constructor|]. split; [apply within_len, W|]. cbn [total updates]. lia.
  - destruct (step_most ks t o W) as (t1 & r & E & F & W1 & A & B). { intros k now ->. apply (I k now). left. reflexivity. }
    destruct (IH t1 W1) as (t2 & out & E2 & F2 & A2 & Q2 & B2). { intros k now H. apply (I k now). right. exact H. }
    cbn [urun_n urun]. rewrite E, F. cbn [bind]. rewrite E2, F2. cbn [bind]. exists t2, (r :: out). split; [reflexivity|]. split; [reflexivity|]. split; [constructor; auto|]. split; [exact Q2|].
    destruct r as [c fired]. cbn [total fst] in *. assert (U : updates (o :: ops) = is_update o + updates ops) by (destruct o; reflexivity). rewrite U. lia.
Qed.
Lemma run_new s0 ks ops : (forall k now, In (UUpdate k now) ops -> In k ks) -> exists t out,
  urun_n (timer_new s0) ops = Ok (t, out) /\ urun (timer_new s0) ops = Ok (t, map snd out) /\
  Forall2 (allowed (Z.log2 (zlen ks))) ops out /\ total out <= 3 * Z.log2 (zlen ks) * updates ops.
Proof.
  intros I. destruct (run_most ks ops (timer_new s0) (within_new ks s0) I) as (t & out & E & F & A & Q & B). exists t, out. split; [exact E|]. split; [exact F|]. split; [exact A|].
  pose proof (Z.log2_nonneg (zlen ks)). assert (0 <= zlen (tm_q t)) by (unfold zlen; lia). change (zlen (tm_q (timer_new s0))) with 0 in B. nia.
Qed.
Lemma update_any t k now t' : timer_update t k now = Ok t' -> exists c, timer_update_n t k now = Ok (c, t') /\ 0 <= c <= 3 * Z.log2 (zlen (tm_q t) + 1).
Proof.
  intros E. rewrite <- update_erase in E. destruct (timer_update_n t k now) as [[c t2]| |] eqn:U; try discriminate. injection E as ->. exists c. split; [reflexivity|].
  unfold timer_update_n in U. destruct (timer_remove_n t k) as [[c1 t1]| |] eqn:R; cbn [bind] in U; try discriminate.
  assert (R' : timer_remove t k = Ok t1) by (rewrite <- timer_remove_erase, R; reflexivity).
  destruct (timer_remove_most t k t1 _ (Z.le_refl _) R') as (c1' & R2 & A & _ & B). rewrite R in R2. injection R2 as <-.
  destruct (insert_most t1 k (deadline t now)) as (Q & c' & G & D). rewrite G in U. injection U as <- <-. rewrite Q in D.
  pose proof (log_le (zlen (tm_q t)) (zlen (tm_q t) + 1) ltac:(lia)). pose proof (log_le (zlen (tm_q t1) + 1) (zlen (tm_q t) + 1) ltac:(lia)). lia.
Qed.
