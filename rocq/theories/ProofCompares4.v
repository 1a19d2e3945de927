(** C204: comparisons made while keys with one deadline fire. *)
From Coq Require Import Permutation.
From Verif Require Import Base LibBase Timer LibHeap SpecTimer ProofTimer ProofTimer2 Compares SpecCompares ProofCompares ProofCompares2 ProofCompares3.

Lemma down_tie f h i n x : (i < n <= length (snd h))%nat -> (forall k, (k < length (snd h))%nat -> ex h k = x) ->
  down_n (S f) h i n = ((if (n <=? 2 * i + 1)%nat then 0 else if (2 * i + 2 <? n)%nat then 2 else 1), (h, i)).
Proof.
  intros I E. cbn [down_n]. destruct (Nat.leb_spec n (2 * i + 1)); [reflexivity|]. replace (S (2 * i + 1)) with (2 * i + 2)%nat by lia.
  set (two := (2 * i + 2 <? n)%nat). set (j := if two && q_less h (2 * i + 2) (2 * i + 1) then (2 * i + 2)%nat else (2 * i + 1)%nat).
  assert (J : (j < n)%nat) by (unfold j, two; destruct (Nat.ltb_spec (2 * i + 2) n); cbn [andb]; [destruct (q_less _ _ _)|]; lia).
  rewrite less_ex, !E by lia. rewrite Z.ltb_irrefl. reflexivity.
Qed.
Lemma remove_tie h x : (0 < length (snd h))%nat -> (forall k, (k < length (snd h))%nat -> ex h k = x) ->
  fst (remove_n h 0) = if zlen (snd h) <? 3 then 0 else if zlen (snd h) =? 3 then 1 else 2.
Proof.
  intros L E. unfold remove_n, zlen. set (n := (length (snd h) - 1)%nat). destruct (Nat.eqb_spec n 0) as [Z0|N]; [cbn [fst]; replace (length (snd h)) with 1%nat by lia; reflexivity|].
  rewrite (down_tie n (q_swap h 0 n) 0 n x).
  - change (0 <? 0)%nat with false. cbn [up_n]. change (Nat.div (0 - 1) 2 =? 0)%nat with true. cbn [fst]. change (2 * 0 + 1)%nat with 1%nat. change (2 * 0 + 2)%nat with 2%nat.
    destruct (Nat.leb_spec n 1), (Nat.ltb_spec 2 n), (Z.ltb_spec (Z.of_nat (length (snd h))) 3), (Z.eqb_spec (Z.of_nat (length (snd h))) 3); lia.
  - rewrite swap_len. lia.
  - rewrite swap_len. intros k K. rewrite ex_swap by lia. apply E. destruct (k =? n)%nat; [lia|]. destruct (k =? 0)%nat; lia.
Qed.
Lemma tick_tie f : forall t now x, (length (tm_q t) < f)%nat -> good (hof t) -> x <= now -> (forall p, In p (tm_q t) -> exp_of t p = x) ->
  exists t' keys, timer_tick_n f t now = Ok (if zlen (tm_q t) <? 3 then 0 else 2 * zlen (tm_q t) - 5, t', keys) /\ tm_q t' = [].
Proof.
  induction f as [|f IH]; intros t now x F G N E; [lia|]. cbn [timer_tick_n]. destruct (tm_q t) as [|top q] eqn:Q; [exists t, []; split; [reflexivity|exact Q]|].
  pose proof (E top (or_introl eq_refl)) as ET. unfold exp_of in ET. rewrite ET. destruct (Z.ltb_spec now x); [lia|].
  assert (P : In top (snd (hof t))) by (unfold hof; cbn [snd]; rewrite Q; left; reflexivity).
  destruct (q_remove_ok (hof t) top G P) as (h' & R & G' & SM & PM). unfold hof in R, PM. cbn [snd] in PM. rewrite Q in R, PM.
  assert (I : e_index (deref (tm_store t) top) = 0). { pose proof (wq_idx _ (g_wf _ G) 0%nat) as W. unfold hof in W. cbn [fst snd] in W. rewrite Q in W. cbn [nth length] in W. apply W. lia. }
  assert (RN : q_remove_n (tm_store t, top :: q) top = Ok (remove_n (tm_store t, top :: q) 0)).
  { unfold q_remove_n. cbn [fst snd]. rewrite I. unfold zlen. cbn [length]. destruct (Z.leb_spec (Z.of_nat (S (length q))) 0); [lia|]. reflexivity. }
  pose proof (remove_tie (tm_store t, top :: q) x) as C. cbn [snd] in C. specialize (C ltac:(cbn [length]; lia)).
  assert (C' : forall k, (k < length (top :: q))%nat -> ex (tm_store t, top :: q) k = x) by (intros k K; apply E, nth_In, K). specialize (C C').
  assert (R2 : snd (remove_n (tm_store t, top :: q) 0) = h') by (rewrite <- q_remove_erase, RN in R; destruct (remove_n _ 0); cbn [bind] in R; injection R as <-; reflexivity).
  rewrite RN. destruct (remove_n _ 0) as [c h]. cbn [fst snd bind] in *. subst h.
  set (t1 := Timer _ _ _ _). assert (LN : length (tm_q t1) = length q) by (apply Permutation_length in PM; cbn [length] in PM; unfold t1; cbn [tm_q]; lia).
  destruct (IH t1 now x) as (t' & ks & T & T'); [cbn [length] in F; lia|unfold hof, t1; cbn [tm_store tm_q]; destruct h'; exact G'|exact N|..].
  { intros p H1. unfold exp_of, t1. cbn [tm_store]. rewrite (sm_exp _ _ SM). apply E. apply (Permutation_in _ (Permutation_sym PM)). right. exact H1. }
  rewrite T. cbn [bind]. eexists. eexists. split; [|exact T']. rewrite C. unfold zlen in *. rewrite LN. cbn [length].
  f_equal. f_equal. f_equal. destruct (Z.ltb_spec (Z.of_nat (S (length q))) 3), (Z.eqb_spec (Z.of_nat (S (length q))) 3), (Z.ltb_spec (Z.of_nat (length q)) 3); lia.
Qed.
Lemma check_tie s0 ops t out now x : urun (timer_new s0) ops = Ok (t, out) -> x <= now ->
  (forall p, In p (tm_q t) -> e_expire (nth p (tm_store t) (Elem 0 0 0)) = x) ->
  exists t' keys, timer_check_n t now = Ok (if zlen (tm_q t) <? 3 then 0 else 2 * zlen (tm_q t) - 5, t', keys) /\ tm_q t' = [].
Proof.
  intros R N A. apply run_tight in R; [|apply tight_new]. unfold timer_check_n. apply (tick_tie _ t now x); [lia|apply (ti_good t), (tg_inv t R)|exact N|exact A].
Qed.
(** In any state *)
Lemma remove_any t k t' : timer_remove t k = Ok t' -> exists c, timer_remove_n t k = Ok (c, t') /\ 0 <= c <= 2 * Z.log2 (zlen (tm_q t)).
Proof. intros E. destruct (timer_remove_most t k t' _ (Z.le_refl _) E) as (c & F & A & _). exists c. split; [exact F|exact A]. Qed.
Lemma check_any t now t' keys : timer_check t now = Ok (t', keys) ->
  exists c, timer_check_n t now = Ok (c, t', keys) /\ 0 <= c <= 2 * Z.log2 (zlen (tm_q t)) * zlen keys /\ zlen (tm_q t) = zlen (tm_q t') + zlen keys.
Proof. exact (tick_most _ t now t' keys _ (Z.le_refl _)). Qed.
