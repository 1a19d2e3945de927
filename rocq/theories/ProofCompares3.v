(** C204: how many comparisons an Update of a new key makes when it is the first or the last to expire. *)
From Coq Require Import Permutation.
From Verif Require Import Base LibBase Timer LibHeap SpecTimer ProofTimer ProofTimer2 Compares SpecCompares ProofCompares ProofCompares2.

Lemma log_parent j : (0 < j)%nat -> Z.log2 (Z.of_nat j + 1) = Z.log2 (Z.of_nat (Nat.div (j - 1) 2) + 1) + 1.
Proof.
  intros J. set (i := Nat.div (j - 1) 2). assert (I : Z.of_nat i = (Z.of_nat j - 1) / 2) by (unfold i; rewrite Nat2Z.inj_div; f_equal; lia).
  replace (Z.of_nat i + 1) with (Z.shiftr (Z.of_nat j + 1) 1) by (rewrite Z.shiftr_div_pow2 by lia; rewrite I; change (2 ^ 1) with 2; lia). rewrite Z.log2_shiftr by lia.
  assert (1 <= Z.log2 (Z.of_nat j + 1)) by (apply Z.log2_le_pow2; lia). lia.
Qed.
Lemma up_first f : forall h j, (j < f)%nat -> (j < length (snd h))%nat -> (forall i, (i < j)%nat -> ex h j < ex h i) -> fst (up_n f h j) = Z.log2 (Z.of_nat j + 1).
Proof.
  induction f as [|f IH]; intros h j F J E; [lia|]. cbn [up_n]. destruct (Nat.eq_dec j 0) as [->|J1]; [reflexivity|]. set (i := Nat.div (j - 1) 2).
  assert (J0 : (0 < j)%nat) by lia. assert (I : (i < j)%nat) by (apply (par_lt j J0)). destruct (Nat.eqb_spec i j) as [X|X]; [lia|].
  rewrite less_ex. assert (L : (ex h j <? ex h i) = true) by (apply Z.ltb_lt, E, I). rewrite L. cbn [negb].
  specialize (IH (q_swap h i j) i). rewrite (log_parent j J0). fold i. destruct (up_n f _ i) as [c h']. cbn [fst] in *. rewrite IH; [lia|lia|rewrite swap_len; lia|].
  intros k K. rewrite !ex_swap by lia. rewrite Nat.eqb_refl. destruct (Nat.eqb_spec i j); [lia|]. destruct (Nat.eqb_spec k j); [lia|]. destruct (Nat.eqb_spec k i); [lia|]. apply E. lia.
Qed.
Lemma up_last f h j : (j < f)%nat -> (forall i, (i < j)%nat -> ex h i <= ex h j) -> fst (up_n f h j) = (if (j =? 0)%nat then 0 else 1).
Proof.
  destruct f as [|f]; intros F E; [lia|]. cbn [up_n]. set (i := Nat.div (j - 1) 2). destruct (Nat.eqb_spec j 0) as [->|J0]; [reflexivity|].
  assert (I : (i < j)%nat) by (apply (par_lt j); lia). destruct (Nat.eqb_spec i j); [lia|]. rewrite less_ex. specialize (E i I). destruct (Z.ltb_spec (ex h j) (ex h i)); [lia|]. reflexivity.
Qed.
Lemma run_tight ops : forall t t' out, tight t -> urun t ops = Ok (t', out) -> tight t'.
Proof.
  induction ops as [|o ops IH]; intros t t' out T E; [injection E as <- _; exact T|]. cbn [urun] in E.
  destruct (step_most ((match o with UUpdate k _ => [k] | _ => [] end) ++ map fst (tm_map t)) t o) as (t1 & r & _ & F & (T1 & _) & _).
  - split; [exact T|]. intros k p G. apply in_or_app. right. clear - G. induction (tm_map t) as [|[k' p'] m IH]; cbn [map_get] in G; [discriminate|]. destruct (Z.eqb_spec k' k); [left; auto|right; auto].
  - intros k now ->. left. reflexivity.
  - rewrite F in E. cbn [bind] in E. destruct (urun t1 ops) as [[t2 ks]| |] eqn:U; cbn [bind] in E; try discriminate. injection E as <- _. exact (IH _ _ _ T1 U).
Qed.
(** What [heap.Push] starts from *)
Lemma pushed t k x : tight t -> let h := q_push (tm_store t ++ [Elem k 0 x], tm_q t) (length (tm_store t)) in
  length (snd h) = S (length (tm_q t)) /\ ex h (length (tm_q t)) = x /\ forall i, (i < length (tm_q t))%nat -> ex h i = exp_of t (nth i (tm_q t) O).
Proof.
  intros T h. unfold h. cbn [q_push snd]. split; [rewrite app_length; cbn [length]; lia|]. unfold ex. cbn [q_push fst snd]. split.
  - rewrite app_nth2, Nat.sub_diag by lia. cbn [nth]. rewrite expire_set. unfold deref. rewrite app_nth2, Nat.sub_diag by lia. reflexivity.
  - intros i I. rewrite app_nth1 by exact I. rewrite expire_set. unfold exp_of, deref. rewrite app_nth1; [reflexivity|]. apply (good_lt t); [apply (ti_good t), (tg_inv t T)|apply nth_In, I].
Qed.
Lemma update_first s0 ops t out k now : urun (timer_new s0) ops = Ok (t, out) -> map_get (tm_map t) k = None ->
  (forall p, In p (tm_q t) -> deadline t now < e_expire (nth p (tm_store t) (Elem 0 0 0))) ->
  exists t', timer_update_n t k now = Ok (Z.log2 (zlen (tm_q t) + 1), t').
Proof.
  intros R N A. apply run_tight in R; [|apply tight_new]. unfold timer_update_n, timer_remove_n. rewrite N. cbn [bind]. unfold timer_insert_n, push_n.
  destruct (pushed t k (deadline t now) R) as (L & X & O). set (h := q_push _ _) in *. rewrite L. replace (S (length (tm_q t)) - 1)%nat with (length (tm_q t)) by lia.
  pose proof (up_first (S (length (tm_q t))) h (length (tm_q t)) ltac:(lia) ltac:(lia)) as U. destruct (up_n _ h _) as [c h']. cbn [fst] in U. eexists. rewrite U; [unfold zlen; rewrite Z.add_0_l; reflexivity|].
  intros i I. rewrite X, O by exact I. apply A, nth_In, I.
Qed.
Lemma update_last s0 ops t out k now : urun (timer_new s0) ops = Ok (t, out) -> map_get (tm_map t) k = None ->
  (forall p, In p (tm_q t) -> e_expire (nth p (tm_store t) (Elem 0 0 0)) <= deadline t now) ->
  exists t', timer_update_n t k now = Ok (if (zlen (tm_q t) =? 0) then 0 else 1, t').
Proof.
  intros R N A. apply run_tight in R; [|apply tight_new]. unfold timer_update_n, timer_remove_n. rewrite N. cbn [bind]. unfold timer_insert_n, push_n.
  destruct (pushed t k (deadline t now) R) as (L & X & O). set (h := q_push _ _) in *. rewrite L. replace (S (length (tm_q t)) - 1)%nat with (length (tm_q t)) by lia.
  pose proof (up_last (S (length (tm_q t))) h (length (tm_q t)) ltac:(lia)) as U. destruct (up_n _ h _) as [c h']. cbn [fst] in U. eexists. rewrite U; [rewrite Z.add_0_l; unfold zlen; destruct (tm_q t); reflexivity|].
  intros i I. rewrite X, O by exact I. apply A, nth_In, I.
Qed.
