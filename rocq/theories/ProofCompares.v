(** Proofs for C204: comparisons made by the timer. *)
From Verif Require Import Base LibBase Timer Compares.

(** ** The counters change nothing *)
Lemma up_erase f : forall h j, snd (up_n f h j) = heap_up f h j.
Proof.
  induction f as [|f IH]; intros h j; [reflexivity|]. cbn [up_n heap_up]. destruct (_ =? j)%nat; cbn [orb]; [reflexivity|]. destruct (negb _); [reflexivity|].
  rewrite <- IH. destruct (up_n f _ _). reflexivity.
Qed.
Lemma down_erase f : forall h i n, snd (down_n f h i n) = heap_down f h i n.
Proof.
  induction f as [|f IH]; intros h i n; [reflexivity|]. cbn [down_n heap_down]. destruct (n <=? _)%nat; [reflexivity|]. destruct (negb _); [reflexivity|].
  rewrite <- IH. destruct (down_n f _ _ _). reflexivity.
Qed.
Lemma push_erase h p : snd (push_n h p) = heap_push h p.
Proof. apply up_erase. Qed.
Lemma remove_erase h i : snd (remove_n h i) = heap_remove h i.
Proof.
  unfold remove_n, heap_remove. destruct (_ =? i)%nat; [reflexivity|]. rewrite <- down_erase. destruct (down_n _ _ _ _) as [c [h2 i']]. cbn [snd].
  destruct (i <? i')%nat; [reflexivity|]. rewrite <- up_erase. destruct (up_n _ _ _). reflexivity.
Qed.
Lemma q_remove_erase h p : (do (_, h') <- q_remove_n h p ; Ok h') = q_remove h p.
Proof. unfold q_remove_n, q_remove. destruct (_ || _); [reflexivity|]. rewrite <- remove_erase. destruct (remove_n _ _). reflexivity. Qed.
Lemma timer_remove_erase t k : (do (_, t') <- timer_remove_n t k ; Ok t') = timer_remove t k.
Proof.
  unfold timer_remove_n, timer_remove. destruct (map_get _ _); [|reflexivity]. rewrite <- q_remove_erase. destruct (q_remove_n _ _) as [[c h]| |]; reflexivity.
Qed.
Lemma insert_erase t k x : snd (timer_insert_n t k x) = timer_insert t k x.
Proof. unfold timer_insert_n, timer_insert. rewrite <- push_erase. destruct (push_n _ _). reflexivity. Qed.
Lemma update_erase t k now : (do (_, t') <- timer_update_n t k now ; Ok t') = timer_update t k now.
Proof.
  unfold timer_update_n, timer_update. rewrite <- timer_remove_erase. destruct (timer_remove_n t k) as [[c t1]| |]; cbn [bind]; try reflexivity.
  rewrite <- insert_erase. destruct (timer_insert_n _ _ _). reflexivity.
Qed.
Lemma tick_erase f : forall t now, (do (_, t', keys) <- timer_tick_n f t now ; Ok (t', keys)) = timer_tick f t now.
Proof.
  induction f as [|f IH]; intros t now; [reflexivity|]. cbn [timer_tick_n timer_tick]. destruct (tm_q t) as [|top q] eqn:Q; [reflexivity|]. destruct (_ <? _); [reflexivity|].
  rewrite <- q_remove_erase. destruct (q_remove_n _ _) as [[c h]| |]; cbn [bind]; try reflexivity. rewrite <- IH. destruct (timer_tick_n f _ _) as [[[c' t'] ks]| |]; reflexivity.
Qed.
Lemma check_erase t now : (do (_, t', keys) <- timer_check_n t now ; Ok (t', keys)) = timer_check t now.
Proof. apply tick_erase. Qed.

(** ** Up and down a tree *)
Lemma upd_length {A} (l : list A) i x : length (upd_nth l i x) = length l.
Proof. revert i. induction l as [|y l IH]; destruct i; cbn; auto. Qed.
Lemma swap_length h i j : length (snd (q_swap h i j)) = length (snd h).
Proof. destruct h as [st q]. unfold q_swap. cbn [snd]. rewrite !upd_length. reflexivity. Qed.
Lemma up_most f : forall h j, 0 <= fst (up_n f h j) <= Z.log2 (Z.of_nat j + 1).
Proof.
  induction f as [|f IH]; intros h j; cbn [up_n fst]; [pose proof (Z.log2_nonneg (Z.of_nat j + 1)); lia|]. set (i := Nat.div (j - 1) 2).
  destruct (Nat.eqb_spec i j) as [E|N]; cbn [fst]; [pose proof (Z.log2_nonneg (Z.of_nat j + 1)); lia|].
  assert (J : (1 <= j)%nat) by (destruct j; [exfalso; apply N; reflexivity|lia]).
  assert (I : Z.of_nat i = (Z.of_nat j - 1) / 2) by (unfold i; rewrite Nat2Z.inj_div; f_equal; lia).
  assert (L : Z.log2 (Z.of_nat j + 1) = Z.log2 (Z.of_nat i + 1) + 1).
  { replace (Z.of_nat i + 1) with (Z.shiftr (Z.of_nat j + 1) 1) by (rewrite Z.shiftr_div_pow2 by lia; rewrite I; change (2 ^ 1) with 2; lia). rewrite Z.log2_shiftr by lia.
    assert (1 <= Z.log2 (Z.of_nat j + 1)) by (apply Z.log2_le_pow2; lia). lia. }
  rewrite L. specialize (IH (q_swap h i j) i). pose proof (Z.log2_nonneg (Z.of_nat i + 1)). destruct (negb _); cbn [fst]; [lia|]. destruct (up_n f _ i). cbn [fst] in *. lia.
Qed.
(** Levels below a position *)
Lemma down_most f : forall h i n L, 0 <= L -> Z.of_nat n < (Z.of_nat i + 1) * 2 ^ (L + 1) -> 0 <= fst (down_n f h i n) <= 2 * L.
Proof.
  induction f as [|f IH]; intros h i n L HL B; cbn [down_n fst]; [lia|]. set (j1 := (2 * i + 1)%nat). destruct (Nat.leb_spec n j1); cbn [fst]; [lia|].
  set (two := (S j1 <? n)%nat). set (j := if two && q_less h (S j1) j1 then S j1 else j1). assert (J : (j1 <= j)%nat) by (unfold j; destruct (two && _); lia).
  assert (P : 1 <= L). { destruct (Z.eq_dec L 0) as [->|]; [|lia]. change (2 ^ (0 + 1)) with 2 in B. lia. }
  assert (C : 1 <= (if two then 2 else 1) <= 2) by (destruct two; lia).
  destruct (negb _); cbn [fst]; [lia|].
  assert (K : 0 <= fst (down_n f (q_swap h i j) j n) <= 2 * (L - 1)).
  { apply IH; [lia|]. replace (L + 1) with (1 + (L - 1 + 1)) in B by lia. rewrite Z.pow_add_r in B by lia. change (2 ^ 1) with 2 in B. assert (0 < 2 ^ (L - 1 + 1)) by (apply Z.pow_pos_nonneg; lia). nia. }
  destruct (down_n f _ j n). cbn [fst] in *. lia.
Qed.
(** If it did not move, only the first level was looked at. *)
Lemma down_moves f : forall h i n, (i <= snd (snd (down_n f h i n)))%nat.
Proof.
  induction f as [|f IH]; intros h i n; cbn [down_n snd]; [lia|]. destruct (n <=? _)%nat; cbn [snd]; [lia|]. destruct (negb _); cbn [snd]; [lia|].
  match goal with |- context [down_n f (q_swap h i ?j) ?j n] => specialize (IH (q_swap h i j) j n); assert (i < j)%nat by (destruct (_ && _); lia); destruct (down_n f (q_swap h i j) j n) as [c r] end.
  cbn [snd] in *. lia.
Qed.
Lemma down_stays f h i n : snd (snd (down_n f h i n)) = i -> fst (down_n f h i n) <= (if (n <=? 2 * i + 1)%nat then 0 else 2).
Proof.
  destruct f as [|f]; cbn [down_n fst]; [destruct (n <=? _)%nat; lia|]. destruct (n <=? 2 * i + 1)%nat; cbn [fst]; [lia|]. destruct (negb _); cbn [fst snd]; [destruct (_ <? n)%nat; lia|].
  match goal with |- context [down_n f (q_swap h i ?j) ?j n] => pose proof (down_moves f (q_swap h i j) j n) as D; assert (i < j)%nat by (destruct (_ && _); lia); destruct (down_n f (q_swap h i j) j n) as [c r] end.
  cbn [snd] in *. lia.
Qed.
Lemma remove_most h i : (i < length (snd h))%nat -> 0 <= fst (remove_n h i) <= 2 * Z.log2 (zlen (snd h) - 1).
Proof.
  intros I. unfold remove_n. pose proof (Z.log2_nonneg (zlen (snd h) - 1)) as N. unfold zlen in *. set (n := (length (snd h) - 1)%nat) in *.
  destruct (Nat.eqb_spec n i) as [E|D]; cbn [fst]; [lia|]. replace (Z.of_nat (length (snd h)) - 1) with (Z.of_nat n) in * by lia. assert (In : (i < n)%nat) by lia.
  pose proof (down_most (S n) (q_swap h i n) i n (Z.log2 (Z.of_nat n)) N) as M. destruct (Z.log2_spec (Z.of_nat n)) as (_ & B); [lia|]. rewrite <- Z.add_1_r in B.
  assert (M' : 0 <= fst (down_n (S n) (q_swap h i n) i n) <= 2 * Z.log2 (Z.of_nat n)) by (apply M; nia). clear M.
  pose proof (down_stays (S n) (q_swap h i n) i n) as Y. pose proof (down_moves (S n) (q_swap h i n) i n) as V. destruct (down_n (S n) (q_swap h i n) i n) as [c [h2 i']]. cbn [fst snd] in *.
  destruct (Nat.ltb_spec i i'); cbn [fst]; [lia|]. pose proof (up_most (S n) h2 i) as U. destruct (up_n (S n) h2 i) as [c' h3]. cbn [fst] in *. specialize (Y ltac:(lia)).
  assert (LI : Z.log2 (Z.of_nat i + 1) <= Z.log2 (Z.of_nat n)) by (apply Z.log2_le_mono; lia). destruct (Nat.leb_spec n (2 * i + 1)); [lia|].
  assert (L2 : Z.succ (Z.log2 (Z.of_nat i + 1)) <= Z.log2 (Z.of_nat n)). { rewrite <- Z.log2_double by lia. apply Z.log2_le_mono. lia. }
  pose proof (Z.log2_nonneg (Z.of_nat i + 1)). lia.
Qed.

(** ** Lengths *)
Lemma up_length f : forall h j, length (snd (heap_up f h j)) = length (snd h).
Proof. induction f as [|f IH]; intros h j; cbn [heap_up]; [reflexivity|]. destruct (_ || _); [reflexivity|]. rewrite IH. apply swap_length. Qed.
Lemma down_length f : forall h i n, length (snd (fst (heap_down f h i n))) = length (snd h).
Proof. induction f as [|f IH]; intros h i n; cbn [heap_down]; [reflexivity|]. destruct (_ <=? _)%nat; [reflexivity|]. destruct (negb _); [reflexivity|]. rewrite IH. apply swap_length. Qed.
Lemma pop_length h : (length (snd (q_pop h)) = length (snd h) - 1)%nat.
Proof. destruct h as [st q]. cbn [q_pop snd]. rewrite firstn_length. lia. Qed.

(** ** Calls *)
Lemma q_remove_most h p c h' : q_remove_n h p = Ok (c, h') -> 0 <= c <= 2 * Z.log2 (zlen (snd h) - 1) /\ q_remove h p = Ok h'.
Proof.
  intros E. split.
  - unfold q_remove_n in E. destruct (_ || _) eqn:R; [discriminate|]. apply orb_false_iff in R. destruct R as (A & B). pose proof (remove_most h (Z.to_nat (e_index (deref (fst h) p)))) as M.
    injection E as E. rewrite E in M. cbn [fst] in M. apply M. unfold zlen in *. lia.
  - rewrite <- q_remove_erase, E. reflexivity.
Qed.
Lemma heap_remove_length h i : length (snd (heap_remove h i)) = (length (snd h) - 1)%nat.
Proof.
  unfold heap_remove. destruct (_ =? i)%nat; [apply pop_length|]. pose proof (down_length (S (length (snd h) - 1)) (q_swap h i (length (snd h) - 1)) i (length (snd h) - 1)) as D.
  destruct (heap_down _ _ _ _) as [h2 i']. cbn [fst] in D. rewrite pop_length. destruct (i <? i')%nat; [|rewrite up_length]; rewrite D, swap_length; reflexivity.
Qed.
Lemma q_remove_length h p h' : q_remove h p = Ok h' -> zlen (snd h') = zlen (snd h) - 1.
Proof.
  unfold q_remove. destruct (_ || _) eqn:R; [discriminate|]. intros E. injection E as <-. unfold zlen in *. rewrite heap_remove_length. lia.
Qed.
Lemma log_le a b : a <= b -> Z.log2 a <= Z.log2 b.
Proof. apply Z.log2_le_mono. Qed.
Lemma timer_remove_most t k t' L : Z.log2 (zlen (tm_q t)) <= L -> timer_remove t k = Ok t' ->
  exists c, timer_remove_n t k = Ok (c, t') /\ 0 <= c <= 2 * L /\ c + 2 * L * zlen (tm_q t') <= 2 * L * zlen (tm_q t) /\ zlen (tm_q t') <= zlen (tm_q t).
Proof.
  intros HL E. pose proof (Z.log2_nonneg (zlen (tm_q t))) as NN. rewrite <- timer_remove_erase in E. unfold timer_remove_n in *. destruct (map_get (tm_map t) k) as [p|]; [|injection E as <-; exists 0; split; [reflexivity|]; lia].
  destruct (q_remove_n _ p) as [[c h]| |] eqn:Q; cbn [bind] in *; try discriminate. injection E as <-. exists c. split; [reflexivity|].
  destruct (q_remove_most _ _ _ _ Q) as (A & B). apply q_remove_length in B. cbn [snd] in *. pose proof (log_le (zlen (tm_q t) - 1) (zlen (tm_q t)) ltac:(lia)). cbn [tm_q]. nia.
Qed.
Lemma insert_most t k x : let t' := timer_insert t k x in zlen (tm_q t') = zlen (tm_q t) + 1 /\
  exists c, timer_insert_n t k x = (c, t') /\ 0 <= c <= Z.log2 (zlen (tm_q t')).
Proof.
  assert (LEN : zlen (tm_q (timer_insert t k x)) = zlen (tm_q t) + 1).
  { unfold timer_insert, heap_push, zlen. cbn [tm_q]. rewrite up_length. cbn [q_push snd]. rewrite app_length. cbn [length]. lia. }
  intros t'. unfold t'. split; [exact LEN|]. exists (fst (timer_insert_n t k x)). split; [rewrite <- insert_erase; apply surjective_pairing|]. rewrite LEN.
  unfold timer_insert_n, push_n. pose proof (up_most (length (snd (q_push (tm_store t ++ [Elem k 0 x], tm_q t) (length (tm_store t))))) (q_push (tm_store t ++ [Elem k 0 x], tm_q t) (length (tm_store t))) (length (snd (q_push (tm_store t ++ [Elem k 0 x], tm_q t) (length (tm_store t)))) - 1)) as U.
  destruct (up_n _ _ _) as [c h]. cbn [fst] in *. replace (zlen (tm_q t) + 1) with (Z.of_nat (length (snd (q_push (tm_store t ++ [Elem k 0 x], tm_q t) (length (tm_store t)))) - 1) + 1); [exact U|].
  unfold zlen. cbn [q_push snd]. rewrite app_length. cbn [length]. lia.
Qed.
Lemma tick_most f : forall t now t' keys L, Z.log2 (zlen (tm_q t)) <= L -> timer_tick f t now = Ok (t', keys) ->
  exists c, timer_tick_n f t now = Ok (c, t', keys) /\ 0 <= c <= 2 * L * zlen keys /\ zlen (tm_q t) = zlen (tm_q t') + zlen keys.
Proof.
  induction f as [|f IH]; intros t now t' keys L HL E; [discriminate|]. pose proof (Z.log2_nonneg (zlen (tm_q t))) as NN. cbn [timer_tick timer_tick_n] in *.
  destruct (tm_q t) as [|top q] eqn:Q; [injection E as <- <-; exists 0; rewrite Q; split; [reflexivity|]; cbn; lia|].
  destruct (_ <? _); [injection E as <- <-; exists 0; rewrite Q; split; [reflexivity|]; unfold zlen; cbn [length]; lia|].
  rewrite <- q_remove_erase in E. destruct (q_remove_n _ top) as [[c h]| |] eqn:R; cbn [bind] in *; try discriminate. destruct (q_remove_most _ _ _ _ R) as (A & B). apply q_remove_length in B. cbn [snd] in *.
  set (t1 := Timer _ _ _ _) in *. destruct (timer_tick f t1 now) as [[t2 ks]| |] eqn:T; cbn [bind] in *; try discriminate. injection E as <- <-.
  pose proof (log_le (zlen (top :: q) - 1) (zlen (top :: q)) ltac:(lia)).
  destruct (IH t1 now t2 ks L) as (c' & F & G & H'); [unfold t1; cbn [tm_q]; rewrite B; lia|exact T|]. rewrite F. cbn [bind]. exists (c + c'). split; [reflexivity|].
  unfold t1 in H'. cbn [tm_q] in H'. replace (zlen (e_key (deref (tm_store t) top) :: ks)) with (zlen ks + 1) by (unfold zlen; cbn [length]; lia). nia.
Qed.
