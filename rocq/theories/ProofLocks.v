(** Sections executed statement by statement do what they do as a whole. *)
From Verif Require Import Base LibBase Timer LibHeap ProofTimer Session Server Locks SpecLocks.

(** ** container/heap keeps keys and removes one element *)
Lemma up_keeps f : forall h j, same h (heap_up f h j) /\ length (snd (heap_up f h j)) = length (snd h).
Proof.
  induction f as [|f IH]; intros h j; cbn [heap_up]; [split; [apply same_refl|reflexivity]|].
  destruct (((Nat.div (j - 1) 2 =? j)%nat) || negb (q_less h j (Nat.div (j - 1) 2))); [split; [apply same_refl|reflexivity]|].
  destruct (IH (q_swap h (Nat.div (j - 1) 2) j) (Nat.div (j - 1) 2)) as (A & B). rewrite swap_len in B. split; [eapply same_trans; [apply same_swap|exact A]|exact B].
Qed.
Lemma down_keeps f : forall h i n, same h (fst (heap_down f h i n)) /\ length (snd (fst (heap_down f h i n))) = length (snd h).
Proof.
  induction f as [|f IH]; intros h i n; cbn [heap_down]; [split; [apply same_refl|reflexivity]|]. cbv zeta.
  destruct (n <=? 2 * i + 1)%nat; [split; [apply same_refl|reflexivity]|].
  set (j := if (S (2 * i + 1) <? n)%nat && q_less h (S (2 * i + 1)) (2 * i + 1) then S (2 * i + 1) else (2 * i + 1)%nat).
  destruct (negb (q_less h j i)); [split; [apply same_refl|reflexivity]|].
  destruct (IH (q_swap h i j) j n) as (A & B). rewrite swap_len in B. split; [eapply same_trans; [apply same_swap|exact A]|exact B].
Qed.
Lemma pop_keeps h : same h (q_pop h) /\ length (snd (q_pop h)) = (length (snd h) - 1)%nat.
Proof.
  destruct h as [st q]. cbn [q_pop fst snd]. split; [constructor; cbn [fst]; intros; [apply set_index_len|apply key_set|apply expire_set]|]. rewrite firstn_length. lia.
Qed.
Lemma remove_keeps h p h' : q_remove h p = Ok h' -> same h h' /\ S (length (snd h')) = length (snd h).
Proof.
  unfold q_remove. destruct ((e_index (deref (fst h) p) <? 0) || (zlen (snd h) <=? e_index (deref (fst h) p))) eqn:T; [discriminate|]. intros E. injection E as <-.
  apply Bool.orb_false_elim in T as [T1 T2]. apply Z.leb_gt in T2. apply Z.ltb_ge in T1. unfold zlen in T2.
  assert (L : (0 < length (snd h))%nat) by lia. set (i := Z.to_nat (e_index (deref (fst h) p))). unfold heap_remove.
  destruct (length (snd h) - 1 =? i)%nat; [destruct (pop_keeps h) as (A & B); split; [exact A|lia]|].
  destruct (heap_down (S (length (snd h) - 1)) (q_swap h i (length (snd h) - 1)) i (length (snd h) - 1)) as [h2 i'] eqn:D.
  pose proof (down_keeps (S (length (snd h) - 1)) (q_swap h i (length (snd h) - 1)) i (length (snd h) - 1)) as (A & B). rewrite D in A, B. cbn [fst] in A, B. rewrite swap_len in B.
  assert (K : forall h3, (h3 = h2 \/ h3 = heap_up (S (length (snd h) - 1)) h2 i) -> same h (q_pop h3) /\ S (length (snd (q_pop h3))) = length (snd h)).
  { intros h3 [->| ->]; [destruct (pop_keeps h2) as (P & Q)|destruct (pop_keeps (heap_up (S (length (snd h) - 1)) h2 i)) as (P & Q); destruct (up_keeps (S (length (snd h) - 1)) h2 i) as (U & V); rewrite V in Q];
      (split; [|lia]); (eapply same_trans; [eapply same_trans; [apply same_swap|exact A]|]); [exact P|eapply same_trans; [exact U|exact P]]. }
  apply K. destruct (i <? i')%nat; auto.
Qed.

(** ** What is still to come of a section, in one step *)
Definition fin_s (p : spot) (l : list Z) : res (list Z * answer) :=
  match p with
  | PReg id => Ok (id :: filter (fun i => negb (i =? id)) l, ANone)
  | PGet id => Ok (l, AFound (mem l id))
  | PMake => Ok (l, AIds l)
  | PEach r acc => Ok (l, AIds (acc ++ r))
  | PDrop id => Ok (filter (fun i => negb (i =? id)) l, ANone)
  | PDone a => Ok (l, a)
  | _ => Err ErrFuel
  end.
Definition ticked (keys : list Z) (t : timer) (now : Z) : res (timer * answer) := do (t', ks) <- timer_check t now ; Ok (t', AKeys (keys ++ ks)).
Definition unmapped (t : timer) (k : Z) : timer := Timer (tm_seconds t) (tm_store t) (tm_q t) (map_del (tm_map t) k).
Definition unqueued (t : timer) (p : nat) : res timer := do h <- q_remove (tm_store t, tm_q t) p ; Ok (Timer (tm_seconds t) (fst h) (snd h) (tm_map t)).
Definition fin_t (p : spot) (t : timer) : res (timer * answer) :=
  match p with
  | PLook k => do t' <- timer_remove t k ; Ok (t', ANone)
  | PUnmap k p => do t' <- unqueued (unmapped t k) p ; Ok (t', ANone)
  | PUnq p => do t' <- unqueued t p ; Ok (t', ANone)
  | PPush k x => Ok (timer_insert t k x, ANone)
  | PMap k p => Ok (Timer (tm_seconds t) (tm_store t) (tm_q t) (map_set (tm_map t) k p), ANone)
  | PTop now keys => ticked keys t now
  | PTopUnq now top keys => do t' <- unqueued t top ; ticked (keys ++ [e_key (deref (tm_store t) top)]) (unmapped t' (e_key (deref (tm_store t) top))) now
  | PTopUnmap now top keys => ticked (keys ++ [e_key (deref (tm_store t) top)]) (unmapped t (e_key (deref (tm_store t) top))) now
  | PTopKey now top keys => ticked (keys ++ [e_key (deref (tm_store t) top)]) t now
  | PDone a => Ok (t, a)
  | _ => Err ErrFuel
  end.
Definition cut (l : list request) (i : nat) (r : request) : res (list request * answer) :=
  match nth_error l (length l - 1) with Some z => Ok (firstn (length l - 1) (replace_at l i z), AReq (Some r)) | None => Panic end.
Definition fin_r (s : Z) (p : spot) (l : list request) : res (list request * answer) :=
  match p with
  | PScan s' r i => if s' =? s then Ok (firstn i l ++ add_request (skipn i l) r, ANone) else Err ErrFuel
  | PPut s' r i => if s' =? s then Ok (replace_at l i r, ANone) else Err ErrFuel
  | PAppend s' r => if s' =? s then Ok (l ++ [r], ANone) else Err ErrFuel
  | PSeek s' n i => if s' =? s then match find_serial (skipn i l) n with
      | None => Ok (l, AReq None)
      | Some j => cut l (i + j) (nth (i + j) l (Request 0 0 0))
      end else Err ErrFuel
  | PLast s' i r => if s' =? s then cut l i r else Err ErrFuel
  | PCut s' r => if s' =? s then match l with [] => Panic | _ => Ok (firstn (length l - 1) l, AReq (Some r)) end else Err ErrFuel
  | PDone a => Ok (l, a)
  | _ => Err ErrFuel
  end.
(** the data behind the mutex will be these, and this will be the answer *)
Definition will (x : sect) (p : spot) (d a : data) (b : answer) : Prop :=
  match guard x with
  | Mserver => fin_s p (da_sessions d) = Ok (da_sessions a, b)
  | Mtimer => fin_t p (da_timer d) = Ok (da_timer a, b)
  | Msession s => fin_r s p (da_requests d s) = Ok (da_requests a s, b)
  end.

Lemma will_done x c d a b : will x (PDone c) d a b -> c = b /\ agree (guard x) d a.
Proof. unfold will, agree. destruct (guard x) as [| |s]; cbn [fin_s fin_t fin_r]; intros E; injection E as E1 E2; auto. Qed.
Lemma agree_will x p d d' a b : agree (guard x) d d' -> will x p d a b -> will x p d' a b.
Proof. unfold will, agree. destruct (guard x) as [| |s]; intros ->; auto. Qed.

Lemma check_top t now top q : tm_q t = top :: q -> (now <? e_expire (deref (tm_store t) top)) = false ->
  timer_check t now = do t' <- unqueued t top ; do (t2, ks) <- timer_check (unmapped t' (e_key (deref (tm_store t) top))) now ; Ok (t2, e_key (deref (tm_store t) top) :: ks).
Proof.
  intros Q T. unfold timer_check at 1. set (n := length (tm_q t)).
  assert (E : forall f, timer_tick (S f) t now = do h <- q_remove (tm_store t, tm_q t) top ;
    do (t', keys) <- timer_tick f (Timer (tm_seconds t) (fst h) (snd h) (map_del (tm_map t) (e_key (deref (tm_store t) top)))) now ; Ok (t', e_key (deref (tm_store t) top) :: keys))
    by (intros f; cbn [timer_tick]; rewrite Q, T; reflexivity).
  rewrite E. unfold unqueued. destruct (q_remove (tm_store t, tm_q t) top) as [h| |] eqn:R; cbn [bind]; try reflexivity. destruct (remove_keeps _ _ _ R) as (_ & L). cbn [snd] in L.
  unfold timer_check, unmapped. cbn [tm_seconds tm_store tm_q tm_map]. subst n. rewrite <- L. reflexivity.
Qed.
Lemma inner_t x p d a b : guard x = Mtimer -> (forall c, p <> PDone c) -> will x p d a b -> exists p' t', inner p d = Ok (p', put_timer d t') /\ will x p' (put_timer d t') a b
  \/ inner p d = Ok (p', d) /\ will x p' d a b.
Proof.
  intros G N W. assert (W' : fin_t p (da_timer d) = Ok (da_timer a, b)) by (unfold will in W; rewrite G in W; exact W). clear W.
  assert (B : forall p' t', inner p d = Ok (p', put_timer d t') -> fin_t p' t' = fin_t p (da_timer d) -> exists p' t', inner p d = Ok (p', put_timer d t') /\ will x p' (put_timer d t') a b \/ inner p d = Ok (p', d) /\ will x p' d a b).
  { intros p' t' I F. exists p', t'. left. split; [exact I|]. unfold will. rewrite G. cbn [da_timer put_timer]. congruence. }
  assert (C : forall p', inner p d = Ok (p', d) -> fin_t p' (da_timer d) = fin_t p (da_timer d) -> exists p' t', inner p d = Ok (p', put_timer d t') /\ will x p' (put_timer d t') a b \/ inner p d = Ok (p', d) /\ will x p' d a b).
  { intros p' I F. exists p', (da_timer d). right. split; [exact I|]. unfold will. rewrite G. congruence. }
  set (t := da_timer d) in *.
  destruct p; cbn [fin_t] in W'; try discriminate W'.
  - (* PLook *) destruct (map_get (tm_map t) k) as [p|] eqn:M.
    + apply (C (PUnmap k p)); [cbn [inner]; fold t; rewrite M; reflexivity|]. cbn [fin_t]. unfold timer_remove, unqueued, unmapped. rewrite M. cbn [tm_store tm_q tm_seconds tm_map].
      destruct (q_remove (tm_store t, tm_q t) p); reflexivity.
    + apply (C (PDone ANone)); [cbn [inner]; fold t; rewrite M; reflexivity|]. cbn [fin_t]. unfold timer_remove. rewrite M. reflexivity.
  - (* PUnmap *) eapply (B (PUnq p) (unmapped t k)); reflexivity.
  - (* PUnq *) unfold unqueued in W'. destruct (q_remove (tm_store t, tm_q t) p) as [h| |] eqn:Q; try discriminate W'.
    eapply (B (PDone ANone)); [cbn [inner]; fold t; rewrite Q; reflexivity|]. cbn [fin_t]. unfold unqueued. rewrite Q. reflexivity.
  - (* PPush *) eapply (B (PMap k (length (tm_store t)))); [cbn [inner]; fold t; reflexivity|]. reflexivity.
  - (* PMap *) eapply (B (PDone ANone)); [cbn [inner]; fold t; reflexivity|]. reflexivity.
  - (* PTop *) destruct (tm_q t) as [|top q] eqn:Q.
    + apply (C (PDone (AKeys keys))); [cbn [inner]; fold t; rewrite Q; reflexivity|]. cbn [fin_t]. unfold ticked, timer_check. cbn [timer_tick]. rewrite Q. cbn [bind]. rewrite app_nil_r. reflexivity.
    + destruct (now <? e_expire (deref (tm_store t) top)) eqn:T.
      * apply (C (PDone (AKeys keys))); [cbn [inner]; fold t; rewrite Q, T; reflexivity|]. cbn [fin_t]. unfold ticked, timer_check. cbn [timer_tick]. rewrite Q, T. cbn [bind]. rewrite app_nil_r. reflexivity.
      * apply (C (PTopUnq now top keys)); [cbn [inner]; fold t; rewrite Q, T; reflexivity|]. cbn [fin_t]. unfold ticked. rewrite (check_top t now top q Q T).
        destruct (unqueued t top) as [t1| |]; cbn [bind]; try reflexivity. destruct (timer_check (unmapped t1 _) now) as [[t' ks]| |]; cbn [bind]; try reflexivity. rewrite <- app_assoc. reflexivity.
  - (* PTopUnq *) unfold unqueued in W'. destruct (q_remove (tm_store t, tm_q t) top) as [h| |] eqn:Q; try discriminate W'. destruct (remove_keeps _ _ _ Q) as (Sm & _).
    eapply (B (PTopUnmap now top keys)); [cbn [inner]; fold t; rewrite Q; reflexivity|]. cbn [fin_t]. unfold unqueued. rewrite Q. cbn [bind tm_store]. rewrite (sm_key _ _ Sm). reflexivity.
  - (* PTopUnmap *) eapply (B (PTopKey now top keys)); [cbn [inner]; fold t; reflexivity|]. reflexivity.
  - (* PTopKey *) apply (C (PTop now (keys ++ [e_key (deref (tm_store t) top)]))); reflexivity.
  - (* PDone *) destruct (N a0). reflexivity.
Qed.
