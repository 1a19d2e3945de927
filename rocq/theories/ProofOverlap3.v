(** Packets handled one after the other are one of the schedules; torn uploads. *)
From Verif Require Import Base LibBase Bcd LibBcd Multipart LibMulti SpecMulti ProofMulti ProofMulti2 Overlap SpecOverlap ProofOverlap ProofOverlap2.

Lemma inter_app a : forall b f ts, interleave (a ++ b) f ts = let '(f', ts') := interleave a f ts in interleave b f' ts'.
Proof.
  induction a as [|i a IH]; intros b f ts; [reflexivity|]. cbn [app interleave]. destruct (nth_error ts i); [|apply IH].
  destruct (thread_step f t) as [f' t']. apply IH.
Qed.
Lemma inter_repeat k : forall f a t b, interleave (repeat (length a) k) f (a ++ t :: b) = (fst (steps k f t), a ++ snd (steps k f t) :: b).
Proof.
  induction k as [|k IH]; intros f a t b; [reflexivity|]. cbn [repeat interleave steps].
  rewrite nth_error_app2, Nat.sub_diag by lia. cbn [nth_error]. destruct (thread_step f t) as [f' t'].
  rewrite firstn_pre. replace (S (length a)) with (length (a ++ [t])) by (rewrite app_length; cbn; lia).
  change (a ++ t :: b) with (a ++ [t] ++ b). rewrite app_assoc, skipn_pre. apply IH.
Qed.
(** goroutines between packets *)
Definition resting (pss : list (list packet)) (outs : list (list outcome)) : list thread := map (fun x => Thread (fst x) TIdle (snd x)) (combine pss outs).
Lemma combine_app {A B} (a : list A) (a' : list B) b b' : length a = length a' -> combine (a ++ b) (a' ++ b') = combine a a' ++ combine b b'.
Proof. revert a'. induction a as [|x a IH]; intros [|y a'] E; try discriminate; [reflexivity|]. cbn. f_equal. apply IH. injection E as E. exact E. Qed.
Lemma picked_cons i j order o os : picked i (j :: order) (o :: os) = if Nat.eqb j i then o :: picked i order os else picked i order os.
Proof. unfold picked. cbn [combine filter fst]. destruct (Nat.eqb j i); reflexivity. Qed.
Lemma split_at {A} (l : list A) n : (n < length l)%nat -> exists a x b, l = a ++ x :: b /\ length a = n.
Proof.
  intros H. exists (firstn n l). destruct (skipn n l) as [|x b] eqn:E.
  - pose proof (skipn_length n l) as L. rewrite E in L. cbn in L. lia.
  - exists x, b. rewrite <- E, firstn_skipn, firstn_length. split; [reflexivity|lia].
Qed.
Lemma coarse pss order ps : served pss order ps -> Forall (Forall packet_ok) pss -> forall f outs f' os, fs_ok f -> length outs = length pss -> in_turn f ps f' os ->
  exists sched pss' outs', interleave sched f (resting pss outs) = (f', resting pss' outs') /\ length outs' = length pss' /\ length pss' = length pss /\
    forall i, nth i outs' [] = nth i outs [] ++ picked i order os.
Proof.
  induction 1 as [pss|a p r b order ps SV IH]; intros A f outs f' os K L T.
  - inversion T; subst. exists [], pss, outs. repeat split; auto. intros i. unfold picked. cbn. rewrite app_nil_r. reflexivity.
  - inversion T as [|f0 p0 f1 o ps0 f2 os0 T1 T2]; subst.
    assert (Kp : packet_ok p /\ Forall (Forall packet_ok) (a ++ r :: b)).
    { apply Forall_app in A as [A1 A2]. pose proof (Forall_inv A2) as A3. pose proof (Forall_inv_tail A2) as A4.
      split; [exact (Forall_inv A3)|]. apply Forall_app. split; [exact A1|]. apply Forall_cons; [exact (Forall_inv_tail A3)|exact A4]. }
    destruct Kp as [Kp A']. rewrite app_length in L. cbn [length] in L.
    destruct (split_at outs (length a)) as (oa & out & ob & -> & LO); [lia|].
    destruct (packet_alone f p r out K Kp) as (k & g & o' & Q1 & Q2 & Q3).
    assert (E : g = f1 /\ o' = o).
    { destruct (turn_unique f [p] g [o'] (TurnNext _ _ _ _ _ _ _ Q1 (TurnEnd g)) f1 [o] (TurnNext _ _ _ _ _ _ _ T1 (TurnEnd f1))) as [-> E]. split; congruence. }
    destruct E as [-> ->].
    destruct (IH A' f1 (oa ++ (out ++ [o]) :: ob) f' os0 Q2) as (sched & pss' & outs' & R1 & R2 & R3 & R4); [|exact T2|].
    { rewrite !app_length in *. cbn [length] in *. lia. }
    exists (repeat (length a) k ++ sched), pss', outs'. split; [|split; [exact R2|split]].
    + rewrite inter_app. unfold resting at 1. rewrite combine_app, map_app by congruence. cbn [combine map fst snd].
      set (ta := map _ (combine a oa)). replace (length a) with (length ta) by (unfold ta; rewrite map_length, combine_length; lia).
      rewrite inter_repeat, Q3. cbn [fst snd]. rewrite <- R1. unfold resting. rewrite combine_app, map_app by congruence. reflexivity.
    + rewrite R3, !app_length. reflexivity.
    + intros i. rewrite R4, picked_cons. destruct (Nat.eqb_spec (length a) i) as [<-|N].
      * rewrite <- LO, !app_nth2, !Nat.sub_diag by lia. cbn [nth]. rewrite <- app_assoc. reflexivity.
      * f_equal. destruct (Nat.lt_ge_cases i (length oa)) as [H|H]; [rewrite !app_nth1 by exact H; reflexivity|].
        rewrite !app_nth2 by exact H. destruct (i - length oa)%nat eqn:D; [lia|reflexivity].
Qed.
Lemma coarse_fresh pss order ps f f' os : Forall (Forall packet_ok) pss -> fs_ok f -> served pss order ps -> in_turn f ps f' os ->
  exists sched ts, interleave sched f (map fresh pss) = (f', ts) /\ length ts = length pss /\
    forall i t, nth_error ts i = Some t -> th_at t = TIdle /\ th_out t = picked i order os.
Proof.
  intros A K SV T. destruct (coarse pss order ps SV A f (map (fun _ => []) pss) f' os K (map_length _ _) T) as (sched & pss' & outs' & R1 & R2 & R3 & R4).
  exists sched, (resting pss' outs'). split; [|split].
  - rewrite <- R1. f_equal. unfold resting. clear. induction pss as [|p l IH]; [reflexivity|]. cbn [map combine fst snd]. rewrite IH. reflexivity.
  - unfold resting. rewrite map_length, combine_length. lia.
  - intros i t E. assert (N : nth i (map (fun _ : list packet => @nil outcome) pss) [] = []) by (clear; revert i; induction pss; destruct i; cbn; auto).
    specialize (R4 i). rewrite N in R4. cbn [app] in R4. rewrite <- R4. clear - E R2. unfold resting in E. revert i outs' R2 E.
    induction pss' as [|p l IH]; intros i [|o os'] R2 E; try discriminate; [destruct i; discriminate|]. destruct i; cbn [combine map nth_error nth fst snd] in *; [injection E as <-; auto|].
    apply IH; [injection R2 as R2; exact R2|exact E].
Qed.

(** ** The same upload on two connections *)
Definition torn_up : mpf := Mpf 13800138000 2049 7 2.
Definition torn_p1 : packet := Packet torn_up 1 [1; 2].
Definition torn_p2 : packet := Packet torn_up 2 [3; 4].
(** the second connection hands over while the first has only created its file *)
Definition torn_sched : list nat := repeat 0%nat 3 ++ repeat 1%nat 12 ++ repeat 0%nat 2.
Lemma torn_ok : packet_ok torn_p1 /\ packet_ok torn_p2.
Proof. repeat constructor; vm_compute; congruence. Qed.
Lemma root_ok : fs_ok root_fs.
Proof. intros r d H. discriminate. Qed.
Lemma turn_steps ps f : Forall packet_ok ps -> fs_ok f -> forall k f1 os1, steps k f (fresh ps) = (f1, Thread [] TIdle os1) -> in_turn f ps f1 os1.
Proof.
  intros A K k f1 os1 E. destruct (alone ps f A K) as (k' & f' & os & T & S).
  assert (Q : steps (k + k') f (fresh ps) = (f1, Thread [] TIdle os1)) by (rewrite steps_app, E; apply steps_end).
  rewrite S in Q by lia. injection Q as <- <-. exact T.
Qed.
Lemma torn : exists a b sched t c,
  packet_ok a /\ packet_ok b /\ pk_up a = pk_up b /\ mp_sum (pk_up a) = 2 /\ pk_seq a = 1 /\ pk_seq b = 2 /\
  nth_error (snd (interleave sched root_fs (map fresh [[a]; [b]]))) 1 = Some t /\ In (OWhole c) (th_out t) /\
  forall ps f' os, Permutation.Permutation [a; b] ps -> in_turn root_fs ps f' os -> ~ In (OWhole c) os.
Proof.
  destruct torn_ok as [K1 K2]. exists torn_p1, torn_p2, torn_sched, (Thread [] TIdle [OWhole [3; 4]]), [3; 4].
  split; [exact K1|]. split; [exact K2|]. do 4 (split; [reflexivity|]). split; [vm_compute; reflexivity|]. split; [left; reflexivity|].
  intros ps f' os P T.
  assert (A1 : Forall packet_ok [torn_p1; torn_p2]) by (apply Forall_cons; [exact K1|]; apply Forall_cons; [exact K2|]; apply Forall_nil).
  assert (A2 : Forall packet_ok [torn_p2; torn_p1]) by (apply Forall_cons; [exact K2|]; apply Forall_cons; [exact K1|]; apply Forall_nil).
  apply Permutation.Permutation_length_2_inv in P as [->| ->].
  - destruct (turn_unique _ _ _ _ T _ _ (turn_steps _ root_fs A1 root_ok 30 _ [OKept; OWhole [1; 2; 3; 4]] ltac:(vm_compute; reflexivity))) as [_ ->].
    intros [H|[H|[]]]; discriminate.
  - destruct (turn_unique _ _ _ _ T _ _ (turn_steps _ root_fs A2 root_ok 30 _ [OKept; OKept] ltac:(vm_compute; reflexivity))) as [_ ->].
    intros [H|[H|[]]]; discriminate.
Qed.
