(** Readings of the specification along a history. *)
From Coq Require Import Sorted.
From Verif Require Import Base LibBase Timer SpecTimer ProofTimer2.

Lemma conforms_app dead a : forall s b out, conforms dead s (a ++ b) out ->
  exists o1 o2, out = o1 ++ o2 /\ length o1 = length a /\ conforms dead (fold_left (spec_step dead) a s) b o2.
Proof.
  induction a as [|o a IH]; intros s b out C; [exists [], out; auto|]. destruct out as [|ks out]; cbn in C; [contradiction|].
  destruct C as (A & B). destruct (IH _ _ _ B) as (o1 & o2 & -> & L & C). exists (ks :: o1), o2. split; auto. split; [cbn; auto|exact C].
Qed.
Lemma no_update dead k b : forall s, (forall o, In o b -> ~ updates_key k o) ->
  ts_dl (fold_left (spec_step dead) b s) k = None \/ ts_dl (fold_left (spec_step dead) b s) k = ts_dl s k.
Proof.
  induction b as [|o b IH]; intros s H; [right; reflexivity|]. cbn [fold_left].
  destruct (IH (spec_step dead s o)) as [E|E]; [intros; apply H; cbn; auto|left; auto|]. rewrite E. specialize (H o (or_introl eq_refl)).
  destruct o; cbn [spec_step ts_dl updates_key] in *.
  - right. unfold put. destruct (Z.eqb_spec k key); auto. congruence.
  - unfold put. destruct (k =? key); auto.
  - right. destruct (0 <? seconds); reflexivity.
  - unfold without_expired. destruct (expired _ _ _); auto.
Qed.
Lemma tick_at dead s a now out : conforms dead s (a ++ [UTick now]) out -> exists o1 ks, out = o1 ++ [ks] /\ length o1 = length a /\ fires (ts_dl (fold_left (spec_step dead) a s)) now ks.
Proof.
  intros C. destruct (conforms_app dead a _ _ _ C) as (o1 & o2 & -> & L & C2). destruct o2 as [|ks [|]]; cbn in C2; try tauto. exists o1, ks. tauto.
Qed.
Lemma fired_removed dead s a k b now out ks o1 : conforms dead s ((a ++ URemove k :: b) ++ [UTick now]) out -> (forall o, In o b -> ~ updates_key k o) ->
  out = o1 ++ [ks] -> ~ In k ks.
Proof.
  intros C N E H. destruct (tick_at _ _ _ _ _ C) as (o2 & ks' & E' & _ & F). rewrite E in E'. apply app_inj_tail in E'. destruct E' as (_ & <-).
  destruct F as (_ & F & _). apply F in H. unfold expired in H. rewrite fold_left_app in H. cbn [fold_left] in H.
  destruct (no_update dead k b (spec_step dead (fold_left (spec_step dead) a s) (URemove k)) N) as [X|X]; rewrite X in H; try discriminate.
  cbn [spec_step ts_dl] in H. unfold put in H. rewrite Z.eqb_refl in H. discriminate.
Qed.
Lemma fired_refreshed dead s a k u b now out ks o1 : conforms dead s ((a ++ UUpdate k u :: b) ++ [UTick now]) out -> (forall o, In o b -> ~ updates_key k o) ->
  out = o1 ++ [ks] -> In k ks -> dead u (ts_secs (fold_left (spec_step dead) a s)) <= now.
Proof.
  intros C N E H. destruct (tick_at _ _ _ _ _ C) as (o2 & ks' & E' & _ & F). rewrite E in E'. apply app_inj_tail in E'. destruct E' as (_ & <-).
  destruct F as (_ & F & _). apply F in H. unfold expired in H. rewrite fold_left_app in H. cbn [fold_left] in H.
  destruct (no_update dead k b (spec_step dead (fold_left (spec_step dead) a s) (UUpdate k u)) N) as [X|X]; rewrite X in H; try discriminate.
  cbn [spec_step ts_dl] in H. unfold put in H. rewrite Z.eqb_refl in H. lia.
Qed.
Lemma run_out t ops t' out : urun t ops = Ok (t', out) -> forall t2 out2, urun t ops = Ok (t2, out2) -> out = out2.
Proof. congruence. Qed.
Lemma removed_silent s0 a k b now t out : ordinary s0 -> Forall ordinary_op ((a ++ URemove k :: b) ++ [UTick now]) ->
  urun (timer_new s0) ((a ++ URemove k :: b) ++ [UTick now]) = Ok (t, out) -> (forall o, In o b -> ~ updates_key k o) -> ~ In k (last out []).
Proof.
  intros S O R N. destruct (timer_exact s0 _ S O) as (t' & out' & R' & C). assert (out' = out) by congruence. subst out'.
  destruct (tick_at _ _ _ _ _ C) as (o1 & ks & E & _ & _). rewrite E, last_last. eapply fired_removed; eauto.
Qed.
Lemma refreshed_waits s0 a k u b now t out : ordinary s0 -> Forall ordinary_op ((a ++ UUpdate k u :: b) ++ [UTick now]) ->
  urun (timer_new s0) ((a ++ UUpdate k u :: b) ++ [UTick now]) = Ok (t, out) -> (forall o, In o b -> ~ updates_key k o) -> In k (last out []) ->
  u + timeout_after s0 a <= now.
Proof.
  intros S O R N H. destruct (timer_exact s0 _ S O) as (t' & out' & R' & C). assert (out' = out) by congruence. subst out'.
  destruct (tick_at _ _ _ _ _ C) as (o1 & ks & E & _ & _). rewrite E, last_last in H. eapply (fired_refreshed Z.add); eauto.
Qed.
From Coq Require Import Permutation.
From Verif Require Import LibHeap ProofTimer.
Lemma queue_good st q : queue_ok st q <-> good (st, q).
Proof.
  split.
  - intros (A & B). constructor; [constructor|]; cbn [fst snd].
    + intros i I. apply B. exact I.
    + intros i I. apply B. exact I.
    + intros k K. apply A. exact K.
  - intros [[A B] C]. cbn [fst snd] in *. split; [intros i I; exact (C i I)|]. intros i I. split; [exact (A i I)|exact (B i I)].
Qed.
Lemma queue_update st q p x : queue_ok st q -> In p q -> exists st' q', q_update (st, q) p x = Ok (st', q') /\ queue_ok st' q' /\ Permutation q q' /\
  (forall a, e_key (nth a st' (Elem 0 0 0)) = e_key (nth a st (Elem 0 0 0))) /\
  (forall a, e_expire (nth a st' (Elem 0 0 0)) = if (a =? p)%nat then x else e_expire (nth a st (Elem 0 0 0))).
Proof. intros Q P. apply queue_good in Q. destruct (q_update_ok (st, q) p x Q P) as ([st' q'] & E & G & R). exists st', q'. split; auto. split; [apply queue_good; auto|exact R]. Qed.
Lemma queue_remove st q p : queue_ok st q -> In p q -> exists st' q', q_remove (st, q) p = Ok (st', q') /\ queue_ok st' q' /\ Permutation q (p :: q') /\
  (forall a, e_key (nth a st' (Elem 0 0 0)) = e_key (nth a st (Elem 0 0 0)) /\ e_expire (nth a st' (Elem 0 0 0)) = e_expire (nth a st (Elem 0 0 0))).
Proof.
  intros Q P. apply queue_good in Q. destruct (q_remove_ok (st, q) p Q P) as ([st' q'] & E & G & [S1 S2 S3] & R). exists st', q'. split; auto. split; [apply queue_good; auto|]. split; auto.
  intros a. split; [apply S2|apply S3].
Qed.
Lemma queue_push st q p : queue_ok st q -> (p < length st)%nat -> ~ In p q -> queue_ok (fst (heap_push (st, q) p)) (snd (heap_push (st, q) p)) /\ Permutation (p :: q) (snd (heap_push (st, q) p)).
Proof. intros Q L N. apply queue_good in Q. destruct (push_ok (st, q) p Q L N) as (G & _ & R). split; auto. apply queue_good. destruct (heap_push (st, q) p). exact G. Qed.
Lemma queue_least st q : queue_ok st q -> forall i, (i < length q)%nat -> e_expire (nth (nth 0 q O) st (Elem 0 0 0)) <= e_expire (nth (nth i q O) st (Elem 0 0 0)).
Proof. intros Q i I. apply queue_good in Q. exact (heap_min _ (g_heap _ Q) i I). Qed.
(** An example history *)
Definition demo_ops : list uop :=
  [UUpdate 1 100; UUpdate 2 103; UUpdate 3 101; USet 5; UUpdate 4 104; UTick 109; UUpdate 2 109; URemove 3; UTick 115; UTick 170].
