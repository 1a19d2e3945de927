(** Mutual exclusion, no deadlock, no race. *)
From Verif Require Import Base LibBase Timer LibHeap ProofTimer Session Server Locks SpecLocks ProofLocks ProofLocks2 ProofLocks3.

Lemma lock_ind sec (P : lstate -> list levent -> Prop) : P (linit sec) [] ->
  (forall s evs l a o s' es, linv sec s evs l a -> P s evs -> lstep s o = Ok (s', es) -> P s' (evs ++ es)) -> forall ops s evs, lock_runs sec ops s evs -> P s evs.
Proof.
  intros P0 PS ops. assert (K : forall s evs l a, linv sec s evs l a -> P s evs -> forall s' es, lrun s ops = Ok (s', es) -> P s' (evs ++ es)).
  { induction ops as [|o ops IH]; intros s evs l a V H s' es E; cbn [lrun] in E; [injection E as <- <-; rewrite app_nil_r; exact H|].
    destruct (linv_step sec s evs l a o V) as (s1 & e1 & l1 & a1 & E1 & V1). rewrite E1 in E. cbn [bind] in E. destruct (lrun s1 ops) as [[s2 e2]| |] eqn:E2; try discriminate E.
    injection E as <- <-. rewrite app_assoc. exact (IH s1 (evs ++ e1) l1 a1 V1 (PS s evs l a o s1 e1 V H E1) s2 e2 E2). }
  intros s evs R. exact (K _ [] [] _ (linv_init sec) P0 s evs R).
Qed.

(** ** Mutual exclusion *)
Definition still (s : lstate) (evs : list levent) : Prop :=
  forall e1 i x e2, evs = e1 ++ ETook i x :: e2 -> (exists a, In (EFree i x a) e2) \/ exists p nx, ls_at s i = Inside x p nx.
Lemma snoc_split {A} (evs : list A) (es : list A) e1 x e2 : evs ++ es = e1 ++ x :: e2 -> (length es <= 1)%nat -> (exists e2', evs = e1 ++ x :: e2' /\ e2 = e2' ++ es) \/ (es = [x] /\ e1 = evs /\ e2 = []).
Proof.
  intros E L. destruct es as [|y [|z es]]; [rewrite app_nil_r in E; left; exists e2; rewrite app_nil_r; auto| |cbn [length] in L; lia].
  destruct e2 as [|w e2 _] using rev_ind.
  - right. apply app_inj_tail in E as [-> ->]. auto.
  - left. exists e2. rewrite app_comm_cons, app_assoc in E. apply app_inj_tail in E as [-> ->]. auto.
Qed.
Lemma one_event s o s' es : lstep s o = Ok (s', es) -> (length es <= 1)%nat.
Proof.
  destruct o as [i c|i now]; cbn [lstep]; intros E.
  - destruct (ls_at s i); injection E as <- <-; cbn [length]; lia.
  - destruct (ls_at s i) as [|k| |n|x nx|x p nx]; try (injection E as <- <-; cbn [length]; lia).
    + destruct (ls_held s (guard x)); injection E as <- <-; cbn [length]; lia.
    + destruct p; try (destruct (inner _ _) as [[p' d']| |]; try discriminate E); injection E as <- <-; cbn [length]; lia.
Qed.
(** a goroutine inside stays there or leaves *)
Lemma stays s o s' es i x p nx : lstep s o = Ok (s', es) -> ls_at s i = Inside x p nx -> (exists p' , ls_at s' i = Inside x p' nx) \/ exists a, p = PDone a /\ es = [EFree i x a].
Proof.
  intros E A. destruct o as [j c|j now]; cbn [lstep] in E.
  - left. destruct (Nat.eq_dec j i) as [->|N]; [rewrite A in E; injection E as <- <-; eauto|]. destruct (ls_at s j); injection E as <- <-; eauto.
    exists p. cbn [go_to ls_at]. destruct (Nat.eqb_spec i j); [congruence|exact A].
  - destruct (Nat.eq_dec j i) as [->|N].
    + rewrite A in E. destruct p; try (destruct (inner _ _) as [[p' d']| |]; try discriminate E; injection E as <- <-; left; exists p'; cbn [go_to ls_at]; rewrite Nat.eqb_refl; reflexivity).
      right. injection E as <- <-. eauto.
    + left. exists p. assert (M : forall s1 q, ls_at s1 i = ls_at s i -> ls_at (go_to s1 j q) i = Inside x p nx) by (intros s1 q Q; cbn [go_to ls_at]; destruct (Nat.eqb_spec i j); [congruence|rewrite Q; exact A]).
      destruct (ls_at s j) as [|k| |n|y ny|y q ny]; try (injection E as <- <-; first [exact A|apply M; reflexivity]).
      * destruct (ls_held s (guard y)); injection E as <- <-; first [exact A|apply M; reflexivity].
      * destruct q; try (destruct (inner _ _) as [[p' d']| |]; try discriminate E); injection E as <- <-; apply M; reflexivity.
Qed.
(** a mutex is taken when it is free, and then one is inside *)
Lemma takes s o s' i x : lstep s o = Ok (s', [ETook i x]) -> ls_held s (guard x) = None /\ exists p nx, ls_at s' i = Inside x p nx.
Proof.
  intros E. destruct o as [j c|j now]; cbn [lstep] in E.
  - destruct (ls_at s j); discriminate.
  - destruct (ls_at s j) as [|k| |n|y ny|y q ny]; try discriminate.
    + destruct (ls_held s (guard y)) eqn:H; try discriminate. injection E as <- <- <-. split; [exact H|]. cbn [go_to ls_at]. rewrite Nat.eqb_refl. eauto.
    + destruct q; try (destruct (inner _ _) as [[p' d']| |]; discriminate E). discriminate E.
Qed.
Lemma mutual sec ops s evs : lock_runs sec ops s evs -> exclusive evs.
Proof.
  intros R. enough (K : exclusive evs /\ still s evs) by apply K. revert ops s evs R. apply (lock_ind sec (fun s evs => exclusive evs /\ still s evs)).
  - split; [intros e1 i x e2 j y e3 E|intros e1 i x e2 E]; destruct e1; discriminate.
  - intros s evs l a o s' es V (X & S) E. pose proof (one_event _ _ _ _ E) as L. split.
    + intros e1 i x e2 j y e3 Q G. rewrite app_comm_cons, app_assoc in Q. destruct (snoc_split _ _ _ _ _ Q L) as [(e3' & E1 & ->)|(E1 & E2 & ->)].
      * rewrite <- app_assoc, <- app_comm_cons in E1. exact (X e1 i x e2 j y e3' E1 G).
      * subst es. destruct (takes _ _ _ _ _ E) as (F & _). destruct (S e1 i x e2 (eq_sym E2)) as [Y|(p & nx & A)]; [exact Y|].
        destruct (li_in _ _ _ _ _ V i x p nx A) as (Hh & _). congruence.
    + intros e1 i x e2 Q. destruct (snoc_split _ _ _ _ _ Q L) as [(e2' & E1 & ->)|(E1 & E2 & ->)].
      * destruct (S e1 i x e2' E1) as [(b & B)|(p & nx & A)]; [left; exists b; apply in_or_app; left; exact B|].
        destruct (stays _ _ _ _ _ _ _ _ E A) as [(p' & A')|(b & -> & ->)]; [right; eauto|left; exists b; apply in_or_app; right; left; reflexivity].
      * subst es. right. exact (proj2 (takes _ _ _ _ _ E)).
Qed.

(** ** One mutex at a time *)
Lemma one_mutex sec ops s evs i m : lock_runs sec ops s evs -> holds s i m -> (forall m', holds s i m' -> m' = m) /\ exists x p nx, ls_at s i = Inside x p nx /\ guard x = m.
Proof.
  intros R H. destruct (reached sec ops s evs R) as (l & a & V). destruct (li_held _ _ _ _ _ V m i H) as (x & p & nx & A & G). split; [|eauto].
  intros m' H'. destruct (li_held _ _ _ _ _ V m' i H') as (x' & p' & nx' & A' & G'). congruence.
Qed.

(** ** Work *)
Definition work (p : spot) (d : data) : nat :=
  match p with
  | PReg _ | PGet _ | PDrop _ | PUnq _ | PMap _ _ | PPut _ _ _ | PAppend _ _ | PCut _ _ => 1
  | PMake => length (da_sessions d) + 2
  | PEach l _ => length l + 1
  | PLook _ => 3 | PUnmap _ _ => 2 | PPush _ _ => 2
  | PTop _ _ => 4 * length (tm_q (da_timer d)) + 1
  | PTopUnq _ _ _ => 4 * length (tm_q (da_timer d))
  | PTopUnmap _ _ _ => 4 * length (tm_q (da_timer d)) + 3
  | PTopKey _ _ _ => 4 * length (tm_q (da_timer d)) + 2
  | PScan s _ i => (length (da_requests d s) - i) + 2
  | PSeek s _ i => (length (da_requests d s) - i) + 3
  | PLast _ _ _ => 2
  | PDone _ => 0
  end.
Lemma inner_work p d p' d' : (forall c, p <> PDone c) -> inner p d = Ok (p', d') -> (work p' d' < work p d)%nat.
Proof.
  intros N E. destruct p; cbn [inner] in E; cbv zeta in E.
  4: { destruct left; injection E as <- <-; cbn [work length]; lia. }
  5: { destruct (map_get _ _); injection E as <- <-; cbn [work]; lia. }
  6: { destruct (q_remove _ _); try discriminate E; injection E as <- <-; cbn [work]; lia. }
  8: { destruct (tm_q (da_timer d)) as [|top q] eqn:Q; [injection E as <- <-; cbn [work]; lia|]. destruct (now <? _); injection E as <- <-; cbn [work]; rewrite Q; cbn [length]; lia. }
  8: { destruct (q_remove _ _) as [h| |] eqn:Q; try discriminate E. destruct (remove_keeps _ _ _ Q) as (_ & L). injection E as <- <-. cbn [work put_timer da_timer tm_q]. cbn [snd] in L. lia. }
  10: { destruct (nth_error (da_requests d s) i) eqn:Q; [|injection E as <- <-; cbn [work]; lia]. assert (i < length (da_requests d s))%nat by (apply nth_error_Some; congruence).
        destruct (_ =? _); injection E as <- <-; cbn [work]; lia. }
  12: { destruct (nth_error (da_requests d s) i) eqn:Q; [|injection E as <- <-; cbn [work]; lia]. assert (i < length (da_requests d s))%nat by (apply nth_error_Some; congruence).
        destruct (_ =? _); injection E as <- <-; cbn [work]; lia. }
  12: { destruct (nth_error _ _); try discriminate E; injection E as <- <-; cbn [work]; lia. }
  12: { destruct (da_requests d s); try discriminate E; injection E as <- <-; cbn [work]; lia. }
  all: try (injection E as <- <-; cbn [work put_timer put_sessions da_timer tm_q da_sessions length]; lia).
  destruct (N a). reflexivity.
Qed.
