(** Sections end soon, everything can come to rest, no races. *)
From Verif Require Import Base LibBase Timer LibHeap ProofTimer Session Server Locks SpecLocks ProofLocks ProofLocks2 ProofLocks3 ProofLocks4 ProofLocks5.

Lemma lrun_app a : forall b s, lrun s (a ++ b) = do (s1, e1) <- lrun s a ; do (s2, e2) <- lrun s1 b ; Ok (s2, e1 ++ e2).
Proof.
  induction a as [|o a IH]; intros b s; cbn [app lrun bind].
  - destruct (lrun s b) as [[s2 e2]| |]; reflexivity.
  - destruct (lstep s o) as [[s1 e1]| |]; cbn [bind]; try reflexivity. rewrite IH. destruct (lrun s1 a) as [[s2 e2]| |]; cbn [bind]; try reflexivity.
    destruct (lrun s2 b) as [[s3 e3]| |]; cbn [bind]; try reflexivity. rewrite app_assoc. reflexivity.
Qed.
Lemma one_step s o s1 e1 r s2 e2 : lstep s o = Ok (s1, e1) -> lrun s1 r = Ok (s2, e2) -> lrun s (o :: r) = Ok (s2, e1 ++ e2).
Proof. intros E1 E2. cbn [lrun]. rewrite E1. cbn [bind]. rewrite E2. reflexivity. Qed.
Definition afterwards (nx : option sect) : place := match nx with Some y => AtLock y None | None => Idle end.

Lemma leaves sec now i x nx : forall n s evs l a p, linv sec s evs l a -> ls_at s i = Inside x p nx -> (work p (ls_data s) <= n)%nat ->
  exists k s' es l' a', (k <= n + 1)%nat /\ lrun s (alone_for i now k) = Ok (s', es) /\ linv sec s' (evs ++ es) l' a' /\ ls_at s' i = afterwards nx /\ (forall j, j <> i -> ls_at s' j = ls_at s j) /\
  (forall m, ls_held s' m = if mutex_eqb m (guard x) then None else ls_held s m).
Proof.
  induction n as [|n IH]; intros s evs l a p V A L;
    (destruct (match p with PDone c => Some c | _ => None end) as [c|] eqn:Pd;
     [assert (p = PDone c) by (destruct p; try discriminate; injection Pd as ->; reflexivity); subst p;
      destruct (linv_step sec s evs l a (LMove i now) V) as (s' & es & l' & a' & E & V'); exists 1%nat, s', es, l', a'; (split; [lia|]);
      (split; [cbn [alone_for repeat lrun]; rewrite E; cbn [bind]; rewrite app_nil_r; reflexivity|]); (split; [exact V'|]);
      cbn [lstep] in E; rewrite A in E; injection E as <- _; cbn [go_to set_held ls_at ls_held]; rewrite Nat.eqb_refl; (split; [reflexivity|]); (split; [intros j N; destruct (Nat.eqb_spec j i); [congruence|reflexivity]|]); reflexivity|]).
  - exfalso. destruct (li_in _ _ _ _ _ V i x p nx A) as (_ & b & Wb & _). assert (Np : forall c, p <> PDone c) by (intros c ->; discriminate).
    destruct (will_inner x p (ls_data s) a b Np Wb) as (p' & d' & I & _). pose proof (inner_work p _ p' d' Np I). lia.
  - assert (Np : forall c, p <> PDone c) by (intros c ->; discriminate). destruct (li_in _ _ _ _ _ V i x p nx A) as (_ & b & Wb & _).
    destruct (will_inner x p (ls_data s) a b Np Wb) as (p' & d' & I & _). pose proof (inner_work p _ p' d' Np I) as W.
    destruct (linv_step sec s evs l a (LMove i now) V) as (s1 & e1 & l1 & a1 & E & V1).
    assert (E' : (do (p', d') <- inner p (ls_data s) ; Ok (go_to (set_data s d') i (Inside x p' nx), [])) = Ok (s1, e1)) by (cbn [lstep] in E; rewrite A in E; destruct p; try discriminate Pd; exact E).
    rewrite I in E'. injection E' as <- <-. destruct (IH _ _ l1 a1 p' V1) as (k & s' & es & l' & a' & K & R & V' & A' & O & H).
    { cbn [go_to ls_at]. rewrite Nat.eqb_refl. reflexivity. } { cbn [go_to set_data ls_data]. lia. }
    exists (S k), s', es, l', a'. split; [lia|]. split; [apply (one_step _ _ _ _ _ _ _ E R)|]. rewrite app_nil_r in V'. split; [exact V'|]. split; [exact A'|]. split; [|exact H].
    intros j N. rewrite (O j N). cbn [go_to ls_at]. destruct (Nat.eqb_spec j i); [congruence|reflexivity].
Qed.
Lemma released sec ops s evs i m now : lock_runs sec ops s evs -> holds s i m ->
  exists n s' es, (n <= 4 * amount (ls_data s) m + 4)%nat /\ lrun s (alone_for i now n) = Ok (s', es) /\ (forall j, ~ holds s' j m) /\ (forall j m', m' <> m -> (holds s' j m' <-> holds s j m')).
Proof.
  intros R H. destruct (reached sec ops s evs R) as (l & a & V). destruct (li_held _ _ _ _ _ V m i H) as (x & p & nx & A & <-). pose proof (all_fitting sec ops s evs R i x p nx A) as F.
  destruct (leaves sec now i x nx _ s evs l a p V A (Nat.le_refl _)) as (k & s' & es & l' & a' & K & Q & _ & _ & _ & Hh). exists k, s', es. unfold fits in F. split; [lia|]. split; [exact Q|].
  unfold holds. split.
  - intros j. rewrite Hh. destruct (mutex_spec (guard x) (guard x)) as [_|N]; [discriminate|congruence].
  - intros j m' N. rewrite Hh. destruct (mutex_spec m' (guard x)); [congruence|tauto].
Qed.

(** ** To rest *)
Definition free (s : lstate) : Prop := forall m, ls_held s m = None.
Lemma lock_free s i x nx now : ls_at s i = AtLock x nx -> ls_held s (guard x) = None ->
  lstep s (LMove i now) = Ok (go_to (set_held s (guard x) (Some i)) i (Inside x (first_spot x) nx), [ETook i x]).
Proof. intros A H. cbn [lstep]. rewrite A, H. reflexivity. Qed.
Lemma passes sec now i x nx s evs l a : linv sec s evs l a -> free s -> ls_at s i = AtLock x nx ->
  exists k s' es l' a', lrun s (alone_for i now k) = Ok (s', es) /\ linv sec s' (evs ++ es) l' a' /\ ls_at s' i = afterwards nx /\ (forall j, j <> i -> ls_at s' j = ls_at s j) /\ free s'.
Proof.
  intros V F A. pose proof (lock_free s i x nx now A (F _)) as E. destruct (linv_step sec s evs l a (LMove i now) V) as (s1 & e1 & l1 & a1 & E1 & V1). rewrite E in E1. injection E1 as <- <-.
  destruct (leaves sec now i x nx (work (first_spot x) (ls_data s)) _ _ l1 a1 (first_spot x) V1) as (k & s' & es & l' & a' & _ & R & V' & A' & O & H); [cbn [go_to ls_at]; rewrite Nat.eqb_refl; reflexivity|apply Nat.le_refl|].
  exists (S k), s', ([ETook i x] ++ es), l', a'. split; [exact (one_step _ _ _ _ _ _ _ E R)|]. rewrite app_assoc. split; [exact V'|]. split; [exact A'|]. split.
  - intros j N. rewrite (O j N). cbn [go_to set_held ls_at]. destruct (Nat.eqb_spec j i); [congruence|reflexivity].
  - intros m. rewrite H. cbn [go_to set_held ls_held]. destruct (mutex_eqb m (guard x)); [reflexivity|apply F].
Qed.
Lemma repeat_app {A} (x : A) a b : repeat x a ++ repeat x b = repeat x (a + b).
Proof. induction a; cbn; congruence. Qed.
Definition rested (sec : Z) (now : Z) (i : nat) (s : lstate) (evs : list levent) : Prop :=
  exists k s' es l' a', lrun s (alone_for i now k) = Ok (s', es) /\ linv sec s' (evs ++ es) l' a' /\ ls_at s' i = Idle /\ (forall j, j <> i -> ls_at s' j = ls_at s j) /\ free s'.
Lemma rested_more sec now i s evs k s1 e1 : lrun s (alone_for i now k) = Ok (s1, e1) -> (forall j, j <> i -> ls_at s1 j = ls_at s j) -> rested sec now i s1 (evs ++ e1) -> rested sec now i s evs.
Proof.
  intros R O (k2 & s2 & e2 & l2 & a2 & R2 & V2 & A2 & O2 & F2). exists (k + k2)%nat, s2, (e1 ++ e2), l2, a2. unfold alone_for in *. rewrite <- repeat_app, lrun_app, R. cbn [bind]. rewrite R2. cbn [bind].
  split; [reflexivity|]. rewrite app_assoc. split; [exact V2|]. split; [exact A2|]. split; [|exact F2]. intros j N. rewrite (O2 j N). apply O. exact N.
Qed.
Lemma rests sec now i s evs l a : linv sec s evs l a -> free s -> rested sec now i s evs.
Proof.
  intros V F. assert (Z1 : forall s evs l a, linv sec s evs l a -> free s -> ls_at s i = Idle -> rested sec now i s evs).
  { intros s0 evs0 l0 a0 V0 F0 A0. exists 0%nat, s0, [], l0, a0. rewrite app_nil_r. cbn [alone_for repeat lrun]. auto. }
  assert (L1 : forall s evs l a x, linv sec s evs l a -> free s -> ls_at s i = AtLock x None -> rested sec now i s evs).
  { intros s0 evs0 l0 a0 x V0 F0 A0. destruct (passes sec now i x None s0 evs0 l0 a0 V0 F0 A0) as (k & s' & es & l' & a' & R & V' & A' & O & F'). exact (rested_more sec now i s0 evs0 k s' es R O (Z1 _ _ _ _ V' F' A')). }
  assert (L2 : forall s evs l a x nx, linv sec s evs l a -> free s -> ls_at s i = AtLock x nx -> rested sec now i s evs).
  { intros s0 evs0 l0 a0 x nx V0 F0 A0. destruct (passes sec now i x nx s0 evs0 l0 a0 V0 F0 A0) as (k & s' & es & l' & a' & R & V' & A' & O & F'). apply (rested_more sec now i s0 evs0 k s' es R O).
    destruct nx; cbn [afterwards] in A'; [exact (L1 _ _ _ _ _ V' F' A')|exact (Z1 _ _ _ _ V' F' A')]. }
  assert (ST : forall s' e p, lstep s (LMove i now) = Ok (s', e) -> ls_at s' = ls_at (go_to s i p) -> (forall m, ls_held s' m = ls_held s m) -> (forall evs' l' a', linv sec s' evs' l' a' -> free s' -> rested sec now i s' evs') -> rested sec now i s evs).
  { intros s' e p E P H N. destruct (linv_step sec s evs l a (LMove i now) V) as (s1 & e1 & l1 & a1 & E1 & V1). rewrite E in E1. injection E1 as <- <-.
    apply (rested_more sec now i s evs 1 s' e); [cbn [alone_for repeat lrun]; rewrite E; cbn [bind]; rewrite app_nil_r; reflexivity| |].
    - intros j Nj. rewrite P. cbn [go_to ls_at]. destruct (Nat.eqb_spec j i); [congruence|reflexivity].
    - apply (N _ _ _ V1). intros m. rewrite H. apply F. }
  destruct (ls_at s i) as [|k| |n|x nx|x p nx] eqn:A.
  - exact (Z1 _ _ _ _ V F A).
  - eapply ST; [cbn [lstep]; rewrite A; reflexivity|reflexivity|reflexivity|]. intros evs' l' a' V' F'. eapply L2; [exact V'|exact F'|]. cbn [go_to ls_at]. rewrite Nat.eqb_refl. reflexivity.
  - eapply ST; [cbn [lstep]; rewrite A; reflexivity|reflexivity|reflexivity|]. intros evs' l' a' V' F'. eapply L2; [exact V'|exact F'|]. cbn [go_to ls_at]. rewrite Nat.eqb_refl. reflexivity.
  - eapply ST; [cbn [lstep]; rewrite A; reflexivity|reflexivity|reflexivity|]. intros evs' l' a' V' F'. eapply Z1; [exact V'|exact F'|]. cbn [go_to ls_at]. rewrite Nat.eqb_refl. reflexivity.
  - exact (L2 _ _ _ _ _ _ V F A).
  - destruct (li_in _ _ _ _ _ V i x p nx A) as (H & _). rewrite F in H. discriminate.
Qed.
Lemma moves_only i now k : only_moves (alone_for i now k).
Proof. unfold only_moves, alone_for. induction k; cbn [repeat]; constructor; auto. Qed.
(** first everybody leaves *)
Lemma all_leave sec (now : Z) L : forall s evs l a, linv sec s evs l a -> exists ops s' es l' a', only_moves ops /\ lrun s ops = Ok (s', es) /\ linv sec s' (evs ++ es) l' a' /\
  (forall i, In i L -> within (ls_at s' i) = false) /\ (forall i, within (ls_at s i) = false -> ls_at s' i = ls_at s i).
Proof.
  induction L as [|i L IH]; intros s evs l a V.
  - exists [], s, [], l, a. rewrite app_nil_r. split; [constructor|]. split; [reflexivity|]. split; [exact V|]. split; [intros i []|auto].
  - destruct (IH s evs l a V) as (ops & s1 & e1 & l1 & a1 & M & R & V1 & W & K). destruct (within (ls_at s1 i)) eqn:B.
    + destruct (ls_at s1 i) as [| | | | |x p nx] eqn:A; try discriminate B. destruct (leaves sec now i x nx _ s1 _ l1 a1 p V1 A (Nat.le_refl _)) as (k & s' & es & l' & a' & _ & R' & V' & A' & O & _).
      exists (ops ++ alone_for i now k), s', (e1 ++ es), l', a'. split; [apply Forall_app; split; [exact M|apply moves_only]|]. rewrite lrun_app, R. cbn [bind]. rewrite R'. cbn [bind]. split; [reflexivity|]. rewrite app_assoc. split; [exact V'|].
      assert (Wi : within (ls_at s' i) = false) by (rewrite A'; destruct nx; reflexivity). split.
      * intros j [<-|J]; [exact Wi|]. destruct (Nat.eq_dec j i) as [->|N]; [exact Wi|]. rewrite (O j N). apply W. exact J.
      * intros j J. destruct (Nat.eq_dec j i) as [->|N]; [rewrite (K i J) in A; rewrite A in J; discriminate J|]. rewrite (O j N). apply K. exact J.
    + exists ops, s1, e1, l1, a1. split; [exact M|]. split; [exact R|]. split; [exact V1|]. split; [|exact K]. intros j [<-|J]; [exact B|apply W; exact J].
Qed.
Lemma all_rest sec (now : Z) L : forall s evs l a, linv sec s evs l a -> free s -> exists ops s' es l' a', only_moves ops /\ lrun s ops = Ok (s', es) /\ linv sec s' (evs ++ es) l' a' /\ free s' /\
  (forall i, In i L -> ls_at s' i = Idle) /\ (forall i, ls_at s i = Idle -> ls_at s' i = Idle).
Proof.
  induction L as [|i L IH]; intros s evs l a V F.
  - exists [], s, [], l, a. rewrite app_nil_r. split; [constructor|]. split; [reflexivity|]. split; [exact V|]. split; [exact F|]. split; [intros i []|auto].
  - destruct (IH s evs l a V F) as (ops & s1 & e1 & l1 & a1 & M & R & V1 & F1 & W & K). destruct (rests sec now i s1 _ l1 a1 V1 F1) as (k & s' & es & l' & a' & R' & V' & A' & O & F').
    exists (ops ++ alone_for i now k), s', (e1 ++ es), l', a'. split; [apply Forall_app; split; [exact M|apply moves_only]|]. rewrite lrun_app, R. cbn [bind]. rewrite R'. cbn [bind]. split; [reflexivity|]. rewrite app_assoc. split; [exact V'|].
    split; [exact F'|]. split; intros j J; (destruct (Nat.eq_dec j i) as [->|N]; [exact A'|]); rewrite (O j N); [destruct J as [J|J]; [congruence|apply W; exact J]|apply K; exact J].
Qed.
Lemma busy_list sec ops s evs : lock_runs sec ops s evs -> exists L, forall i, ls_at s i <> Idle -> In i L.
Proof.
  revert ops s evs. apply (lock_ind sec (fun s _ => exists L, forall i, ls_at s i <> Idle -> In i L)); [exists []; intros i A; destruct A; reflexivity|].
  intros s evs l a o s' es _ (L & H) E. set (i0 := match o with LCall i _ | LMove i _ => i end). exists (i0 :: L). intros i A. destruct (Nat.eq_dec i0 i) as [->|N]; [left; reflexivity|right]. apply H. intros A1. apply A. rewrite <- A1.
  assert (M : forall s1 q, ls_at s1 = ls_at s -> ls_at (go_to s1 i0 q) i = ls_at s i) by (intros s1 q Q; cbn [go_to ls_at]; destruct (Nat.eqb_spec i i0); [congruence|rewrite Q; reflexivity]).
  destruct o as [j c|j now]; cbn [lstep] in E; subst i0.
  - destruct (ls_at s j); injection E as <- <-; try reflexivity. apply M. reflexivity.
  - destruct (ls_at s j) as [|k| |n|y ny|y q ny]; try (injection E as <- <-; first [reflexivity|apply M; reflexivity]).
    + destruct (ls_held s (guard y)); injection E as <- <-; first [reflexivity|apply M; reflexivity].
    + destruct q; try (destruct (inner _ _) as [[p' d']| |]; try discriminate E); injection E as <- <-; apply M; reflexivity.
Qed.
Lemma drained sec ops s evs : lock_runs sec ops s evs -> exists ops' s' es, only_moves ops' /\ lrun s ops' = Ok (s', es) /\ (forall i, ls_at s' i = Idle) /\ (forall i m, ~ holds s' i m).
Proof.
  intros R. destruct (reached sec ops s evs R) as (l & a & V). destruct (busy_list sec ops s evs R) as (L & HL).
  destruct (all_leave sec 0 L s evs l a V) as (o1 & s1 & e1 & l1 & a1 & M1 & R1 & V1 & W1 & K1).
  assert (W : forall i, within (ls_at s1 i) = false).
  { intros i. destruct (in_dec Nat.eq_dec i L) as [J|J]; [apply W1; exact J|]. assert (A : ls_at s i = Idle) by (destruct (ls_at s i) eqn:Q; try reflexivity; exfalso; apply J; apply HL; congruence).
    rewrite (K1 i); rewrite A; reflexivity. }
  assert (F1 : free s1). { intros m. destruct (ls_held s1 m) as [i|] eqn:H; [|reflexivity]. destruct (li_held _ _ _ _ _ V1 m i H) as (x & p & nx & A & _). specialize (W i). rewrite A in W. discriminate W. }
  assert (I1 : forall i, ~ In i L -> ls_at s1 i = Idle). { intros i J. assert (A : ls_at s i = Idle) by (destruct (ls_at s i) eqn:Q; try reflexivity; exfalso; apply J; apply HL; congruence). rewrite (K1 i); rewrite A; reflexivity. }
  destruct (all_rest sec 0 L s1 _ l1 a1 V1 F1) as (o2 & s2 & e2 & l2 & a2 & M2 & R2 & V2 & F2 & W2 & K2).
  exists (o1 ++ o2), s2, (e1 ++ e2). split; [apply Forall_app; split; assumption|]. rewrite lrun_app, R1. cbn [bind]. rewrite R2. cbn [bind]. split; [reflexivity|]. split.
  - intros i. destruct (in_dec Nat.eq_dec i L) as [J|J]; [apply W2; exact J|apply K2; apply I1; exact J].
  - intros i m H. unfold holds in H. rewrite F2 in H. discriminate H.
Qed.

(** ** No race *)
Lemma put_else s l d m : m <> Msession s -> agree m d (put_requests d s l).
Proof. destruct m as [| |s']; intros N; try reflexivity. cbn [agree put_requests da_requests]. destruct (Z.eqb_spec s' s); congruence. Qed.
Lemma inner_else x p d' d2 d a b p2 : will x p d a b -> inner p d' = Ok (p2, d2) -> forall m, m <> guard x -> agree m d' d2.
Proof.
  intros W E m N. unfold will in W. destruct (guard x) as [| |s].
  - destruct p; cbn [fin_s] in W; try discriminate W; cbn [inner] in *; try destruct left; injection E as <- <-; destruct m; try reflexivity; congruence.
  - assert (T : forall t, agree m d' (put_timer d' t)) by (intros t; destruct m; try reflexivity; congruence).
    destruct p; cbn [fin_t] in W; try discriminate W; cbn [inner] in *; cbv zeta in *; try (injection E as <- <-; first [apply agree_refl|apply T]; fail).
    + destruct (map_get _ _); injection E as <- <-; apply agree_refl.
    + destruct (q_remove _ _); try discriminate E; injection E as <- <-; apply T.
    + destruct (tm_q (da_timer d')); [injection E as <- <-; apply agree_refl|]. destruct (now <? _); injection E as <- <-; apply agree_refl.
    + destruct (q_remove _ _); try discriminate E; injection E as <- <-; apply T.
  - destruct p as [| | | | | | | | | | | | | |s' r i|s' r i|s' r|s' n i|s' i r|s' r|c]; cbn [fin_r] in W; try discriminate W;
    try (destruct (Z.eqb_spec s' s) as [->|]; [|discriminate W]); cbn [inner] in *; cbv zeta in *; try (injection E as <- <-; first [apply agree_refl|apply put_else; exact N]; fail).
    + destruct (nth_error _ _); [destruct (_ =? _)|]; injection E as <- <-; apply agree_refl.
    + destruct (nth_error _ _); [destruct (_ =? _)|]; injection E as <- <-; apply agree_refl.
    + destruct (nth_error _ _); try discriminate E; injection E as <- <-; apply put_else; exact N.
    + destruct (da_requests d' s); try discriminate E; injection E as <- <-; apply put_else; exact N.
Qed.
Lemma uses_holds sec ops s evs i m : lock_runs sec ops s evs -> uses s i m -> holds s i m.
Proof.
  intros R U. destruct (reached sec ops s evs R) as (l & a & V).
  assert (K : forall x p nx, ls_at s i = Inside x p nx -> (m = guard x -> holds s i m)) by (intros x p nx A ->; exact (proj1 (li_in _ _ _ _ _ V i x p nx A))).
  assert (D : forall a b : mutex, {a = b} + {a <> b}) by (intros u v; destruct (mutex_spec u v); auto).
  destruct U as [(now & s' & e & E & N)|(now & d & s1 & e1 & Ag & Sd & E & N)].
  - cbn [lstep] in E. destruct (ls_at s i) as [|k| |n|x nx|x p nx] eqn:A; try (injection E as <- <-; destruct N; first [apply agree_refl|destruct m; reflexivity]).
    + destruct (ls_held s (guard x)); injection E as <- <-; destruct N; apply agree_refl.
    + apply (K x p nx eq_refl). destruct (D m (guard x)) as [Q|Q]; [exact Q|]. exfalso. apply N. destruct (li_in _ _ _ _ _ V i x p nx A) as (_ & b & Wb & _).
      destruct (match p with PDone c => Some c | _ => None end) as [c|] eqn:Pd.
      * assert (p = PDone c) by (destruct p; try discriminate; injection Pd as ->; reflexivity). subst p. injection E as <- <-. apply agree_refl.
      * assert (Np : forall c, p <> PDone c) by (intros c ->; discriminate). destruct (will_inner x p (ls_data s) a b Np Wb) as (p' & d' & I & _ & Ag & _).
        assert (E' : (do (p', d') <- inner p (ls_data s) ; Ok (go_to (set_data s d') i (Inside x p' nx), [])) = Ok (s', e)) by (destruct p; try discriminate Pd; exact E). rewrite I in E'. injection E' as <- <-. apply Ag. exact Q.
  - destruct (ls_at s i) as [|k| |n|x nx|x p nx] eqn:A;
      try (exfalso; apply N; cbn [lstep set_data ls_at ls_data] in *; rewrite A in *; rewrite ?Sd; injection E as <- <-; eexists; (split; [reflexivity|]); cbn [go_to set_data ls_at ls_data]; rewrite ?Nat.eqb_refl; (split; [congruence|]); intros m' M'; specialize (Ag m' M'); destruct m'; exact Ag).
    + exfalso. apply N. cbn [lstep set_data ls_at ls_held] in *. rewrite A in *. destruct (ls_held s (guard x)); injection E as <- <-; eexists; (split; [reflexivity|]); cbn [go_to set_held set_data ls_at ls_data]; rewrite ?Nat.eqb_refl; (split; [congruence|exact Ag]).
    + apply (K x p nx eq_refl). destruct (D m (guard x)) as [Q|Q]; [exact Q|]. exfalso. apply N. destruct (li_in _ _ _ _ _ V i x p nx A) as (_ & b & Wb & _).
      assert (Ax : agree (guard x) (ls_data s) d) by (apply Ag; congruence). cbn [lstep] in *. rewrite A in E. cbn [set_data ls_at ls_data]. rewrite A.
      destruct (match p with PDone c => Some c | _ => None end) as [c|] eqn:Pd.
      * assert (p = PDone c) by (destruct p; try discriminate; injection Pd as ->; reflexivity). subst p. injection E as <- <-. eexists. split; [reflexivity|]. cbn [go_to set_held set_data ls_at ls_data]. rewrite !Nat.eqb_refl. split; [reflexivity|exact Ag].
      * assert (E' : (do (p', d') <- inner p (ls_data s) ; Ok (go_to (set_data s d') i (Inside x p' nx), [])) = Ok (s1, e1)) by (destruct p; try discriminate Pd; exact E).
        destruct (inner p (ls_data s)) as [[p1 d1]| |] eqn:I; try discriminate E'. injection E' as <- <-. destruct (inner_same x p (ls_data s) d a b p1 d1 Wb Ax I) as (d2 & I2 & Sm).
        exists (go_to (set_data (set_data s d) d2) i (Inside x p1 nx)). split; [destruct p; try discriminate Pd; rewrite I2; reflexivity|]. cbn [go_to set_data ls_at ls_data]. rewrite !Nat.eqb_refl. split; [reflexivity|].
        intros m' M'. destruct (D m' (guard x)) as [->|Qm]; [exact Sm|]. assert (Np : forall c, p <> PDone c) by (intros c ->; discriminate).
        destruct (will_inner x p (ls_data s) a b Np Wb) as (pa & da & Ia & _ & Aa & _). rewrite I in Ia. injection Ia as <- <-. pose proof (Aa m' Qm) as X1. pose proof (Ag m' M') as X2. pose proof (inner_else x p d d2 (ls_data s) a b p1 Wb I2 m' Qm) as X3. destruct m'; cbn [agree] in *; congruence.
Qed.
Lemma no_race sec ops s evs i j m : lock_runs sec ops s evs -> uses s i m -> uses s j m -> i = j.
Proof. intros R A B. pose proof (uses_holds _ _ _ _ _ _ R A) as P. pose proof (uses_holds _ _ _ _ _ _ R B) as Q. unfold holds in *. congruence. Qed.
