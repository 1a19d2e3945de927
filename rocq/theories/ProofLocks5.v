(** Sections end, nobody waits forever, nobody interferes. *)
From Verif Require Import Base LibBase Timer LibHeap ProofTimer Session Server Locks SpecLocks ProofLocks ProofLocks2 ProofLocks3 ProofLocks4.

(** a statement depends on nothing but the data behind its mutex *)
Lemma put_same s l d d' : da_requests (put_requests d s l) s = da_requests (put_requests d' s l) s.
Proof. cbn [put_requests da_requests]. rewrite Z.eqb_refl. reflexivity. Qed.
Lemma inner_same x p d d' a b p1 d1 : will x p d a b -> agree (guard x) d d' -> inner p d = Ok (p1, d1) -> exists d2, inner p d' = Ok (p1, d2) /\ agree (guard x) d1 d2.
Proof.
  intros W G E. unfold will in W. destruct (guard x) as [| |s]; cbn [agree] in *.
  - destruct p; cbn [fin_s] in W; try discriminate W; cbn [inner] in *; rewrite <- ?G; try destruct left; injection E as <- <-; eauto.
  - destruct p; cbn [fin_t] in W; try discriminate W; cbn [inner] in *; cbv zeta in *; rewrite <- ?G; try (injection E as <- <-; eauto; fail).
    + destruct (map_get _ _); injection E as <- <-; eauto.
    + destruct (q_remove _ _); try discriminate E; injection E as <- <-; cbn [bind]; eauto.
    + destruct (tm_q (da_timer d)); [injection E as <- <-; eauto|]. destruct (now <? _); injection E as <- <-; eauto.
    + destruct (q_remove _ _); try discriminate E; injection E as <- <-; cbn [bind]; eauto.
  - destruct p as [| | | | | | | | | | | | | |s' r i|s' r i|s' r|s' n i|s' i r|s' r|c]; cbn [fin_r] in W; try discriminate W;
    try (destruct (Z.eqb_spec s' s) as [->|]; [|discriminate W]); cbn [inner] in *; cbv zeta in *; rewrite <- ?G; try (injection E as <- <-; eauto using put_same; fail).
    + destruct (nth_error _ _); [destruct (_ =? _)|]; injection E as <- <-; eauto.
    + destruct (nth_error _ _); [destruct (_ =? _)|]; injection E as <- <-; eauto.
    + destruct (nth_error _ _); try discriminate E; injection E as <- <-; eauto using put_same.
    + destruct (da_requests d s); try discriminate E; injection E as <- <-; eauto using put_same.
Qed.
Lemma work_same x p d d' a b : will x p d a b -> agree (guard x) d d' -> work p d' = work p d.
Proof.
  intros W G. unfold will in W. destruct (guard x) as [| |s]; cbn [agree] in G.
  - destruct p; cbn [fin_s] in W; try discriminate W; cbn [work]; rewrite <- ?G; reflexivity.
  - destruct p; cbn [fin_t] in W; try discriminate W; cbn [work]; rewrite <- ?G; reflexivity.
  - destruct p as [| | | | | | | | | | | | | |s' r i|s' r i|s' r|s' n i|s' i r|s' r|c]; cbn [fin_r] in W; try discriminate W;
    try (destruct (Z.eqb_spec s' s) as [->|]; [|discriminate W]); cbn [work]; rewrite <- ?G; reflexivity.
Qed.
Lemma amount_same m d d' : agree m d d' -> amount d' m = amount d m.
Proof. destruct m; cbn [agree amount]; intros ->; reflexivity. Qed.
Definition fits (p : spot) (d : data) (m : mutex) : Prop := (work p d <= 4 * amount d m + 3)%nat.
Lemma fits_first x d : fits (first_spot x) d (guard x).
Proof. unfold fits. destruct x; cbn [first_spot work guard amount]; lia. Qed.
Lemma fits_inner x p d a b p' d' : will x p d a b -> (forall c, p <> PDone c) -> inner p d = Ok (p', d') -> fits p d (guard x) -> fits p' d' (guard x).
Proof.
  intros W N E F. pose proof (inner_work p d p' d' N E) as L. unfold fits in *. unfold will in W. destruct (guard x) as [| |s]; cbn [amount] in *.
  - destruct p; cbn [fin_s] in W; try discriminate W; cbn [inner] in E; try destruct left; injection E as <- <-; cbn [work length da_sessions put_sessions] in *; lia.
  - destruct p; cbn [fin_t] in W; try discriminate W; cbn [inner] in E; cbv zeta in E; try (injection E as <- <-; cbn [work put_timer da_timer tm_q] in *; lia).
    + destruct (map_get _ _); injection E as <- <-; cbn [work]; lia.
    + destruct (q_remove _ _); try discriminate E; injection E as <- <-; cbn [work]; lia.
    + destruct (tm_q (da_timer d)) eqn:Q; [injection E as <- <-; cbn [work]; lia|]. destruct (now <? _); injection E as <- <-; cbn [work] in *; rewrite Q in *; lia.
    + destruct (q_remove _ _); try discriminate E; injection E as <- <-; cbn [work put_timer da_timer tm_q]; lia.
  - destruct p as [| | | | | | | | | | | | | |s' r i|s' r i|s' r|s' n i|s' i r|s' r|c]; cbn [fin_r] in W; try discriminate W;
    try (destruct (Z.eqb_spec s' s) as [->|]; [|discriminate W]); cbn [inner] in E; cbv zeta in E; try (injection E as <- <-; cbn [work] in *; lia).
    + destruct (nth_error _ _); [destruct (_ =? _)|]; injection E as <- <-; cbn [work] in *; lia.
    + destruct (nth_error _ _); [destruct (_ =? _)|]; injection E as <- <-; cbn [work] in *; lia.
    + destruct (nth_error _ _); try discriminate E; injection E as <- <-; cbn [work] in *; lia.
    + destruct (da_requests d s); try discriminate E; injection E as <- <-; cbn [work] in *; lia.
Qed.
(** what a step of another one does to the data behind a mutex one holds *)
Lemma apart sec s evs l a o s' es i x p nx : linv sec s evs l a -> lstep s o = Ok (s', es) -> ls_at s i = Inside x p nx -> match o with LMove j _ => j <> i | LCall _ _ => True end ->
  agree (guard x) (ls_data s) (ls_data s').
Proof.
  intros V E A O. destruct o as [j c|j now]; cbn [lstep] in E.
  - destruct (ls_at s j); injection E as <- <-; apply agree_refl.
  - destruct (ls_at s j) as [|k| |n|y ny|y q ny] eqn:B; try (injection E as <- <-; apply agree_refl).
    + injection E as <- <-. destruct (guard x); reflexivity.
    + destruct (ls_held s (guard y)); injection E as <- <-; apply agree_refl.
    + destruct (li_in _ _ _ _ _ V i x p nx A) as (Hi & _). destruct (li_in _ _ _ _ _ V j y q ny B) as (Hj & b & Wb & _).
      assert (N : guard x <> guard y) by (intros Q; rewrite Q in Hi; congruence).
      destruct (match q with PDone c => Some c | _ => None end) as [c|] eqn:Pd.
      * assert (q = PDone c) by (destruct q; try discriminate; injection Pd as ->; reflexivity). subst q. injection E as <- <-. apply agree_refl.
      * assert (Nq : forall c, q <> PDone c) by (intros c ->; discriminate). destruct (will_inner y q (ls_data s) a b Nq Wb) as (p' & d' & I & _ & Ag & _).
        assert (E' : (do (p', d') <- inner q (ls_data s) ; Ok (go_to (set_data s d') j (Inside y p' ny), [])) = Ok (s', es)) by (destruct q; try discriminate Pd; exact E). rewrite I in E'. injection E' as <- <-.
        cbn [ls_data go_to set_data]. apply Ag. exact N.
Qed.
Definition fitting (s : lstate) : Prop := forall i x p nx, ls_at s i = Inside x p nx -> fits p (ls_data s) (guard x).
Lemma fitting_step sec s evs l a o s' es : linv sec s evs l a -> fitting s -> lstep s o = Ok (s', es) -> fitting s'.
Proof.
  intros V F E i x p' nx A'. assert (Old : forall p, ls_at s i = Inside x p nx -> p' = p -> match o with LMove j _ => j <> i | LCall _ _ => True end -> fits p' (ls_data s') (guard x)).
  { intros p A -> O. pose proof (apart sec s evs l a o s' es i x p nx V E A O) as Ag. destruct (li_in _ _ _ _ _ V i x p nx A) as (_ & b & Wb & _). unfold fits.
    rewrite (work_same x p _ _ a b Wb Ag), (amount_same _ _ _ Ag). exact (F i x p nx A). }
  destruct o as [j c|j now].
  - pose proof E as E0. cbn [lstep] in E. destruct (ls_at s j) eqn:B; injection E as <- <-; try (eapply Old; [exact A'|reflexivity|exact I]).
    cbn [go_to ls_at] in A'. destruct (Nat.eqb_spec i j) as [->|N]; [|eapply Old; [exact A'|reflexivity|exact I]].
    destruct c; cbn [starts] in A'; try discriminate. destruct (0 <? n); discriminate.
  - destruct (Nat.eq_dec j i) as [->|N].
    + cbn [lstep] in E. destruct (ls_at s i) as [|k| |n|y ny|y q ny] eqn:B; try (injection E as <- <-; cbn [go_to set_data ls_at] in A'; rewrite ?Nat.eqb_refl in A'; congruence).
      * destruct (ls_held s (guard y)); injection E as <- <-; [congruence|]. cbn [go_to ls_at] in A'. rewrite Nat.eqb_refl in A'. injection A' as <- <- <-. cbn [ls_data go_to set_held]. apply fits_first.
      * destruct (match q with PDone c => Some c | _ => None end) as [c|] eqn:Pd.
        -- assert (q = PDone c) by (destruct q; try discriminate; injection Pd as ->; reflexivity). subst q. injection E as <- <-. cbn [go_to ls_at] in A'. rewrite Nat.eqb_refl in A'. destruct ny; discriminate.
        -- assert (Nq : forall c, q <> PDone c) by (intros c ->; discriminate). destruct (li_in _ _ _ _ _ V i y q ny B) as (_ & b & Wb & _).
           assert (E' : (do (p', d') <- inner q (ls_data s) ; Ok (go_to (set_data s d') i (Inside y p' ny), [])) = Ok (s', es)) by (destruct q; try discriminate Pd; exact E).
           destruct (inner q (ls_data s)) as [[p1 d1]| |] eqn:I; try discriminate E'. injection E' as <- <-. cbn [go_to set_data ls_at ls_data] in *. rewrite Nat.eqb_refl in A'. injection A' as <- <- <-.
           exact (fits_inner y q (ls_data s) a b p1 d1 Wb Nq I (F i y q ny B)).
    + assert (A : ls_at s i = Inside x p' nx).
      { cbn [lstep] in E. destruct (ls_at s j) as [|k| |n|y ny|y q ny] eqn:B; try (injection E as <- <-; cbn [go_to set_data ls_at] in A'; destruct (Nat.eqb_spec i j); [congruence|exact A']);
          try (injection E as <- <-; exact A').
        - destruct (ls_held s (guard y)); injection E as <- <-; [exact A'|]. cbn [go_to set_held ls_at] in A'. destruct (Nat.eqb_spec i j); [congruence|exact A'].
        - destruct q; try (destruct (inner _ _) as [[p1 d1]| |]; try discriminate E); injection E as <- <-; cbn [go_to set_data set_held ls_at] in A'; destruct (Nat.eqb_spec i j); congruence. }
      exact (Old p' A eq_refl N).
Qed.
Lemma all_fitting sec ops s evs : lock_runs sec ops s evs -> fitting s.
Proof. revert ops s evs. apply (lock_ind sec (fun s _ => fitting s)); [intros i x p nx A; discriminate|]. intros. eapply fitting_step; eassumption. Qed.

(** ** Progress *)
Lemma moves sec s evs l a i : linv sec s evs l a -> ls_at s i <> Idle -> (forall x nx, ls_at s i = AtLock x nx -> ls_held s (guard x) = None) -> can_move s i.
Proof.
  intros V A W now. cbn [lstep]. destruct (ls_at s i) as [|k| |n|x nx|x p nx] eqn:B; [congruence| | | | |].
  - eexists _, _. split; [reflexivity|]. rewrite at_go, Nat.eqb_refl. discriminate.
  - eexists _, _. split; [reflexivity|]. rewrite at_go, Nat.eqb_refl. discriminate.
  - eexists _, _. split; [reflexivity|]. rewrite at_go, Nat.eqb_refl. discriminate.
  - rewrite (W x nx eq_refl). eexists _, _. split; [reflexivity|]. rewrite at_go, Nat.eqb_refl. discriminate.
  - destruct (li_in _ _ _ _ _ V i x p nx B) as (_ & b & Wb & _). destruct (match p with PDone c => Some c | _ => None end) as [c|] eqn:Pd.
    + assert (p = PDone c) by (destruct p; try discriminate; injection Pd as ->; reflexivity). subst p. eexists _, _. split; [reflexivity|]. rewrite at_go, Nat.eqb_refl. destruct nx; discriminate.
    + assert (Np : forall c, p <> PDone c) by (intros c ->; discriminate). destruct (will_inner x p (ls_data s) a b Np Wb) as (p' & d' & I & _).
      exists (go_to (set_data s d') i (Inside x p' nx)), []. split; [destruct p; try discriminate Pd; rewrite I; reflexivity|]. rewrite at_go, Nat.eqb_refl. intros Q. injection Q as ->.
      pose proof (inner_work p _ p d' Np I) as L. pose proof (will_inner x p (ls_data s) a b Np Wb) as (p2 & d2 & I2 & W2 & _). rewrite I in I2. injection I2 as <- <-.
      revert L. assert (Q : inner p (ls_data s) = Ok (p, d') -> False).
      { clear -Np. intros E. destruct p; cbn [inner] in E; cbv zeta in E; try discriminate E.
        - destruct left; try discriminate E. injection E as E _ _. apply (f_equal (@length _)) in E. cbn [length] in E. lia.
        - destruct (map_get _ _); discriminate E.
        - destruct (q_remove _ _); discriminate E.
        - destruct (tm_q _); [discriminate E|]. destruct (now <? _); discriminate E.
        - destruct (q_remove _ _); discriminate E.
        - destruct (nth_error _ _); [destruct (_ =? _)|]; try discriminate E. injection E as E _. lia.
        - destruct (nth_error _ _); [destruct (_ =? _)|]; try discriminate E. injection E as E _. lia.
        - destruct (nth_error _ _); discriminate E.
        - destruct (da_requests _ _); discriminate E.
        - destruct (Np a). reflexivity. }
      destruct (Q I).
Qed.
Lemma progress sec ops s evs i : lock_runs sec ops s evs -> ls_at s i <> Idle ->
  can_move s i \/ exists x nx j, ls_at s i = AtLock x nx /\ holds s j (guard x) /\ j <> i /\ can_move s j.
Proof.
  intros R A. destruct (reached sec ops s evs R) as (l & a & V). destruct (ls_at s i) as [|k| |n|x nx|x p nx] eqn:B; try (left; eapply moves; [exact V|congruence|intros; congruence]).
  destruct (ls_held s (guard x)) as [j|] eqn:H.
  - right. exists x, nx, j. split; [reflexivity|]. split; [exact H|]. destruct (li_held _ _ _ _ _ V _ _ H) as (y & q & ny & C & _). split; [intros ->; congruence|].
    eapply moves; [exact V|congruence|intros; congruence].
  - left. eapply moves; [exact V|congruence|]. intros y ny Q. rewrite B in Q. injection Q as <- <-. exact H.
Qed.
