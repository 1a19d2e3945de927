(** Every interleaving of statements is an execution of whole sections. *)
From Verif Require Import Base LibBase Timer LibHeap ProofTimer Session Server Locks SpecLocks ProofLocks ProofLocks2.

Lemma mutex_spec a b : reflect (a = b) (mutex_eqb a b).
Proof. destruct a as [| |s], b as [| |s']; cbn [mutex_eqb]; try (constructor; congruence). destruct (Z.eqb_spec s s'); constructor; congruence. Qed.
Definition within (p : place) : bool := match p with Inside _ _ _ => true | _ => false end.

Record linv (sec : Z) (s : lstate) (evs : list levent) (l : list (nat * sect * answer)) (a : data) : Prop := {
  li_exec : executes (blank sec) l a;
  li_timer : tinv (da_timer a);
  li_free : forall m, ls_held s m = None -> agree m (ls_data s) a;
  li_held : forall m i, ls_held s m = Some i -> exists x p nx, ls_at s i = Inside x p nx /\ guard x = m;
  li_in : forall i x p nx, ls_at s i = Inside x p nx -> ls_held s (guard x) = Some i /\ exists b, will x p (ls_data s) a b /\ share i l = freed i evs ++ [(x, b)];
  li_out : forall i, within (ls_at s i) = false -> share i l = freed i evs;
  li_order : map fst l = tooks evs }.

Lemma share_snoc i l j x a : share i (l ++ [(j, x, a)]) = share i l ++ (if Nat.eqb j i then [(x, a)] else []).
Proof. unfold share. rewrite filter_app, map_app. cbn [filter fst snd]. destruct (Nat.eqb j i); reflexivity. Qed.
Lemma freed_app i a b : freed i (a ++ b) = freed i a ++ freed i b.
Proof. apply flat_map_app. Qed.
Lemma tooks_app a b : tooks (a ++ b) = tooks a ++ tooks b.
Proof. apply flat_map_app. Qed.
Lemma linv_init sec : linv sec (linit sec) [] [] (blank sec).
Proof.
  constructor; cbn; try reflexivity; try discriminate; [constructor|apply tinv_new|]. intros [| |s] _; reflexivity.
Qed.

Lemma at_go s i p j : ls_at (go_to s i p) j = if Nat.eqb j i then p else ls_at s j. Proof. reflexivity. Qed.
(** a goroutine outside goes on outside *)
Lemma linv_outside sec s evs l a i p es d : linv sec s evs l a -> within (ls_at s i) = false -> within p = false -> (forall j, freed j es = []) -> tooks es = [] ->
  (forall m, agree m (ls_data s) d) -> linv sec (go_to (set_data s d) i p) (evs ++ es) l a.
Proof.
  intros [H1 H2 H3 H4 H5 H6 H7] W P F T D. constructor; cbn [ls_held ls_data ls_at go_to set_data]; auto.
  - intros m E. specialize (H3 m E). specialize (D m). destruct m; cbn [agree] in *; congruence.
  - intros m j E. destruct (H4 m j E) as (x & q & nx & A & G). exists x, q, nx. split; [|exact G]. destruct (Nat.eqb_spec j i) as [->|]; [rewrite A in W; discriminate|exact A].
  - intros j x q nx. destruct (Nat.eqb_spec j i) as [->|]; [intros ->; discriminate|]. intros A. destruct (H5 j x q nx A) as (Hh & b & Wb & Sb). split; [exact Hh|]. exists b.
    split; [apply (agree_will x q (ls_data s)); [apply D|exact Wb]|]. rewrite freed_app, F, app_nil_r. exact Sb.
  - intros j. rewrite freed_app, F, app_nil_r. destruct (Nat.eqb_spec j i) as [->|]; intros A; apply H6; assumption.
  - rewrite tooks_app, T, app_nil_r. exact H7.
Qed.
Lemma agree_refl m d : agree m d d. Proof. destruct m; reflexivity. Qed.

Lemma linv_step sec s evs l a o : linv sec s evs l a -> exists s' es l' a', lstep s o = Ok (s', es) /\ linv sec s' (evs ++ es) l' a'.
Proof.
  intros V. destruct o as [i c|i now].
  - cbn [lstep]. assert (Stay : exists s' es l' a', Ok (s, []) = Ok (s', es) /\ linv sec s' (evs ++ es) l' a') by (exists s, [], l, a; split; [reflexivity|]; rewrite app_nil_r; exact V).
    destruct (ls_at s i) eqn:A; try exact Stay. exists (go_to s i (starts c)), [], l, a. split; [reflexivity|].
    apply (linv_outside sec s evs l a i (starts c) [] (ls_data s) V); try reflexivity; [rewrite A; reflexivity| |intros; apply agree_refl].
    destruct c; cbn [starts]; try reflexivity. destruct (0 <? n); reflexivity.
  - cbn [lstep]. destruct (ls_at s i) as [|k| |n|x nx|x p nx] eqn:A.
    + exists s, [], l, a. split; [reflexivity|]. rewrite app_nil_r. exact V.
    + cbv zeta. eexists _, _, l, a. split; [reflexivity|].
      apply (linv_outside sec s evs l a i _ _ (ls_data s) V); try reflexivity; [rewrite A; reflexivity|intros; apply agree_refl].
    + eexists _, _, l, a. split; [reflexivity|]. apply (linv_outside sec s evs l a i _ _ (ls_data s) V); try reflexivity; [rewrite A; reflexivity|intros; apply agree_refl].
    + eexists _, _, l, a. split; [reflexivity|]. apply (linv_outside sec s evs l a i _ _ (put_seconds (ls_data s) n) V); try reflexivity; [rewrite A; reflexivity|intros [| |]; reflexivity].
    + (* Lock *) destruct (ls_held s (guard x)) as [j|] eqn:H; [exists s, [], l, a; split; [reflexivity|]; rewrite app_nil_r; exact V|].
      pose proof V as [H1 H2 H3 H4 H5 H6 H7]. destruct (whole_ok x a H2) as (a' & b & Wh & T' & Wi & Ag).
      eexists _, _, (l ++ [(i, x, b)]), a'. split; [reflexivity|]. constructor; cbn [ls_held ls_data go_to set_held ls_at].
      * econstructor; eassumption.
      * exact T'.
      * intros m. destruct (mutex_spec m (guard x)) as [->|N]; [discriminate|]. intros E. specialize (H3 m E). specialize (Ag m N). destruct m; cbn [agree] in *; congruence.
      * intros m j. destruct (mutex_spec m (guard x)) as [->|N].
        -- intros E. injection E as <-. rewrite Nat.eqb_refl. eauto.
        -- intros E. destruct (H4 m j E) as (y & q & ny & B & G). exists y, q, ny. split; [|exact G]. destruct (Nat.eqb_spec j i) as [->|]; [rewrite B in A; discriminate|exact B].
      * intros j y q ny. destruct (Nat.eqb_spec j i) as [->|N].
        -- intros E. injection E as <- <- <-. destruct (mutex_spec (guard x) (guard x)) as [_|N]; [|destruct N; reflexivity]. split; [reflexivity|]. exists b.
           split; [apply Wi; apply H3; exact H|]. rewrite share_snoc, freed_app, Nat.eqb_refl. cbn [freed flat_map]. rewrite app_nil_r. f_equal. apply H6. rewrite A. reflexivity.
        -- intros B. destruct (H5 j y q ny B) as (Hh & c & Wc & Sc). destruct (mutex_spec (guard y) (guard x)) as [E|N1]; [rewrite E in Hh; congruence|]. split; [exact Hh|]. exists c.
           split; [|rewrite share_snoc, freed_app; destruct (Nat.eqb_spec i j); [congruence|]; cbn [freed flat_map]; rewrite !app_nil_r; exact Sc].
           specialize (Ag (guard y) N1). unfold will in *. destruct (guard y); cbn [agree] in Ag; congruence.
      * intros j. destruct (Nat.eqb_spec j i) as [->|N]; [discriminate|]. intros B. rewrite share_snoc, freed_app. destruct (Nat.eqb_spec i j); [congruence|]. cbn [freed flat_map]. rewrite !app_nil_r. apply H6. exact B.
      * rewrite map_app, tooks_app, H7. reflexivity.
    + (* inside *) pose proof V as [H1 H2 H3 H4 H5 H6 H7]. destruct (H5 i x p nx A) as (Hh & b & Wb & Sb).
      destruct (match p with PDone c => Some c | _ => None end) as [c|] eqn:Pd.
      * (* Unlock *) assert (p = PDone c) by (destruct p; try discriminate; injection Pd as ->; reflexivity). subst p. clear Pd. destruct (will_done x c _ _ _ Wb) as (-> & Ag).
        eexists _, _, l, a. split; [reflexivity|]. constructor; cbn [ls_held ls_data go_to set_held ls_at]; auto.
        -- intros m. destruct (mutex_spec m (guard x)) as [->|N]; [intros _; exact Ag|apply H3].
        -- intros m j. destruct (mutex_spec m (guard x)) as [->|N]; [discriminate|]. intros E. destruct (H4 m j E) as (y & q & ny & B & G). exists y, q, ny. split; [|exact G].
           destruct (Nat.eqb_spec j i) as [->|]; [|exact B]. rewrite A in B. injection B as <- _ _. congruence.
        -- intros j y q ny. destruct (Nat.eqb_spec j i) as [->|N]; [destruct nx; discriminate|]. intros B. destruct (H5 j y q ny B) as (Hj & d & Wd & Sd).
           destruct (mutex_spec (guard y) (guard x)) as [E|N1]; [rewrite E in Hj; congruence|]. split; [exact Hj|]. exists d. split; [exact Wd|].
           rewrite freed_app. cbn [freed flat_map]. destruct (Nat.eqb_spec i j); [congruence|]. rewrite app_nil_r. exact Sd.
        -- intros j. rewrite freed_app. cbn [freed flat_map]. destruct (Nat.eqb_spec j i) as [->|N]; [intros _; rewrite Nat.eqb_refl; exact Sb|]. intros B.
           destruct (Nat.eqb_spec i j); [congruence|]. rewrite app_nil_r. apply H6. exact B.
        -- rewrite tooks_app. cbn [tooks flat_map]. rewrite app_nil_r. exact H7.
      * (* a statement *) assert (N : forall c, p <> PDone c) by (intros c ->; discriminate). destruct (will_inner x p (ls_data s) a b N Wb) as (p' & d' & I & W' & Ag & _).
        exists (go_to (set_data s d') i (Inside x p' nx)), [], l, a. split; [destruct p; try discriminate Pd; rewrite I; reflexivity|].
        assert (Fn : forall j, freed j [] = []) by reflexivity. rewrite app_nil_r.
        constructor; cbn [ls_held ls_data go_to set_data ls_at]; auto.
        -- intros m E. assert (m <> guard x) by congruence. specialize (H3 m E). specialize (Ag m H). destruct m; cbn [agree] in *; congruence.
        -- intros m j E. destruct (H4 m j E) as (y & q & ny & B & G). destruct (Nat.eqb_spec j i) as [->|]; [|eauto]. rewrite A in B. injection B as <- _ _. eauto.
        -- intros j y q ny. destruct (Nat.eqb_spec j i) as [->|Nj]; [intros E; injection E as <- <- <-; eauto|]. intros B. destruct (H5 j y q ny B) as (Hj & c & Wc & Sc). split; [exact Hj|].
           exists c. split; [|exact Sc]. apply (agree_will y q (ls_data s)); [apply Ag; intros E; rewrite E in Hj; congruence|exact Wc].
        -- intros j. destruct (Nat.eqb_spec j i) as [->|Nj]; [discriminate|apply H6].
Qed.
Lemma linv_run sec ops : forall s evs l a, linv sec s evs l a -> exists s' es l' a', lrun s ops = Ok (s', es) /\ linv sec s' (evs ++ es) l' a'.
Proof.
  induction ops as [|o ops IH]; intros s evs l a V; cbn [lrun].
  - exists s, [], l, a. split; [reflexivity|]. rewrite app_nil_r. exact V.
  - destruct (linv_step sec s evs l a o V) as (s1 & e1 & l1 & a1 & E1 & V1). rewrite E1. cbn [bind]. destruct (IH s1 _ l1 a1 V1) as (s2 & e2 & l2 & a2 & E2 & V2). rewrite E2. cbn [bind].
    exists s2, (e1 ++ e2), l2, a2. split; [reflexivity|]. rewrite app_assoc. exact V2.
Qed.
Lemma reached sec ops s evs : lock_runs sec ops s evs -> exists l a, linv sec s evs l a.
Proof.
  intros R. destruct (linv_run sec ops _ _ _ _ (linv_init sec)) as (s' & es & l & a & E & V). unfold lock_runs in R. rewrite R in E. injection E as <- <-. eauto.
Qed.
Lemma never_fails sec ops : exists s evs, lock_runs sec ops s evs.
Proof. destruct (linv_run sec ops _ _ _ _ (linv_init sec)) as (s' & es & l & a & E & V). unfold lock_runs. eauto. Qed.

Lemma atomic sec ops s evs : lock_runs sec ops s evs -> exists l d, executes (blank sec) l d /\ map fst l = tooks evs /\
  (forall i, exists rest, share i l = freed i evs ++ rest /\ (length rest <= 1)%nat /\ ((forall m, ~ holds s i m) -> rest = [])) /\
  (forall m, (forall i, ~ holds s i m) -> agree m (ls_data s) d).
Proof.
  intros R. destruct (reached sec ops s evs R) as (l & a & [H1 H2 H3 H4 H5 H6 H7]). exists l, a. split; [exact H1|]. split; [exact H7|]. split.
  - intros i. destruct (within (ls_at s i)) eqn:W.
    + destruct (ls_at s i) as [| | | | |x p nx] eqn:A; try discriminate W. destruct (H5 i x p nx A) as (Hh & b & _ & Sb). exists [(x, b)]. split; [exact Sb|]. split; [cbn [length]; lia|].
      intros N. destruct (N (guard x) Hh).
    + exists []. rewrite app_nil_r. split; [apply H6; exact W|]. split; [cbn [length]; lia|reflexivity].
  - intros m N. apply H3. destruct (ls_held s m) as [i|] eqn:E; [destruct (N i E)|reflexivity].
Qed.
