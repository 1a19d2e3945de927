(** Run and Stop: any history. *)
From Verif Require Import Base LibBase Life SpecLife.

Lemma set_at_length {A} (l : list A) : forall n v, length (set_at l n v) = length l.
Proof. induction l as [|x t IH]; intros [|n] v; cbn; auto. Qed.
Lemma set_at_same {A} (l : list A) : forall n v x, nth_error l n = Some x -> nth_error (set_at l n v) n = Some v.
Proof. induction l as [|y t IH]; intros [|n] v x E; cbn in *; try discriminate; eauto. Qed.
Lemma set_at_other {A} (l : list A) : forall n v k, k <> n -> nth_error (set_at l n v) k = nth_error l k.
Proof. induction l as [|y t IH]; intros [|n] v [|k] E; cbn; auto; congruence. Qed.
Lemma set_at_inv {A} (l : list A) n v k x : nth_error (set_at l n v) k = Some x ->
  (k = n /\ x = v) \/ (k <> n /\ nth_error l k = Some x).
Proof.
  intros E. destruct (Nat.eq_dec k n) as [->|D]; [left|right; split; auto; rewrite set_at_other in E; auto].
  split; auto. destruct (nth_error l n) eqn:N; [rewrite (set_at_same l n v a N) in E; congruence|].
  apply nth_error_None in N. assert (Some x <> None) as Q by discriminate. rewrite <- E in Q.
  apply nth_error_Some in Q. rewrite set_at_length in Q. lia.
Qed.
Lemma snoc_inv {A} (l : list A) v k x : nth_error (l ++ [v]) k = Some x ->
  (k = length l /\ x = v) \/ nth_error l k = Some x.
Proof.
  intros E. destruct (Nat.lt_ge_cases k (length l)).
  - right. rewrite nth_error_app1 in E; auto.
  - left. rewrite nth_error_app2 in E by auto. destruct (k - length l)%nat as [|[|n]] eqn:D; cbn in E; try discriminate.
    split; [lia|congruence].
Qed.

Lemma shut_listening ls l k : listening (shut ls l) k = true <-> listening ls k = true /\ k <> l.
Proof.
  unfold shut, listening. destruct (nth_error ls l) as [x|] eqn:N.
  - destruct (Nat.eq_dec k l) as [->|D].
    + rewrite (set_at_same _ _ _ _ N). cbn. split; [discriminate|tauto].
    + rewrite set_at_other by auto. tauto.
  - split; [|tauto]. intros E. split; auto. intros ->. rewrite N in E. discriminate.
Qed.
Lemma shut_length ls l : length (shut ls l) = length ls.
Proof. unfold shut. destruct (nth_error ls l); auto. apply set_at_length. Qed.
Lemma shut_port ls l k x : nth_error (shut ls l) k = Some x -> exists y, nth_error ls k = Some y /\ ln_port y = ln_port x.
Proof.
  unfold shut. destruct (nth_error ls l) as [z|] eqn:N; [|eauto]. intros E. apply set_at_inv in E.
  destruct E as [[-> ->]|[_ E]]; eauto.
Qed.
Lemma listening_lt ls l : listening ls l = true -> (l < length ls)%nat.
Proof. unfold listening. destruct (nth_error ls l) eqn:N; [|discriminate]. intros _. apply nth_error_Some. congruence. Qed.
Lemma listening_snoc ls p k : listening (ls ++ [Linked p true]) k = true <-> listening ls k = true \/ k = length ls.
Proof.
  unfold listening. destruct (Nat.lt_trichotomy k (length ls)) as [H|[->|H]].
  - rewrite nth_error_app1 by auto. split; auto. intros [?| ->]; auto. lia.
  - rewrite nth_error_app2, Nat.sub_diag by auto. cbn. tauto.
  - assert (nth_error (ls ++ [Linked p true]) k = None) as -> by (apply nth_error_None; rewrite app_length; cbn; lia).
    assert (nth_error ls k = None) as -> by (apply nth_error_None; lia).
    split; [discriminate|]. intros [?| ->]; [discriminate|lia].
Qed.

Lemma owner_app evs1 evs2 :
  owner (evs1 ++ evs2) = fold_left (fun f v => match v with VAssigned l => Some l | VCleared => None | _ => f end) evs2 (owner evs1).
Proof. apply fold_left_app. Qed.

Lemma lrun_app os1 : forall s os2, lrun s (os1 ++ os2) =
  (do (s1, e1) <- lrun s os1 ; do (s2, e2) <- lrun s1 os2 ; Ok (s2, e1 ++ e2)).
Proof.
  induction os1 as [|o t IH]; intros s os2; cbn.
  - destruct (lrun s os2) as [[? ?]| |]; reflexivity.
  - destruct (lstep s o) as [[s1 e1]| |]; cbn; auto. rewrite IH.
    destruct (lrun s1 t) as [[s2 e2]| |]; cbn; auto. destruct (lrun s2 os2) as [[s3 e3]| |]; cbn; auto.
    rewrite app_assoc. reflexivity.
Qed.

(** ** State and events *)
Record fits (s : life) (evs : list levent) : Prop := Fits {
  f_field : lf_field s = owner evs;
  f_open : forall l, listening (lf_links s) l = true <-> left_open evs l;
  f_seen : forall i l p, In (VListening i l p) evs -> exists k, nth_error (lf_links s) l = Some k /\ ln_port k = p;
  f_closed : forall l, In (VClosed l) evs -> (l < length (lf_links s))%nat;
  f_owner : forall l, lf_field s = Some l -> (l < length (lf_links s))%nat;
  f_assign : forall i l, nth_error (lf_runs s) i = Some (RAssign l) -> (l < length (lf_links s))%nat
}.

Definition quiet (e : levent) : bool :=
  match e with VBack _ _ | VServing _ _ | VStopped _ => true | _ => false end.
Lemma owner_quiet evs e : forallb quiet e = true -> owner (evs ++ e) = owner evs.
Proof.
  rewrite owner_app. generalize (owner evs). induction e as [|x t IH]; intros f; cbn; auto.
  rewrite andb_true_iff. intros [A B]. rewrite IH by auto. destruct x; try discriminate; auto.
Qed.
Lemma quiet_in e v : forallb quiet e = true -> quiet v = false -> ~ In v e.
Proof. rewrite forallb_forall. intros A B C. apply A in C. congruence. Qed.

Lemma fits_quiet s s' evs e : fits s evs -> forallb quiet e = true ->
  lf_field s' = lf_field s -> lf_links s' = lf_links s ->
  (forall i l, nth_error (lf_runs s') i = Some (RAssign l) -> nth_error (lf_runs s) i = Some (RAssign l)) ->
  fits s' (evs ++ e).
Proof.
  intros F Q Hf Hl Hr. destruct F as [A B C D E G]. split.
  - rewrite Hf, owner_quiet; auto.
  - intros l. rewrite Hl, B. unfold left_open. split; intros [(i & p & X) Y].
    + split; [exists i, p; apply in_or_app; auto|]. intros Z. apply in_app_or in Z as [Z|Z]; [tauto|].
      revert Z. apply quiet_in; auto.
    + split.
      * apply in_app_or in X as [X|X]; eauto. exfalso. revert X. apply quiet_in; auto.
      * intros Z. apply Y. apply in_or_app. auto.
  - intros i l p X. rewrite Hl. apply in_app_or in X as [X|X]; eauto. exfalso. revert X. apply quiet_in; auto.
  - intros l X. rewrite Hl. apply in_app_or in X as [X|X]; eauto. exfalso. revert X. apply quiet_in; auto.
  - rewrite Hf, Hl. auto.
  - rewrite Hl. eauto.
Qed.

Ltac run_inv := let X := fresh in intros ? ? X; (apply set_at_inv in X as [[? X]|[? X]] || apply snoc_inv in X as [[? X]|X]); [discriminate|exact X].

Lemma fits_step s evs o s' e : fits s evs -> lstep s o = Ok (s', e) -> fits s' (evs ++ e).
Proof.
  intros F. destruct o as [port|i|i|i| |j]; cbn.
  - destruct (lf_field s) as [l|] eqn:N; intros X; injection X as <- <-;
      (eapply fits_quiet; [exact F|reflexivity|cbn; auto|reflexivity|]; cbn; run_inv).
  - destruct (nth_error (lf_runs s) i) as [[port|l| |l|r]|] eqn:N.
    + destruct (taken (lf_links s) port) eqn:T; intros X; injection X as <- <-.
      * eapply fits_quiet; [exact F|reflexivity|reflexivity|reflexivity|]. cbn. run_inv.
      * destruct F as [A B C D E G]. split; cbn.
        -- rewrite owner_app. cbn. exact A.
        -- intros l. rewrite listening_snoc, B. unfold left_open. split.
           ++ intros [[(k & p & X) Y]| ->].
              ** split; [exists k, p; apply in_or_app; auto|]. intros Z. apply in_app_or in Z as [Z|[Z|[]]]; [tauto|discriminate].
              ** split; [exists i, port; apply in_or_app; right; left; reflexivity|].
                 intros Z. apply in_app_or in Z as [Z|[Z|[]]]; [|discriminate]. apply D in Z. lia.
           ++ intros [(k & p & X) Y]. apply in_app_or in X as [X|[X|[]]].
              ** left. split; [eauto|]. intros Z. apply Y. apply in_or_app. auto.
              ** injection X as _ <- _. right. reflexivity.
        -- intros k l p X. apply in_app_or in X as [X|[X|[]]].
           ++ destruct (C _ _ _ X) as (y & Y & Z). exists y. split; auto. rewrite nth_error_app1; auto. apply nth_error_Some. congruence.
           ++ injection X as _ <- <-. exists (Linked port true). split; auto. rewrite nth_error_app2, Nat.sub_diag by auto. reflexivity.
        -- intros l X. rewrite app_length. cbn. apply in_app_or in X as [X|[X|[]]]; [|discriminate]. apply D in X. lia.
        -- intros l X. rewrite app_length. cbn. apply E in X. lia.
        -- intros k l X. rewrite app_length. cbn. apply set_at_inv in X as [[_ X]|[_ X]]; [injection X as ->; lia|].
           apply G in X. lia.
    + intros X; injection X as <- <-. destruct F as [A B C D E G]. split; cbn.
      * rewrite owner_app. reflexivity.
      * intros k. rewrite B. unfold left_open. split; intros [(m & p & X) Y].
        -- split; [exists m, p; apply in_or_app; auto|]. intros Z. apply in_app_or in Z as [Z|[Z|[]]]; [tauto|discriminate].
        -- split; [|intros Z; apply Y, in_or_app; auto]. apply in_app_or in X as [X|[X|[]]]; [eauto|discriminate].
      * intros k m p X. apply in_app_or in X as [X|[X|[]]]; [eauto|discriminate].
      * intros k X. apply in_app_or in X as [X|[X|[]]]; [eauto|discriminate].
      * intros k X. injection X as <-. eauto.
      * intros k m X. apply set_at_inv in X as [[_ X]|[_ X]]; [discriminate|eauto].
    + destruct (lf_field s) as [l|] eqn:N'; [|discriminate]. intros X; injection X as <- <-.
      eapply fits_quiet; [exact F|reflexivity|cbn; auto|reflexivity|]. cbn. run_inv.
    + destruct (listening (lf_links s) l); intros X; injection X as <- <-.
      * eapply fits_quiet; eauto.
      * eapply fits_quiet; [exact F|reflexivity|reflexivity|reflexivity|]. cbn. run_inv.
    + intros X; injection X as <- <-. eapply fits_quiet; eauto.
    + intros X; injection X as <- <-. eapply fits_quiet; eauto.
  - destruct (nth_error (lf_runs s) i) as [[port|l| |l|r]|] eqn:N; intros X; injection X as <- <-;
      (eapply fits_quiet; [exact F|reflexivity|reflexivity|reflexivity|]; cbn; solve [run_inv|auto]).
  - destruct (nth_error (lf_runs s) i) as [[port|l| |l|r]|] eqn:N; intros X; injection X as <- <-;
      (eapply fits_quiet; [exact F|reflexivity|reflexivity|reflexivity|]; cbn; solve [run_inv|auto]).
  - destruct (lf_field s) as [l|] eqn:N; intros X; injection X as <- <-;
      (eapply fits_quiet; [exact F|reflexivity|cbn; auto|reflexivity|]; cbn; auto).
  - destruct (nth_error (lf_stops s) j) as [[]|] eqn:N.
    + destruct (lf_field s) as [l|] eqn:N'; [|discriminate]. intros X; injection X as <- <-.
      destruct F as [A B C D E G]. split; cbn.
      * rewrite owner_app. cbn. congruence.
      * intros k. rewrite shut_listening, B. unfold left_open. split.
        -- intros [[(m & p & X) Y] Z]. split; [exists m, p; apply in_or_app; auto|].
           intros W. apply in_app_or in W as [W|[W|[]]]; [tauto|congruence].
        -- intros [(m & p & X) Y]. split; [|intros ->; apply Y, in_or_app; right; left; reflexivity].
           split; [|intros W; apply Y, in_or_app; auto]. apply in_app_or in X as [X|[X|[]]]; [eauto|discriminate].
      * intros k m p X. apply in_app_or in X as [X|[X|[]]]; [|discriminate]. destruct (C _ _ _ X) as (y & Y & Z).
        unfold shut. destruct (nth_error (lf_links s) l) as [z|] eqn:Nl; [|eauto].
        destruct (Nat.eq_dec m l) as [->|Dm].
        -- rewrite (set_at_same _ _ _ _ Nl). exists (Linked (ln_port z) false). split; auto. cbn. congruence.
        -- rewrite set_at_other by auto. eauto.
      * intros k X. rewrite shut_length. apply in_app_or in X as [X|[X|[]]]; [eauto|]. injection X as <-. apply E. congruence.
      * intros k X. rewrite shut_length. apply E. congruence.
      * intros k m X. rewrite shut_length. eauto.
    + intros X; injection X as <- <-. destruct F as [A B C D E G]. split; cbn.
      * rewrite owner_app. reflexivity.
      * intros k. rewrite B. unfold left_open. split; intros [(m & p & X) Y].
        -- split; [exists m, p; apply in_or_app; auto|]. intros Z. apply in_app_or in Z as [Z|[Z|[Z|[]]]]; [tauto|discriminate|discriminate].
        -- split; [|intros Z; apply Y, in_or_app; auto]. apply in_app_or in X as [X|[X|[X|[]]]]; [eauto|discriminate|discriminate].
      * intros k m p X. apply in_app_or in X as [X|[X|[X|[]]]]; [eauto|discriminate|discriminate].
      * intros k X. apply in_app_or in X as [X|[X|[X|[]]]]; [eauto|discriminate|discriminate].
      * intros k X. discriminate.
      * eauto.
    + intros X; injection X as <- <-. eapply fits_quiet; eauto.
    + intros X; injection X as <- <-. eapply fits_quiet; eauto.
Qed.

Lemma fits_run os : forall s evs s' e, fits s evs -> lrun s os = Ok (s', e) -> fits s' (evs ++ e).
Proof.
  induction os as [|o t IH]; intros s evs s' e F; cbn.
  - intros X; injection X as <- <-. rewrite app_nil_r. exact F.
  - destruct (lstep s o) as [[s1 e1]| |] eqn:L; cbn; try discriminate.
    destruct (lrun s1 t) as [[s2 e2]| |] eqn:R; cbn; try discriminate. intros X; injection X as <- <-.
    rewrite app_assoc. eapply IH; eauto. eapply fits_step; eauto.
Qed.
Lemma fits_new : fits life_new [].
Proof.
  split; cbn; try tauto; try discriminate; try (intros; destruct i; discriminate).
  - intros l. split; [destruct l; discriminate|]. intros [(i & p & []) _].
  
Qed.
Lemma fits_start os s evs : lrun life_new os = Ok (s, evs) -> fits s evs.
Proof. intros R. apply (fits_run os life_new [] s evs fits_new R). Qed.

(** ** C160 *)
Lemma refused_iff os s evs port s' e : lrun life_new os = Ok (s, evs) -> lstep s (LRun port) = Ok (s', e) ->
  (e = [VBack (length (lf_runs s)) BRefused] <-> owner evs <> None).
Proof.
  intros R. pose proof (f_field _ _ (fits_start _ _ _ R)) as F. cbn. rewrite F.
  destruct (owner evs); intros X; injection X as <- <-; split; congruence.
Qed.
Lemma panics_iff os s evs o : lrun life_new os = Ok (s, evs) ->
  (lstep s o = Panic <-> reads_field s o /\ owner evs = None).
Proof.
  intros R. pose proof (f_field _ _ (fits_start _ _ _ R)) as F. destruct o as [port|i|i|i| |j]; cbn.
  - destruct (lf_field s); split; try discriminate; tauto.
  - destruct (nth_error (lf_runs s) i) as [[port|l| |l|r]|]; try (split; [discriminate|intros [? _]; discriminate]).
    + destruct (taken (lf_links s) port); split; try discriminate; intros [? _]; discriminate.
    + rewrite <- F. destruct (lf_field s); split; try discriminate; try (intros [_ ?]; discriminate); auto.
    + destruct (listening (lf_links s) l); split; try discriminate; intros [? _]; discriminate.
  - destruct (nth_error (lf_runs s) i) as [[port|l| |l|r]|]; split; try discriminate; tauto.
  - destruct (nth_error (lf_runs s) i) as [[port|l| |l|r]|]; split; try discriminate; tauto.
  - destruct (lf_field s); split; try discriminate; tauto.
  - destruct (nth_error (lf_stops s) j) as [[]|]; try (split; [discriminate|intros [? _]; discriminate]).
    rewrite <- F. destruct (lf_field s); split; try discriminate; try (intros [_ ?]; discriminate); auto.
Qed.

(** A listener nobody knows any more *)
Definition lonely (s : life) (l : nat) (p : Z) : Prop :=
  nth_error (lf_links s) l = Some (Linked p true) /\ lf_field s <> Some l /\
  forall i, nth_error (lf_runs s) i <> Some (RAssign l).
Lemma lonely_step s o s' e l p : lonely s l p -> lstep s o = Ok (s', e) ->
  lonely s' l p /\ (forall i, ~ In (VServing i l) e) /\ ~ In (VClosed l) e /\ (p <> 0 -> forall i k, ~ In (VListening i k p) e).
Proof.
  intros (A & B & C). assert (L : (l < length (lf_links s))%nat) by (apply nth_error_Some; congruence).
  destruct o as [port|i|i|i| |j]; cbn.
  - destruct (lf_field s) eqn:N; intros X; injection X as <- <-; (split; [split; [exact A|split; [cbn; congruence|]]|]);
      cbn; try (intros k X; apply snoc_inv in X as [[_ X]|X]; [discriminate|eapply C; eauto]); repeat split; intros; intuition discriminate.
  - destruct (nth_error (lf_runs s) i) as [[port|k| |k|r]|] eqn:N.
    + destruct (taken (lf_links s) port) eqn:T; intros X; injection X as <- <-; cbn.
      * split; [split; [exact A|split; [exact B|]]|repeat split; intros; intuition discriminate].
        cbn. intros k X; apply set_at_inv in X as [[_ X]|[_ X]]; [discriminate|eapply C; eauto].
      * split; [split; [|split; [exact B|]]|repeat split].
        -- cbn. rewrite nth_error_app1; auto.
        -- cbn. intros k X; apply set_at_inv in X as [[_ X]|[_ X]]; [injection X as ->; lia|eapply C; eauto].
        -- intros k [X|[]]; discriminate.
        -- intros [X|[]]; discriminate.
        -- intros P k m [X|[]]. injection X as _ _ ->. unfold taken in T. rewrite andb_false_iff in T. destruct T as [T|T].
           ++ apply negb_false_iff, Z.eqb_eq in T. tauto.
           ++ assert (existsb (fun k => ln_open k && (ln_port k =? p)) (lf_links s) = true); [|congruence].
              apply existsb_exists. exists (Linked p true). split; [eapply nth_error_In; eauto|]. cbn. apply Z.eqb_refl.
    + intros X; injection X as <- <-. split; [split; [exact A|split]|repeat split; intros; cbn; intuition discriminate].
      * cbn. intros Y. injection Y as ->. eapply C; eauto.
      * cbn. intros m X; apply set_at_inv in X as [[_ X]|[_ X]]; [discriminate|eapply C; eauto].
    + destruct (lf_field s) as [f|] eqn:Nf; [|discriminate]. intros X; injection X as <- <-.
      split; [split; [exact A|split; [cbn; congruence|]]|repeat split].
      * cbn. intros m X; apply set_at_inv in X as [[_ X]|[_ X]]; [discriminate|eapply C; eauto].
      * cbn. intros m [X|[]]. congruence.
      * intros [X|[]]. discriminate.
      * intros P m q [X|[]]. discriminate.
    + destruct (listening (lf_links s) k); intros X; injection X as <- <-;
        (split; [split; [exact A|split; [exact B|]]|repeat split; intros; cbn; intuition discriminate]); auto.
      cbn. intros m X; apply set_at_inv in X as [[_ X]|[_ X]]; [discriminate|eapply C; eauto].
    + intros X; injection X as <- <-. split; [repeat split; auto|repeat split; auto].
    + intros X; injection X as <- <-. split; [repeat split; auto|repeat split; auto].
  - destruct (nth_error (lf_runs s) i) as [[port|k| |k|r]|] eqn:N; intros X; injection X as <- <-;
        (split; [split; [exact A|split; [exact B|]]|repeat split; intros; cbn; intuition discriminate]); auto.
    cbn. intros m X; apply set_at_inv in X as [[_ X]|[_ X]]; [discriminate|eapply C; eauto].
  - destruct (nth_error (lf_runs s) i) as [[port|k| |k|r]|] eqn:N; intros X; injection X as <- <-;
        (split; [split; [exact A|split; [exact B|]]|repeat split; intros; cbn; intuition discriminate]); auto.
    cbn. intros m X; apply set_at_inv in X as [[_ X]|[_ X]]; [discriminate|eapply C; eauto].
  - destruct (lf_field s) eqn:N; intros X; injection X as <- <-; (split; [split; [exact A|split; [cbn; congruence|exact C]]|]);
      cbn; repeat split; intros; intuition discriminate.
  - destruct (nth_error (lf_stops s) j) as [[]|] eqn:N.
    + destruct (lf_field s) as [f|] eqn:Nf; [|discriminate]. intros X; injection X as <- <-.
      split; [split; [|split; [cbn; congruence|exact C]]|repeat split].
      * cbn. unfold shut. destruct (nth_error (lf_links s) f); auto. rewrite set_at_other; [auto|congruence].
      * intros m [X|[]]. discriminate.
      * intros [X|[]]. congruence.
      * intros P m q [X|[]]. discriminate.
    + intros X; injection X as <- <-. split; [repeat split; [exact A|cbn; congruence|exact C]|].
      cbn; repeat split; intros; intuition discriminate.
    + intros X; injection X as <- <-. split; [repeat split; auto|repeat split; auto].
    + intros X; injection X as <- <-. split; [repeat split; auto|repeat split; auto].
Qed.
Lemma lonely_run os : forall s s' e l p, lonely s l p -> lrun s os = Ok (s', e) ->
  lonely s' l p /\ (forall i, ~ In (VServing i l) e) /\ ~ In (VClosed l) e /\ (p <> 0 -> forall i k, ~ In (VListening i k p) e).
Proof.
  induction os as [|o t IH]; intros s s' e l p H; cbn.
  - intros X; injection X as <- <-. repeat split; auto; apply H.
  - destruct (lstep s o) as [[s1 e1]| |] eqn:L; cbn; try discriminate.
    destruct (lrun s1 t) as [[s2 e2]| |] eqn:R; cbn; try discriminate. intros X; injection X as <- <-.
    destruct (lonely_step _ _ _ _ _ _ H L) as (A & B & C & D). destruct (IH _ _ _ _ _ A R) as (A' & B' & C' & D').
    split; [exact A'|]. split; [|split].
    + intros i X. apply in_app_or in X as [X|X]; firstorder.
    + intros X. apply in_app_or in X as [X|X]; auto.
    + intros P i k X. apply in_app_or in X as [X|X]; [eapply D|eapply D']; eauto.
Qed.

Lemma orphan_stays os s evs l i p : lrun life_new os = Ok (s, evs) -> In (VListening i l p) evs -> left_open evs l -> owner evs <> Some l ->
  (forall k, nth_error (lf_runs s) k <> Some (RAssign l)) ->
  forall os' s' evs', lrun s os' = Ok (s', evs') ->
  left_open (evs ++ evs') l /\ (forall k, ~ In (VServing k l) evs') /\ (p <> 0 -> forall k m, ~ In (VListening k m p) evs').
Proof.
  intros R V O W H os' s' evs' R'. pose proof (fits_start _ _ _ R) as F.
  destruct (f_seen _ _ F _ _ _ V) as ([q b] & K & <-). cbn in *.
  assert (L : listening (lf_links s) l = true) by (apply (f_open _ _ F); auto). unfold listening in L. rewrite K in L. cbn in L. subst b.
  assert (Y : lonely s l q). { split; [exact K|]. split; [rewrite (f_field _ _ F); auto|exact H]. }
  destruct (lonely_run _ _ _ _ _ _ Y R') as (A & B & C & D). split; [|split; auto].
  destruct O as [(i' & p' & O) N]. split; [exists i', p'; apply in_or_app; auto|].
  intros X. apply in_app_or in X as [X|X]; auto.
Qed.
