(** Update reads the clock, removes the old element and then inserts the new one. *)
From Verif Require Import Base LibBase Timer Session Server Locks SpecLocks ProofLocks6.

Definition usual (ops : list lop) : Prop := (forall i k x, ~ In (LCall i (KSect (SIns k x))) ops) /\ forall i n, ~ In (LCall i (KSet n)) ops.
Definition upd (sec : Z) (i : nat) (evs : list levent) (p : place) : Prop :=
  match p with
  | AtLock x nx =>
      match nx with
      | Some y => exists k z now e, x = SDel k /\ y = SIns k z /\ z = s64 (now + sec) /\ own i evs = e ++ [EClock i k now z]
      | None => match x with SIns k z => exists now a e, z = s64 (now + sec) /\ own i evs = e ++ [EClock i k now z; ETook i (SDel k); EFree i (SDel k) a] | _ => True end
      end
  | Inside x _ nx =>
      match nx with
      | Some y => exists k z now e, x = SDel k /\ y = SIns k z /\ z = s64 (now + sec) /\ own i evs = e ++ [EClock i k now z; ETook i (SDel k)]
      | None => True
      end
  | AtStore _ => False
  | _ => True
  end.
Definition before (sec : Z) (evs : list levent) : Prop := forall i k x e1 e2, evs = e1 ++ ETook i (SIns k x) :: e2 ->
  exists now a e, x = s64 (now + sec) /\ own i e1 = e ++ [EClock i k now x; ETook i (SDel k); EFree i (SDel k) a].
Lemma own_app i a b : own i (a ++ b) = own i a ++ own i b.
Proof. unfold own. apply filter_app. Qed.
Lemma split_snoc {A} (l1 : list A) : forall l2 a x b, l1 ++ l2 = a ++ x :: b -> (exists r, l1 = a ++ x :: r) \/ (exists r, l2 = r ++ x :: b /\ a = l1 ++ r).
Proof.
  induction l1 as [|y l1 IH]; intros l2 a x b E; [right; exists a; auto|]. destruct a as [|z a]; injection E as <- E.
  - left. exists l1. reflexivity.
  - destruct (IH l2 a x b E) as [(r & ->)|(r & -> & ->)]; [left; exists r; reflexivity|right; exists r; auto].
Qed.
Lemma before_more sec evs es : before sec evs -> (forall i k x, ~ In (ETook i (SIns k x)) es) -> before sec (evs ++ es).
Proof.
  intros B N i k x e1 e2 E. destruct (split_snoc evs es e1 (ETook i (SIns k x)) e2 E) as [(r & X)|(r & X & _)].
  - exact (B i k x e1 r X).
  - exfalso. apply (N i k x). rewrite X. apply in_or_app. right. left. reflexivity.
Qed.
Lemma before_took sec evs i k x : before sec evs -> (exists now a e, x = s64 (now + sec) /\ own i evs = e ++ [EClock i k now x; ETook i (SDel k); EFree i (SDel k) a]) -> before sec (evs ++ [ETook i (SIns k x)]).
Proof.
  intros B H i' k' x' e1 e2 E. destruct (split_snoc evs _ e1 _ e2 E) as [(r & X)|(r & X & ->)]; [exact (B i' k' x' e1 r X)|].
  destruct r as [|y r]; [|destruct r; discriminate X]. injection X as -> -> -> _. rewrite app_nil_r. exact H.
Qed.
Definition unew (sec : Z) (s : lstate) (evs : list levent) : Prop := da_seconds (ls_data s) = sec /\ (forall i, upd sec i evs (ls_at s i)) /\ before sec evs.
Lemma inner_seconds p d p' d' : inner p d = Ok (p', d') -> da_seconds d' = da_seconds d.
Proof.
  destruct p; cbn [inner]; cbv zeta; unfold bind; intros E; try (injection E as <- <-; reflexivity).
  all: repeat match type of E with context [match ?x with _ => _ end] => destruct x; try discriminate E end; injection E as <- <-; reflexivity.
Qed.
Lemma others sec s evs es i p d h : (forall j, upd sec j evs (ls_at s j)) -> (forall j, j <> i -> own j es = []) -> upd sec i (evs ++ es) p -> forall j, upd sec j (evs ++ es) (ls_at (go_to (Lst h d (ls_at s)) i p) j).
Proof.
  intros U O P j. cbn [go_to ls_at]. destruct (Nat.eqb_spec j i) as [->|N]; [exact P|]. specialize (U j). unfold upd in *. rewrite own_app, (O j N), app_nil_r. exact U.
Qed.
Lemma own_not i j e : (match e with ETook j _ | EFree j _ _ | EClock j _ _ _ => j end) = i -> j <> i -> own j [e] = [].
Proof. intros <- N. unfold own. cbn [filter]. destruct (Nat.eqb_spec (match e with ETook j0 _ | EFree j0 _ _ | EClock j0 _ _ _ => j0 end) j); [congruence|reflexivity]. Qed.
Lemma own_yes e : own (match e with ETook j _ | EFree j _ _ | EClock j _ _ _ => j end) [e] = [e].
Proof. unfold own. cbn [filter]. rewrite Nat.eqb_refl. reflexivity. Qed.
Lemma ustep sec s evs o s' es : unew sec s evs -> usual [o] -> lstep s o = Ok (s', es) -> unew sec s' (evs ++ es).
Proof.
  intros (D & U & B) (Y1 & Y2) E. destruct s as [h d at_]. destruct o as [i c|i now]; cbn [lstep ls_at ls_data ls_held] in *.
  - destruct (at_ i) eqn:A; injection E as <- <-; rewrite ?app_nil_r; try (split; [exact D|]; split; assumption).
    split; [exact D|]. split; [|exact B]. intros j. cbn [go_to ls_at]. destruct (Nat.eqb_spec j i) as [->|N]; [|exact (U j)].
    destruct c as [x|k| |n]; cbn [starts]; try exact I; [|exfalso; apply (Y2 i n); left; reflexivity].
    destruct x; try exact I. exfalso. apply (Y1 i k x). left. reflexivity.
  - pose proof (U i) as Ui. destruct (at_ i) as [|k| |n|x nx|x p nx] eqn:A.
    + injection E as <- <-. rewrite app_nil_r. split; [exact D|]. split; assumption.
    + injection E as <- <-. split; [exact D|]. split.
      * apply (others sec (Lst h d at_) evs _ i _ d h U); [intros j N; apply (own_not i j); auto|]. cbn [upd]. exists k, (s64 (now + da_seconds d)), now, (own i evs). rewrite own_app, (own_yes (EClock i k now _)), D. auto.
      * apply before_more; [exact B|]. intros i' k' x' [X|[]]. discriminate X.
    + injection E as <- <-. rewrite app_nil_r. split; [exact D|]. split; [|exact B]. intros j. cbn [go_to ls_at]. destruct (Nat.eqb_spec j i); [exact I|exact (U j)].
    + destruct Ui.
    + destruct (h (guard x)); injection E as <- <-; [rewrite app_nil_r; split; [exact D|]; split; assumption|]. split; [exact D|]. split.
      * apply (others sec (Lst h d at_) evs _ i _ d _ U); [intros j N; apply (own_not i j); auto|]. destruct nx as [y|]; [|exact I]. cbn [upd] in *. destruct Ui as (k & z & now0 & e & -> & -> & Z & O).
        exists k, z, now0, e. rewrite own_app, (own_yes (ETook i _)), O, <- app_assoc. auto.
      * destruct nx as [y|].
        -- destruct Ui as (k & z & now0 & e & -> & _). apply before_more; [exact B|]. intros i' k' x' [X|[]]. discriminate X.
        -- destruct x; try (apply before_more; [exact B|]; intros i' k' x' [X|[]]; discriminate X). apply before_took; [exact B|exact Ui].
    + destruct (match p with PDone c => Some c | _ => None end) as [c|] eqn:Pd.
      * assert (p = PDone c) by (destruct p; try discriminate; injection Pd as ->; reflexivity). subst p. injection E as <- <-. split; [exact D|]. split.
        -- apply (others sec (Lst h d at_) evs _ i _ d _ U); [intros j N; apply (own_not i j); auto|]. destruct nx as [y|]; [|exact I]. cbn [upd] in Ui. destruct Ui as (k & z & now0 & e & -> & -> & Z & O).
           cbn [upd]. exists now0, c, e. rewrite own_app, (own_yes (EFree i _ _)), O, <- app_assoc. auto.
        -- apply before_more; [exact B|]. intros i' k' x' [X|[]]. discriminate X.
      * assert (E' : (do (p', d') <- inner p d ; Ok (go_to (set_data (Lst h d at_) d') i (Inside x p' nx), [])) = Ok (s', es)) by (destruct p; try discriminate Pd; exact E). clear E.
        destruct (inner p d) as [[p' d']| |] eqn:In; try discriminate E'. injection E' as <- <-. rewrite app_nil_r. pose proof (inner_seconds _ _ _ _ In) as Q. split; [cbn [go_to set_data ls_data]; congruence|]. split; [|exact B].
        intros j. cbn [go_to set_data ls_at]. destruct (Nat.eqb_spec j i) as [->|N]; [exact Ui|exact (U j)].
Qed.
Lemma urun sec : forall ops s evs s' es, unew sec s evs -> usual ops -> lrun s ops = Ok (s', es) -> unew sec s' (evs ++ es).
Proof.
  induction ops as [|o ops IH]; intros s evs s' es U Y E; cbn [lrun] in E; [injection E as <- <-; rewrite app_nil_r; exact U|].
  destruct (lstep s o) as [[s1 e1]| |] eqn:E1; try discriminate E. cbn [bind] in E. destruct (lrun s1 ops) as [[s2 e2]| |] eqn:E2; try discriminate E. injection E as <- <-. rewrite app_assoc.
  destruct Y as [Y1 Y2]. apply (IH s1 _ s2 e2); [|split; [intros i k x J; apply (Y1 i k x); right; exact J|intros i n J; apply (Y2 i n); right; exact J]|exact E2].
  apply (ustep sec s evs o); [exact U| |exact E1]. split; [intros i k x [J|[]]; apply (Y1 i k x); left; exact J|intros i n [J|[]]; apply (Y2 i n); left; exact J].
Qed.
Lemma update_order sec ops s evs i k x e1 e2 : lock_runs sec ops s evs -> (forall i k x, ~ In (LCall i (KSect (SIns k x))) ops) -> (forall i n, ~ In (LCall i (KSet n)) ops) ->
  evs = e1 ++ ETook i (SIns k x) :: e2 -> exists now a e, x = s64 (now + sec) /\ own i e1 = e ++ [EClock i k now x; ETook i (SDel k); EFree i (SDel k) a].
Proof.
  intros R Y1 Y2 E. assert (U0 : unew sec (linit sec) []) by (split; [reflexivity|]; split; [intros j; exact I|intros i' k' x' a b X; destruct a; discriminate X]).
  pose proof (urun sec ops _ _ _ _ U0 (conj Y1 Y2) R) as (_ & _ & B). exact (B i k x e1 e2 E).
Qed.
