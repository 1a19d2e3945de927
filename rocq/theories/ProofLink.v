(** Proofs for C187 and C188. *)
From Verif Require Import Base LibBase Link SpecLink.

(** ** Lists of goroutines *)

Lemma goto_at : forall l i p j, nth_error (goto l i p) j = if Nat.eqb i j then (match nth_error l i with Some _ => Some p | None => None end) else nth_error l j.
Proof.
  induction l as [|x t IH]; intros i p j.
  - destruct i, j; cbn; try reflexivity; now destruct (Nat.eqb i j).
  - destruct i, j; cbn; try reflexivity. rewrite IH. reflexivity.
Qed.
Lemma goto_length : forall l i p, length (goto l i p) = length l.
Proof. induction l as [|x t IH]; intros [|i] p; cbn; congruence. Qed.
Lemma goto_filter (f : pc -> bool) : forall l i p q, nth_error l i = Some p -> f p = false -> f q = false -> filter f (goto l i q) = filter f l.
Proof.
  induction l as [|x t IH]; intros [|i] p q E P Q; cbn in *; try discriminate.
  - injection E as ->. now rewrite P, Q.
  - now rewrite (IH _ _ _ E P Q).
Qed.
Lemma goto_filter_in (f : pc -> bool) : forall l i p q, nth_error l i = Some p -> f p = false -> f q = true -> filter f l = [] -> filter f (goto l i q) = [q].
Proof.
  induction l as [|x t IH]; intros [|i] p q E P Q N; cbn in *; try discriminate.
  - injection E as ->. rewrite P in N. now rewrite Q, N.
  - destruct (f x); [discriminate|]. now rewrite (IH _ _ _ E P Q N).
Qed.
Lemma filter_at (f : pc -> bool) : forall l i p, nth_error l i = Some p -> f p = true -> In p (filter f l).
Proof. intros l i p E P. apply filter_In. split; [now apply nth_error_In with i|exact P]. Qed.
Lemma goto_filter_out (f : pc -> bool) : forall l i p q x, nth_error l i = Some p -> f p = true -> filter f l = [x] ->
  x = p /\ filter f (goto l i q) = if f q then [q] else [].
Proof.
  induction l as [|y t IH]; intros [|i] p q x E P N; cbn in *; try discriminate.
  - injection E as ->. rewrite P in N. injection N as -> N. rewrite N. now destruct (f q).
  - destruct (f y) eqn:Y.
    + injection N as -> N. pose proof (filter_at f t i p E P) as F. rewrite N in F. destruct F.
    + now apply (IH i p q x).
Qed.
Lemma existsb_at f (l : list pc) : existsb f l = false -> forall i p, nth_error l i = Some p -> f p = false.
Proof.
  intros H i p E. apply not_true_iff_false. intro P. rewrite <- not_true_iff_false in H. apply H.
  apply existsb_exists. exists p. split; [now apply nth_error_In with i|exact P].
Qed.

(** ** Histories *)

Lemma lrun_app cap : forall a s b, lrun cap s (a ++ b) =
  (do (s1, e1) <- lrun cap s a; do (s2, e2) <- lrun cap s1 b; Ok (s2, e1 ++ e2)).
Proof.
  induction a as [|o t IH]; intros s b; cbn [app lrun].
  - cbn [bind]. now destruct (lrun cap s b) as [[]| |].
  - destruct (lstep cap s o) as [[s1 e1]| |]; [|reflexivity|reflexivity]. cbn [bind]. rewrite IH.
    destruct (lrun cap s1 t) as [[s2 e2]| |]; [|reflexivity|reflexivity]. cbn [bind].
    destruct (lrun cap s2 b) as [[s3 e3]| |]; [|reflexivity|reflexivity]. cbn [bind]. now rewrite app_assoc.
Qed.
Lemma lrun_ind cap (P : link -> list lev -> Prop) :
  (forall s tr o s' e, P s tr -> lstep cap s o = Ok (s', e) -> P s' (tr ++ e)) ->
  forall os s tr0 s' tr, P s tr0 -> lrun cap s os = Ok (s', tr) -> P s' (tr0 ++ tr).
Proof.
  intros St. induction os as [|o t IH]; intros s tr0 s' tr H E; cbn [lrun] in E.
  - injection E as <- <-. now rewrite app_nil_r.
  - destruct (lstep cap s o) as [[s1 e1]| |] eqn:E1; try discriminate. cbn [bind] in E.
    destruct (lrun cap s1 t) as [[s2 e2]| |] eqn:E2; try discriminate. injection E as <- <-.
    rewrite app_assoc. apply (IH s1); [|exact E2]. now apply (St s _ o).
Qed.
Lemma lrun_inv cap (P : link -> list lev -> Prop) :
  P fresh_link [] -> (forall s tr o s' e, P s tr -> lstep cap s o = Ok (s', e) -> P s' (tr ++ e)) ->
  forall os s tr, lrun cap fresh_link os = Ok (s, tr) -> P s tr.
Proof. intros B St os s tr E. exact (lrun_ind cap P St os fresh_link [] s tr B E). Qed.

(** ** Closing happens once, and nobody panics *)

Definition tok (p : pc) : bool :=
  match p with CChan _ | CLock _ | CQueue _ | CUnlock _ | CCodec _ | CSpawn _ | KLock | KRun _ | KUnlock => true | _ => false end.
Definition tok_flags (s : link) : Prop :=
  match filter tok (lk_pcs s) with
  | [] => (lk_flag s = false /\ lk_chan s = false /\ lk_shut s = false) \/ (lk_flag s = true /\ lk_chan s = true /\ lk_shut s = true)
  | [p] => lk_flag s = true /\
    match p with
    | CChan _ => lk_chan s = false /\ lk_shut s = false
    | CLock _ | CQueue _ => lk_chan s = true /\ lk_shut s = false
    | _ => lk_chan s = true /\ lk_shut s = true
    end
  | _ => False
  end.
Definition excl (s : link) : Prop :=
  forall i j p q, nth_error (lk_pcs s) i = Some p -> nth_error (lk_pcs s) j = Some q -> holds_w p = true -> holds_r q = true -> False.
Definition sel_open (s : link) : Prop :=
  forall i m, nth_error (lk_pcs s) i = Some (SSelect m) -> lk_shut s = false.
Definition inva (s : link) : Prop := tok_flags s /\ excl s /\ sel_open s.

Lemma nth_error_snoc {A} (l : list A) x i y : nth_error (l ++ [x]) i = Some y -> nth_error l i = Some y \/ i = length l /\ y = x.
Proof.
  intro H. destruct (Nat.lt_ge_cases i (length l)) as [L|L].
  - rewrite nth_error_app1 in H by exact L. now left.
  - rewrite nth_error_app2 in H by exact L. right. destruct (i - length l)%nat as [|k] eqn:K; cbn in H.
    + injection H as <-. split; [lia|reflexivity].
    + destruct k; discriminate.
Qed.
Ltac at_goto := 
  repeat match goal with
  | H : nth_error (goto ?l ?i ?p) ?j = _ |- _ =>
    rewrite goto_at in H; destruct (Nat.eqb_spec i j); [subst|]
  | E : nth_error ?l ?i = Some _, H : context [match nth_error ?l ?i with _ => _ end] |- _ => rewrite E in H
  | H : Some _ = Some _ |- _ => injection H as H; subst
  | H : nth_error (_ ++ [_]) ?j = Some _ |- _ => apply nth_error_snoc in H; destruct H as [H|[? H]]; subst
  end.

(** Every statement, one goal each. *)
Ltac break_in E :=
  repeat match type of E with
  | Ok _ = Ok _ => injection E; clear E; intros; subst
  | Panic = Ok _ => discriminate E
  | context [match nth_error ?l ?i with _ => _ end] => let A := fresh "A" in destruct (nth_error l i) as [[]|] eqn:A
  | context [if ?c then _ else _] => let B := fresh "B" in destruct c eqn:B
  | context [match ?c with _ => _ end] => is_var c; destruct c
  end.
Ltac moves E :=
  match type of E with lmove _ ?s _ _ = _ => destruct s as [fl ch sh q cbs ps]; cbn [lmove] in E; break_in E end.

Lemma tok_same s l i p q : tok_flags s -> lk_pcs s = l -> nth_error l i = Some p -> tok p = false -> tok q = false ->
  tok_flags (Link (lk_flag s) (lk_chan s) (lk_shut s) (lk_queue s) (lk_cbs s) (goto l i q)).
Proof.
  unfold tok_flags. cbn [lk_flag lk_chan lk_shut lk_queue lk_cbs lk_pcs]. intros T <- A P Q. now rewrite (goto_filter tok _ _ _ _ A P Q).
Qed.
Lemma tok_flags_call s c e : tok_flags s -> tok_flags (Link (lk_flag s) (lk_chan s) (lk_shut s) (lk_queue s) e (lk_pcs s ++ [begin c])).
Proof.
  unfold tok_flags. cbn [lk_flag lk_chan lk_shut lk_queue lk_cbs lk_pcs]. rewrite filter_app. cbn [filter].
  replace (tok (begin c)) with false by (now destruct c). now rewrite app_nil_r.
Qed.
Lemma tok_flags_move cap s i b s' e : tok_flags s -> lmove cap s i b = Ok (s', e) -> tok_flags s'.
Proof.
  intros T E. moves E; unfold tok_flags in *; cbn [lk_flag lk_chan lk_shut lk_queue lk_cbs lk_pcs] in *;
  try exact T;
  try (match goal with A : nth_error ?l ?n = Some ?p |- context [goto ?l ?n ?q] =>
         rewrite (goto_filter tok l n p q A) by reflexivity; exact T end).
  all: try (match goal with A : nth_error ?l ?n = Some ?p |- context [goto ?l ?n ?q] =>
         destruct (filter tok l) as [|x [|]] eqn:F; 
         [exfalso; pose proof (filter_at tok l n p A eq_refl) as Z; rewrite F in Z; exact Z
         |destruct (goto_filter_out tok l n p q x A eq_refl F) as [-> G]; rewrite ?filter_app, G; cbn [tok filter app]; intuition congruence|exfalso; exact T] end).
  all: match goal with A : nth_error ?l ?n = Some ?p |- context [goto ?l ?n ?q] =>
         destruct (filter tok l) as [|x [|]] eqn:F;
         [rewrite (goto_filter_in tok l n p q A eq_refl eq_refl F); intuition congruence
         |exfalso; destruct T; discriminate|exfalso; exact T] end.
Qed.

Lemma excl_move cap s i b s' e : tok_flags s -> excl s -> lmove cap s i b = Ok (s', e) -> excl s'.
Proof.
  intros T X E. moves E; try exact X; intros i1 j1 p1 q1 A1 A2 W1 R1; cbn [lk_pcs] in *; at_goto; try discriminate;
  try (eapply X; eassumption);
  match goal with
  | B : existsb holds_w ?l = false, A : nth_error ?l ?n = Some ?p, W : holds_w ?p = true |- _ => rewrite (existsb_at _ _ B _ _ A) in W; discriminate W
  | B : existsb holds_r ?l || existsb holds_w ?l = false, A : nth_error ?l ?n = Some ?p, W : holds_r ?p = true |- _ => apply orb_false_iff in B; destruct B as [B B']; rewrite (existsb_at _ _ B _ _ A) in W; discriminate W
  | A : nth_error ?l ?n = Some ?p, A' : nth_error ?l ?n' = Some ?q |- _ => apply (X n' n q p A' A); [assumption || reflexivity|assumption || reflexivity]
  | A : nth_error ?l ?n = Some ?p, A' : nth_error ?l ?n' = Some ?q |- _ => apply (X n n' p q A A'); [assumption || reflexivity|assumption || reflexivity]
  end.
Qed.
Lemma tok_flag (s : link) i p : tok_flags s -> nth_error (lk_pcs s) i = Some p -> tok p = true -> filter tok (lk_pcs s) = [p].
Proof.
  unfold tok_flags. intros T A P. pose proof (filter_at tok _ _ _ A P) as F.
  destruct (filter tok (lk_pcs s)) as [|x [|]]; [destruct F| |destruct T]. destruct F as [->|[]]. reflexivity.
Qed.
Lemma sel_open_move cap s i b s' e : inva s -> lmove cap s i b = Ok (s', e) -> sel_open s'.
Proof.
  intros (T & X & O) E.
  assert (Fl : lk_flag s = false -> lk_shut s = false).
  { unfold tok_flags in T. destruct (filter tok (lk_pcs s)) as [|x [|]]; [intuition congruence|intuition congruence|destruct T]. }
  moves E; try exact O; intros i1 m1 A1; cbn [lk_pcs lk_shut lk_flag] in *; at_goto; try discriminate; auto; try (eapply O; eassumption).
  all: exfalso; match goal with A : nth_error ?l ?n = Some ?p, A' : nth_error ?l ?n' = Some (SSelect _) |- _ => apply (X n n' _ _ A A'); reflexivity end.
Qed.
Lemma inva_step cap s o s' e : inva s -> lstep cap s o = Ok (s', e) -> inva s'.
Proof.
  intros (T & X & O) E. destruct o as [c|i b].
  - injection E as <- <-. split; [|split].
    + now apply tok_flags_call.
    + intros i j p q A1 A2 W1 R1. cbn [lk_pcs] in *. at_goto; try (now destruct c). exact (X _ _ _ _ A1 A2 W1 R1).
    + intros i m A1. cbn [lk_pcs lk_shut] in *. at_goto; try (now destruct c). exact (O _ _ A1).
  - cbn [lstep] in E. split; [|split].
    + eapply tok_flags_move; eassumption.
    + eapply excl_move; eassumption.
    + eapply sel_open_move; [|eassumption]. now split; [|split].
Qed.
Lemma inva_fresh : inva fresh_link.
Proof.
  split; [|split].
  - left. repeat split.
  - intros [|[|]] j p q A; cbn in A; try discriminate. injection A as <-. discriminate.
  - intros [|[|]] m A; cbn in A; discriminate.
Qed.
Lemma step_total cap s o : inva s -> exists s' e, lstep cap s o = Ok (s', e).
Proof.
  intros (T & X & O). destruct o as [c|i b]; [eexists _, _; reflexivity|]. cbn [lstep].
  destruct (lmove cap s i b) as [[s' e]| |] eqn:E; [now exists s', e| |]; exfalso; moves E; try discriminate E.
  - unfold sel_open in O. cbn in O. specialize (O _ _ A). discriminate.
  - pose proof (tok_flag _ i _ T A eq_refl) as F. unfold tok_flags in T. rewrite F in T. cbn in T. intuition congruence.
  - pose proof (tok_flag _ i _ T A eq_refl) as F. unfold tok_flags in T. rewrite F in T. cbn in T. intuition congruence.
Qed.
Lemma run_total cap : forall os s, inva s -> exists s' tr, lrun cap s os = Ok (s', tr).
Proof.
  induction os as [|o t IH]; intros s V; [now exists s, []|]. cbn [lrun].
  destruct (step_total cap s o V) as (s1 & e1 & E1). rewrite E1. cbn [bind].
  destruct (IH s1 (inva_step _ _ _ _ _ V E1)) as (s2 & e2 & E2). rewrite E2. cbn [bind]. eexists _, _; reflexivity.
Qed.
Lemma no_panic cap os : exists s tr, lrun cap fresh_link os = Ok (s, tr).
Proof. exact (run_total cap os _ inva_fresh). Qed.
Lemma inva_run cap os s tr : lrun cap fresh_link os = Ok (s, tr) -> inva s.
Proof. apply (lrun_inv cap (fun s _ => inva s)); [exact inva_fresh|]. intros s0 t0 o s' e. apply inva_step. Qed.

(** ** The queue *)

Lemma puts_app a b : puts (a ++ b) = puts a ++ puts b. Proof. apply flat_map_app. Qed.
Lemma tooks_app a b : tooks (a ++ b) = tooks a ++ tooks b. Proof. apply flat_map_app. Qed.
Lemma wrotes_app a b : wrotes (a ++ b) = wrotes a ++ wrotes b. Proof. apply flat_map_app. Qed.
Lemma addeds_app a b : addeds (a ++ b) = addeds a ++ addeds b. Proof. apply flat_map_app. Qed.
Lemma rans_app a b : rans (a ++ b) = rans a ++ rans b. Proof. apply flat_map_app. Qed.
Lemma milestones_app a b : milestones (a ++ b) = milestones a ++ milestones b. Proof. apply flat_map_app. Qed.
Lemma mine_app i a b : mine i (a ++ b) = mine i a ++ mine i b. Proof. apply filter_app. Qed.

Definition invq (cap : nat) (s : link) (tr : list lev) : Prop :=
  puts tr = tooks tr ++ lk_queue s /\ (length (lk_queue s) <= cap)%nat /\ addeds tr = lk_cbs s.
Lemma invq_step cap s tr o s' e : invq cap s tr -> lstep cap s o = Ok (s', e) -> invq cap s' (tr ++ e).
Proof.
  unfold invq. intros (P & L & C) E. rewrite puts_app, tooks_app, addeds_app. destruct o as [c|i b].
  - injection E as <- <-. cbn. now rewrite !app_nil_r.
  - cbn [lstep] in E. moves E; cbn [lk_queue lk_cbs puts tooks addeds flat_map app] in *; rewrite ?app_nil_r in *; auto.
    + split; [rewrite P, <- app_assoc; reflexivity|split; [|exact C]]. rewrite app_length. cbn [length]. apply Nat.ltb_lt in B0. lia.
    + split; [exact P|split; [exact L|]]. now rewrite C.
    + split; [rewrite P, <- app_assoc; reflexivity|split; [|exact C]]. cbn in L. lia.
    + split; [rewrite P, <- app_assoc; reflexivity|split; [|exact C]]. cbn in L. lia.
Qed.
Lemma invq_run cap os s tr : lrun cap fresh_link os = Ok (s, tr) -> invq cap s tr.
Proof. apply (lrun_inv cap (invq cap)); [repeat split; cbn; lia|]. intros s0 t0 o s' e. apply invq_step. Qed.

(** ** The milestones, the callbacks *)

Definition won_only (l : list lev) : Prop := exists j, l = [Won j].
(** the callbacks before their invocation *)
Definition before_invoked (tr : list lev) (rest : list Z) : Prop :=
  exists a b, tr = a ++ Invoked :: b /\ addeds a = rans tr ++ rest.
Definition invm (s : link) (tr : list lev) : Prop :=
  match filter tok (lk_pcs s) with
  | [] => (lk_flag s = false /\ milestones tr = [] /\ rans tr = [])
          \/ (lk_flag s = true /\ (exists j, milestones tr = [Won j; CodecClosed; Invoked]) /\ before_invoked tr [])
  | p :: _ =>
    match p with
    | CSpawn _ | KLock => (exists j, milestones tr = [Won j; CodecClosed]) /\ rans tr = []
    | KRun rest => (exists j, milestones tr = [Won j; CodecClosed; Invoked]) /\ before_invoked tr rest
    | KUnlock => (exists j, milestones tr = [Won j; CodecClosed; Invoked]) /\ before_invoked tr []
    | _ => (exists j, milestones tr = [Won j]) /\ rans tr = []
    end
  end.
Lemma before_quiet tr rest e : before_invoked tr rest -> rans e = [] -> before_invoked (tr ++ e) rest.
Proof.
  intros (a & b & -> & H) R. exists a, (b ++ e). rewrite <- app_assoc. split; [reflexivity|].
  change (Invoked :: b ++ e) with ((Invoked :: b) ++ e). now rewrite app_assoc, rans_app, R, app_nil_r.
Qed.
Lemma invm_quiet s s' tr e : invm s tr -> filter tok (lk_pcs s') = filter tok (lk_pcs s) -> lk_flag s' = lk_flag s ->
  milestones e = [] -> rans e = [] -> invm s' (tr ++ e).
Proof.
  unfold invm. intros V -> -> M R. rewrite milestones_app, rans_app, M, R, !app_nil_r.
  destruct (filter tok (lk_pcs s)) as [|p l].
  - destruct V as [V|(F & V & H)]; [now left|right]. repeat split; auto. now apply before_quiet.
  - destruct p; try exact V; destruct V as [V H]; split; auto; now apply before_quiet.
Qed.
Lemma invm_step cap s tr o s' e : inva s -> invq cap s tr -> invm s tr -> lstep cap s o = Ok (s', e) -> invm s' (tr ++ e).
Proof.
  intros (T & _) (_ & _ & C) V E. destruct o as [c|i b].
  - injection E as <- <-. apply (invm_quiet s); auto. cbn [lk_pcs]. rewrite filter_app. cbn [filter].
    replace (tok (begin c)) with false by (now destruct c). apply app_nil_r.
  - cbn [lstep] in E. moves E;
    try (eapply invm_quiet; [exact V|..]; cbn [lk_pcs lk_flag]; auto; match goal with A : nth_error ?l ?n = Some ?p |- _ => apply (goto_filter tok l n p _ A); reflexivity end).
    all: match goal with
    | A : nth_error ?l ?n = Some (CSwap _) |- _ => idtac
    | A : nth_error ?l ?n = Some ?p |- _ => pose proof (tok_flag _ n p T A eq_refl) as F
    end.
    all: unfold tok_flags in T; unfold invm in *; rewrite ?milestones_app, ?rans_app; cbn [lk_pcs lk_flag lk_chan lk_shut lk_cbs] in *.
    all: try (match goal with A : nth_error ?l ?n = Some ?p, F : filter tok ?l = [?p] |- context [goto ?l ?n ?q] =>
         rewrite F in *; destruct (goto_filter_out tok l n p q p A eq_refl F) as [_ G]; rewrite ?filter_app, G; cbn [tok filter app]; cbn [milestones rans flat_map app]; rewrite ?app_nil_r end).
    all: try (destruct V as [[j ->] V]; rewrite ?V).
    all: try (split; [exists j; reflexivity|reflexivity]).
    + destruct (filter tok ps) as [|x [|]] eqn:F; [|destruct T; discriminate|destruct T].
      match goal with |- context [goto ps i ?q] => rewrite (goto_filter_in tok ps i _ q A eq_refl eq_refl F) end. destruct V as [(_ & -> & ->)|(? & _)]; [|discriminate].
      split; [exists i|]; reflexivity.
    + split; [exists j; reflexivity|]. exists tr, []. split; [reflexivity|]. rewrite rans_app, V. cbn. exact C.
    + split; [exists j; reflexivity|exact V].
    + split; [exists j; reflexivity|]. destruct V as (a & b1 & -> & V). exists a, (b1 ++ [Ran z]). rewrite <- app_assoc.
      split; [reflexivity|]. change (Invoked :: b1 ++ [Ran z]) with ((Invoked :: b1) ++ [Ran z]).
      rewrite app_assoc, rans_app. cbn [rans flat_map app] in *. now rewrite <- app_assoc.
    + right. destruct T as [-> _]. split; [reflexivity|split; [exists j; reflexivity|]]. now apply before_quiet.
Qed.
Definition invall (cap : nat) (s : link) (tr : list lev) : Prop := inva s /\ invq cap s tr /\ invm s tr.
Lemma invall_run cap os s tr : lrun cap fresh_link os = Ok (s, tr) -> invall cap s tr.
Proof.
  apply (lrun_inv cap (invall cap)).
  - split; [exact inva_fresh|split; [repeat split; cbn; lia|left; repeat split]].
  - intros s0 t0 o s' e (V & Q & M) E. split; [eapply inva_step; eassumption|split; [eapply invq_step; eassumption|eapply invm_step; eassumption]].
Qed.

(** ** What each goroutine did *)

Definition callers (i : nat) (r : ret) (l : list lev) : Prop :=
  (exists m, r = RBlocked /\ l = [Called i (CallSend m); Won i]) \/ (r = RNil /\ l = [Called i CallClose; Won i]) \/ (i = 0%nat /\ r = RNil /\ l = [Won i]).
Definition did (i : nat) (p : pc) (l : list lev) : Prop :=
  match p with
  | SLock m | SCheck m | SSelect m => l = [Called i (CallSend m)]
  | SUnlock RNil => exists m, l = [Called i (CallSend m); Put i m]
  | SUnlock _ | CSwap (Some RBlocked) => exists m, l = [Called i (CallSend m)]
  | CSwap None => l = [Called i CallClose] \/ i = 0%nat /\ l = []
  | CSwap (Some _) => False
  | CChan r | CLock r | CQueue r | CUnlock r | CCodec r | CSpawn r => callers i r l
  | KLock | KRun _ | KUnlock => l = [] /\ i <> 0%nat
  | ACheck f | ALock f | AAdd f => l = [Called i (CallAdd f)]
  | AUnlock => exists f, l = [Called i (CallAdd f); Added i f]
  | LSelect | LSend _ => i = 0%nat /\ l = []
  | Done r => (exists c, ended i c l) \/ (i = 0%nat /\ l = [Won i; Returned i RNil]) \/ (i = 0%nat /\ l = [Returned i RClosed]) \/ (i <> 0%nat /\ l = [Returned i RNil])
  end.
Definition invd (s : link) (tr : list lev) : Prop :=
  lk_pcs s <> [] /\ (forall i p, nth_error (lk_pcs s) i = Some p -> did i p (mine i tr)) /\ (forall i, (length (lk_pcs s) <= i)%nat -> mine i tr = []).

Lemma mine_other i j c : i <> j -> mine j [Called i c] = [].
Proof. intro N. cbn. now destruct (Nat.eqb_spec j i); [subst|]. Qed.
Lemma mine_self i : forall e, match e with Called j _ | Put j _ | Won j | Added j _ | Returned j _ => i = j | _ => False end -> mine i [e] = [e].
Proof. intros [] H; cbn; try destruct H; try now rewrite Nat.eqb_refl. Qed.
Lemma mine_foreign i : forall e, match e with Called j _ | Put j _ | Won j | Added j _ | Returned j _ => i <> j | _ => True end -> mine i [e] = [].
Proof. intros [] H; cbn; try reflexivity; now destruct (Nat.eqb_spec i i0). Qed.
Lemma at_lt {A} (l : list A) i p : nth_error l i = Some p -> (i < length l)%nat.
Proof. intro E. apply nth_error_Some. congruence. Qed.
Lemma invd_step cap s tr o s' e : invd s tr -> lstep cap s o = Ok (s', e) -> invd s' (tr ++ e).
Proof.
  intros (N & D & L) E. destruct o as [c|i b].
  - injection E as <- <-. cbn [lk_pcs]. split; [|split].
    + cbn [lk_pcs]. intro X. apply (f_equal (@length pc)) in X. rewrite app_length in X. cbn in X. lia.
    + intros i p A. rewrite mine_app. cbn [lk_pcs] in A. apply nth_error_snoc in A. destruct A as [A|[-> ->]].
      * rewrite mine_foreign, app_nil_r; [now apply D|]. apply at_lt in A. lia.
      * rewrite (L _ (Nat.le_refl _)), mine_self by reflexivity. destruct c; cbn; auto.
    + intros i H. cbn [lk_pcs] in H. rewrite app_length in H. cbn in H. rewrite mine_app, mine_foreign, app_nil_r by lia. apply L. lia.
  - cbn [lstep] in E. split; [|split].
    + moves E; cbn [lk_pcs] in *; try exact N; intro X; apply N; apply (f_equal (@length pc)) in X; rewrite ?app_length, goto_length in X; cbn [length] in X; try lia; now apply length_zero_iff_nil.
    + intros j p A1. rewrite mine_app. pose proof (D i) as Di. pose proof (D j) as Dj.
      moves E; cbn [lk_pcs] in *; try (cbn [mine filter]; rewrite app_nil_r; now apply D).
      all: match goal with A : nth_error ?l ?n = Some ?p |- _ => pose proof (at_lt _ _ _ A); specialize (Di _ A) end.
      all: try (apply nth_error_snoc in A1; destruct A1 as [A1|[-> ->]]).
      all: try (rewrite goto_at in A1; destruct (Nat.eqb_spec i j) as [<-|Ne]).
      all: try (match goal with Ne : ?n <> ?k |- _ => rewrite ?mine_foreign by (auto; congruence); cbn [mine filter]; rewrite ?app_nil_r; now apply Dj end).
      all: try (rewrite A in A1; injection A1 as <-).
      all: rewrite ?mine_self by reflexivity; cbn [mine filter]; rewrite ?app_nil_r; cbn [did] in *; auto.
      * eauto.
      * exists m. now rewrite Di.
      * eauto.
      * destruct Di as [m ->]. left. eexists. apply sent.
      * destruct Di as [m ->]. left. eexists. apply refused.
      * destruct r as [[]|]; [destruct Di|destruct Di| |].
        -- destruct Di as [m ->]. left. eexists. apply blocked.
        -- destruct Di as [->|[-> ->]]; [left; eexists; apply closed_late|right; right; left; now split].
      * unfold callers. destruct r as [[]|]; [destruct Di|destruct Di| |].
        -- destruct Di as [m ->]. left. now exists m.
        -- destruct Di as [->|[-> ->]]; [right; left; now split|right; right; now repeat split].
      * destruct Di as [(m & -> & ->)|[(-> & ->)|(-> & -> & ->)]].
        -- left. eexists. apply blocked_first.
        -- left. eexists. apply closed_first.
        -- right. left. now split.
      * rewrite goto_length. destruct (Nat.eqb_spec (length ps) i) as [X|X]; [lia|]. rewrite L by lia. split; [reflexivity|lia].
      * destruct Di as [-> Di]. right. right. right. now split.
      * rewrite Di. left. eexists. apply not_added.
      * exists f. now rewrite Di.
      * destruct Di as [f ->]. left. eexists. apply added.
    + intros j H. rewrite mine_app.
      assert (Li : forall p, nth_error (lk_pcs s) i = Some p -> (i < length (lk_pcs s))%nat) by (intros p; apply at_lt).
      moves E; cbn [lk_pcs] in *; rewrite ?app_length, ?goto_length in H; cbn [length] in H; try (cbn [mine filter]; rewrite app_nil_r; now apply L).
      all: specialize (Li _ A); rewrite ?mine_foreign by (auto; lia); cbn [mine filter]; rewrite ?app_nil_r; apply L; lia.
Qed.
Lemma invd_run cap os s tr : lrun cap fresh_link os = Ok (s, tr) -> invd s tr.
Proof.
  apply (lrun_inv cap invd); [|intros s0 t0 o s' e; apply invd_step].
  split; [discriminate|split].
  - intros [|[|]] p A; cbn in A; try discriminate. injection A as <-. now split.
  - intros i _. reflexivity.
Qed.

(** ** Errors mean that the session is closed *)

Definition invf (s : link) (tr : list lev) : Prop :=
  (forall i, nth_error (lk_pcs s) i = Some (SUnlock RClosed) -> lk_flag s = true) /\
  (forall i r, In (Returned i r) tr -> r <> RNil -> lk_flag s = true).
Lemma flag_kept cap s o s' e : lstep cap s o = Ok (s', e) -> lk_flag s = true -> lk_flag s' = true.
Proof. intros E F. destruct o as [c|i b]; [injection E as <- _; exact F|]. cbn [lstep] in E. moves E; cbn [lk_flag] in *; congruence. Qed.
Lemma invf_step cap s tr o s' e : inva s -> invf s tr -> lstep cap s o = Ok (s', e) -> invf s' (tr ++ e).
Proof.
  intros (T & _) (U & R) E. pose proof (flag_kept _ _ _ _ _ E) as K. split.
  - intros j A1. destruct o as [c|i b].
    + injection E as <- <-. cbn [lk_pcs lk_flag] in *. apply nth_error_snoc in A1. destruct A1 as [A1|[_ A1]]; [eapply U; eassumption|now destruct c].
    + cbn [lstep] in E. moves E; cbn [lk_pcs lk_flag] in *; try (apply nth_error_snoc in A1; destruct A1 as [A1|[_ A1]]; [|discriminate]);
      try (eapply U; eassumption);
      try (rewrite goto_at, A in A1; destruct (Nat.eqb_spec i j); [try discriminate A1; try reflexivity|]); try (apply K; eapply U; eassumption); try reflexivity.
  - intros j r0 X Ne. apply in_app_iff in X. destruct X as [X|X]; [apply K; eapply R; eassumption|].
    destruct o as [c|i b]; [injection E as <- <-; destruct X as [X|[]]; discriminate|].
    cbn [lstep] in E. moves E; try (destruct X as [X|[]]); try discriminate; try (now destruct X); cbn [lk_flag] in *; try reflexivity;
    try (injection X as _ <-; congruence).
    + exact (U _ A).
    + pose proof (tok_flag _ i _ T A eq_refl) as F. unfold tok_flags in T. rewrite F in T. now destruct T.
Qed.

Definition invw (s : link) (tr : list lev) : Prop :=
  match nth_error (lk_pcs s) 0 with
  | Some LSelect => wrotes tr = tooks tr
  | Some (LSend m) => tooks tr = wrotes tr ++ [m]
  | _ => exists rest, tooks tr = wrotes tr ++ rest /\ (length rest <= 1)%nat
  end.
Lemma invw_weak s tr : invw s tr -> exists rest, tooks tr = wrotes tr ++ rest /\ (length rest <= 1)%nat.
Proof.
  unfold invw. intro H. destruct (nth_error (lk_pcs s) 0) as [[]|]; try exact H.
  - exists []. rewrite app_nil_r. split; [now rewrite H|cbn; lia].
  - exists [m]. split; [exact H|cbn; lia].
Qed.
Lemma invw_quiet s s' tr e : invw s tr -> wrotes e = [] -> tooks e = [] ->
  nth_error (lk_pcs s') 0 = nth_error (lk_pcs s) 0 \/ (match nth_error (lk_pcs s') 0 with Some LSelect | Some (LSend _) => False | _ => True end) -> invw s' (tr ++ e).
Proof.
  intros H We Te O. pose proof (invw_weak _ _ H) as Wk. unfold invw in *. rewrite wrotes_app, tooks_app, We, Te, !app_nil_r.
  destruct O as [->|O]; [exact H|]. destruct (nth_error (lk_pcs s') 0) as [[]|]; try destruct O; exact Wk.
Qed.
Lemma invw_step cap s tr o s' e : invd s tr -> invw s tr -> lstep cap s o = Ok (s', e) -> invw s' (tr ++ e).
Proof.
  intros (N & D & _) H E. destruct o as [c|i b].
  - injection E as <- <-. apply (invw_quiet s); auto. left. cbn [lk_pcs]. destruct (lk_pcs s); [congruence|reflexivity].
  - cbn [lstep] in E. pose proof (D i) as Di. moves E; cbn [lk_pcs] in *; try specialize (Di _ A);
    try (apply (invw_quiet _ _ _ _ H); [reflexivity|reflexivity|]; cbn [lk_pcs];
         try (rewrite (nth_error_app1 (goto _ _ _)) by (rewrite goto_length; apply at_lt in A; lia)); rewrite ?goto_at, ?A; try (destruct (Nat.eqb_spec i 0); [right|left; reflexivity]; exact I); now left).
    all: destruct Di as [-> _]; unfold invw in *; cbn [lk_pcs] in *; rewrite A in H; rewrite ?goto_at, A, wrotes_app, tooks_app; cbn [Nat.eqb wrotes tooks flat_map app]; rewrite ?app_nil_r; congruence.
Qed.

Definition invz (cap : nat) (s : link) (tr : list lev) : Prop := invall cap s tr /\ invd s tr /\ invf s tr /\ invw s tr.
Lemma invz_run cap os s tr : lrun cap fresh_link os = Ok (s, tr) -> invz cap s tr.
Proof.
  apply (lrun_inv cap (invz cap)).
  - split; [|split; [|split]].
    + apply (invall_run cap []). reflexivity.
    + apply (invd_run cap []). reflexivity.
    + split; [intros [|[|]] A; discriminate|intros i r []].
    + reflexivity.
  - intros s0 t0 o s' e ((V & Q & M) & D & F & Wt) E. split; [|split; [|split]].
    + split; [eapply inva_step; eassumption|split; [eapply invq_step; eassumption|eapply invm_step; eassumption]].
    + eapply invd_step; eassumption.
    + eapply invf_step; eassumption.
    + eapply invw_step; eassumption.
Qed.

(** ** C187 *)

Lemma in_order cap os s tr : lrun cap fresh_link os = Ok (s, tr) ->
  exists waiting pending, puts tr = tooks tr ++ waiting /\ (length waiting <= cap)%nat /\ tooks tr = wrotes tr ++ pending /\ (length pending <= 1)%nat.
Proof.
  intro E. destruct (invz_run _ _ _ _ E) as ((_ & (P & L & _) & _) & _ & _ & Wt). apply invw_weak in Wt. destruct Wt as (r & Wr & Lr).
  exists (lk_queue s), r. auto.
Qed.
Lemma mine_in i e tr : In e tr -> match e with Called j _ | Put j _ | Won j | Added j _ | Returned j _ => i = j | _ => False end -> In e (mine i tr).
Proof. intros H X. apply filter_In. split; [exact H|]. destruct e; try destruct X; apply Nat.eqb_refl. Qed.
Lemma mine_was i e tr : In e (mine i tr) -> In e tr.
Proof. intro H. apply filter_In in H. apply H. Qed.
Lemma calls_end cap os s tr i c r : lrun cap fresh_link os = Ok (s, tr) -> In (Called i c) tr -> In (Returned i r) tr -> ended i c (mine i tr).
Proof.
  intros E Hc Hr. destruct (invz_run _ _ _ _ E) as (_ & (N & D & L) & _).
  apply (mine_in i) in Hc; [|reflexivity]. apply (mine_in i) in Hr; [|reflexivity].
  destruct (nth_error (lk_pcs s) i) as [p|] eqn:A.
  - specialize (D i p A). destruct p; cbn [did] in D.
    all: try (match goal with D : match ?x with _ => _ end |- _ => destruct x end).
    all: try (match goal with D : match ?x with _ => _ end |- _ => destruct x end).
    all: unfold callers in *.
    all: repeat match goal with
         | D : exists _, _ |- _ => destruct D as [? D]
         | D : _ \/ _ |- _ => destruct D as [D|D]
         | D : _ /\ _ |- _ => destruct D
         | D : False |- _ => destruct D
         end.
    all: try (match goal with D : mine _ _ = _ |- _ => rewrite D in Hc, Hr; cbn in Hc, Hr; intuition discriminate end).
    match goal with D : ended i ?c' _ |- _ => assert (c' = c) as <-; [|exact D]; destruct D; cbn in Hc; intuition congruence end.
  - apply nth_error_None in A. rewrite (L i A) in Hc. destruct Hc.
Qed.
Lemma put_by_send cap os s tr i m : lrun cap fresh_link os = Ok (s, tr) -> In (Put i m) tr ->
  mine i tr = [Called i (CallSend m); Put i m] \/ mine i tr = [Called i (CallSend m); Put i m; Returned i RNil].
Proof.
  intros E Hc. destruct (invz_run _ _ _ _ E) as (_ & (N & D & L) & _).
  apply (mine_in i) in Hc; [|reflexivity].
  destruct (nth_error (lk_pcs s) i) as [p|] eqn:A.
  - specialize (D i p A). destruct p; cbn [did] in D.
    all: try (match goal with D : match ?x with _ => _ end |- _ => destruct x end).
    all: try (match goal with D : match ?x with _ => _ end |- _ => destruct x end).
    all: unfold callers in *.
    all: repeat match goal with
         | D : exists _, _ |- _ => destruct D as [? D]
         | D : _ \/ _ |- _ => destruct D as [D|D]
         | D : _ /\ _ |- _ => destruct D
         | D : False |- _ => destruct D
         end.
    all: try (match goal with D : mine _ _ = _ |- _ => rewrite D in *; cbn in Hc; intuition (try discriminate) end).
    + left. injection H0 as ->. reflexivity.
    + match goal with D : ended i ?c' _ |- _ => destruct D; cbn in Hc; intuition (try discriminate) end. injection H0 as ->. now right.
  - apply nth_error_None in A. rewrite (L i A) in Hc. destruct Hc.
Qed.
Lemma milestones_in tr e : In e (milestones tr) -> In e tr.
Proof. intro H. apply in_flat_map in H. destruct H as (x & I1 & H). destruct x; cbn in H; intuition (try discriminate); subst; assumption. Qed.
Lemma in_milestones tr e : In e tr -> match e with Won _ | CodecClosed | Invoked => True | _ => False end -> In e (milestones tr).
Proof. intros H X. apply in_flat_map. exists e. split; [exact H|]. destruct e; try destruct X; now left. Qed.
Lemma flag_won cap s tr : invall cap s tr -> (lk_flag s = true <-> exists j, In (Won j) tr).
Proof.
  intros ((T & _) & _ & M). unfold tok_flags in T. unfold invm in M. split.
  - intro F. assert (exists j, In (Won j) (milestones tr)) as (j & H); [|exists j; now apply milestones_in].
    destruct (filter tok (lk_pcs s)) as [|p l].
    + destruct M as [(F' & _)|(_ & (j & ->) & _)]; [congruence|]. exists j. now left.
    + destruct p; destruct M as ((j & ->) & _); exists j; now left.
  - intros (j & H). apply in_milestones in H; [|exact I].
    destruct (filter tok (lk_pcs s)) as [|p [|]]; [|now destruct T|destruct T].
    destruct M as [(_ & M & _)|(F & _)]; [rewrite M in H; destruct H|exact F].
Qed.
Lemma errors_closed cap os s tr i r : lrun cap fresh_link os = Ok (s, tr) -> In (Returned i r) tr -> r <> RNil -> exists j, In (Won j) tr.
Proof.
  intros E H Ne. destruct (invz_run _ _ _ _ E) as (V & _ & (_ & R) & _). apply (flag_won cap s tr V). eapply R; eassumption.
Qed.
Lemma milestones_once cap os s tr : lrun cap fresh_link os = Ok (s, tr) -> exists j rest, milestones tr ++ rest = [Won j; CodecClosed; Invoked].
Proof.
  intro E. destruct (invz_run _ _ _ _ E) as ((_ & _ & M) & _). unfold invm in M.
  destruct (filter tok (lk_pcs s)) as [|p l].
  - destruct M as [(_ & -> & _)|(_ & (j & ->) & _)]; [exists 0%nat|exists j, []]; [eexists|]; reflexivity.
  - destruct p; destruct M as ((j & ->) & _); exists j; eexists; cbn; reflexivity.
Qed.
Lemma callbacks_run cap os s tr : lrun cap fresh_link os = Ok (s, tr) ->
  (~ In Invoked tr -> rans tr = []) /\ (In Invoked tr -> exists a b rest, tr = a ++ Invoked :: b /\ addeds a = rans tr ++ rest).
Proof.
  intro E. destruct (invz_run _ _ _ _ E) as ((_ & _ & M) & _). unfold invm in M.
  assert (B : forall rest, before_invoked tr rest -> (~ In Invoked tr -> rans tr = []) /\ (In Invoked tr -> exists a b rest, tr = a ++ Invoked :: b /\ addeds a = rans tr ++ rest)).
  { intros rest (a & b & T & H). split; [intro X; exfalso; apply X; rewrite T; apply in_elt|]. intros _. now exists a, b, rest. }
  assert (C : rans tr = [] -> (forall l, milestones tr = l -> ~ In Invoked l) -> (~ In Invoked tr -> rans tr = []) /\ (In Invoked tr -> exists a b rest, tr = a ++ Invoked :: b /\ addeds a = rans tr ++ rest)).
  { intros R X. split; [now intro|]. intro H. exfalso. apply (X _ eq_refl). now apply in_milestones. }
  destruct (filter tok (lk_pcs s)) as [|p l].
  - destruct M as [(_ & M & R)|(_ & _ & H)]; [|now apply (B [])]. apply C; [exact R|]. intros l <-. rewrite M. intros [].
  - destruct p; destruct M as ((j & M) & R); try (apply (B _ R)); (apply C; [exact R|]; intros l' <-; rewrite M; cbn; intuition discriminate).
Qed.

Lemma lrun_split cap : forall os s s' tr a e b, lrun cap s os = Ok (s', tr) -> tr = a ++ e :: b ->
  exists os1 o os2 s1 s2, lrun cap s os1 = Ok (s1, a) /\ lstep cap s1 o = Ok (s2, [e]) /\ lrun cap s2 os2 = Ok (s', b).
Proof.
  assert (One : forall s o s' e, lstep cap s o = Ok (s', e) -> e = [] \/ exists x, e = [x]).
  { intros s o s' e E. destruct o as [c|i b]; [injection E as _ <-; right; eexists; reflexivity|]. cbn [lstep] in E. moves E; eauto. }
  induction os as [|o t IH]; intros s s' tr a e b E T; cbn [lrun] in E.
  - injection E as _ <-. destruct a; discriminate.
  - destruct (lstep cap s o) as [[s1 e1]| |] eqn:E1; try discriminate. cbn [bind] in E.
    destruct (lrun cap s1 t) as [[s2 e2]| |] eqn:E2; try discriminate. injection E as <- <-.
    destruct (One _ _ _ _ E1) as [->|(x & ->)].
    + destruct (IH _ _ _ a e b E2 T) as (os1 & o' & os2 & sa & sb & R1 & R2 & R3).
      exists (o :: os1), o', os2, sa, sb. cbn [lrun]. rewrite E1. cbn [bind]. rewrite R1. cbn [bind]. now split.
    + destruct a as [|y a'].
      * cbn in T. injection T as -> T. subst e2. exists [], o, t, s, s1. now repeat split.
      * cbn in T. injection T as -> T. destruct (IH _ _ _ a' e b E2 T) as (os1 & o' & os2 & sa & sb & R1 & R2 & R3).
        exists (o :: os1), o', os2, sa, sb. cbn [lrun]. rewrite E1. cbn [bind]. rewrite R1. cbn [bind]. now split.
Qed.

(** once the flag is set, goroutines that begin do little *)
Definition late (p : pc) : bool :=
  match p with SLock _ | SCheck _ | SUnlock RClosed | CSwap _ | ACheck _ | KLock | KRun _ | KUnlock | Done _ => true | _ => false end.
Definition invl (n : nat) (s : link) (tr : list lev) : Prop :=
  lk_flag s = true /\ (n <= length (lk_pcs s))%nat /\ (forall i p, (n <= i)%nat -> nth_error (lk_pcs s) i = Some p -> late p = true) /\
  (forall i c, In (Called i c) tr -> (n <= i)%nat) /\ (forall i m, (n <= i)%nat -> ~ In (Put i m) tr /\ ~ In (Added i m) tr).
Lemma invl_step cap n s tr o s' e : invl n s tr -> lstep cap s o = Ok (s', e) -> invl n s' (tr ++ e).
Proof.
  intros (F & L & P & C & Q) E. split; [eapply flag_kept; eassumption|]. destruct o as [c|i b].
  - injection E as <- <-. cbn [lk_pcs]. rewrite app_length. split; [lia|split; [|split]].
    + intros i p Hi A. apply nth_error_snoc in A. destruct A as [A|[_ ->]]; [now apply (P i)|now destruct c].
    + intros i c' H. apply in_app_iff in H. destruct H as [H|[H|[]]]; [eapply C; eassumption|]. injection H as <- _. exact L.
    + intros i m Hi. destruct (Q i m Hi) as [Q1 Q2]. split; intro H; apply in_app_iff in H; destruct H as [H|[H|[]]]; auto; discriminate.
  - cbn [lstep] in E. pose proof (P i) as Pi. 
    assert (Len : (length (lk_pcs s) <= length (lk_pcs s'))%nat) by (moves E; cbn [lk_pcs]; rewrite ?app_length, ?goto_length; lia).
    split; [lia|split; [|split]].
    + intros j p Hj A1. pose proof (P j) as Pj.
      moves E; cbn [lk_pcs lk_flag] in *; try discriminate;
      try (apply nth_error_snoc in A1; destruct A1 as [A1|[_ ->]]; [|reflexivity]); auto;
      try (rewrite goto_at, A in A1; destruct (Nat.eqb_spec i j) as [->|]; [injection A1 as <-; try reflexivity; specialize (Pi _ Hj A); try discriminate Pi|]); auto.
    + intros j c H. apply in_app_iff in H. destruct H as [H|H]; [eapply C; eassumption|]. exfalso. moves E; cbn in H; intuition discriminate.
    + intros j m Hj. destruct (Q j m Hj) as [Q1 Q2].
      split; intro H; apply in_app_iff in H; destruct H as [H|H]; auto; moves E; cbn in H; try (now destruct H); destruct H as [H|[]]; try discriminate H; injection H as -> ->;
      specialize (Pi _ Hj A); discriminate Pi.
Qed.
Lemma closed_refuses cap os s a j b i c : lrun cap fresh_link os = Ok (s, a ++ Won j :: b) -> In (Called i c) b ->
  forall x, ~ In (Put i x) (a ++ Won j :: b) /\ ~ In (Added i x) (a ++ Won j :: b).
Proof.
  intros E Hc x. destruct (lrun_split _ _ _ _ _ a (Won j) b E eq_refl) as (os1 & o & os2 & s1 & s2 & R1 & R2 & R3).
  assert (F : lk_flag s2 = true).
  { destruct o as [c'|i' b']; [discriminate|]. cbn [lstep] in R2. moves R2; try discriminate; reflexivity. }
  assert (D : invd s2 (a ++ [Won j])).
  { apply (invd_step cap s1 a o); [|exact R2]. now apply (invd_run cap os1). }
  assert (I0 : invl (length (lk_pcs s2)) s2 []).
  { split; [exact F|split; [lia|split; [|split]]].
    - intros k p Hk A. apply at_lt in A. lia.
    - intros k c' [].
    - intros k m _. split; intros []. }
  pose proof (lrun_ind cap (invl (length (lk_pcs s2))) (fun s t o s' e => invl_step cap (length (lk_pcs s2)) s t o s' e) os2 s2 [] s b I0 R3) as (_ & _ & _ & C & Q).
  cbn [app] in C, Q. pose proof (C _ _ Hc) as Hi. destruct (Q i x Hi) as [Q1 Q2]. destruct D as (_ & _ & D). specialize (D i Hi).
  assert (G : forall e, In e a -> match e with Called j _ | Put j _ | Won j | Added j _ | Returned j _ => i = j | _ => False end -> False).
  { intros e H X. pose proof (mine_in i e (a ++ [Won j])) as Z. rewrite D in Z. apply Z; [apply in_app_iff; now left|exact X]. }
  split; intro H; apply in_app_iff in H; destruct H as [H|[H|H]]; try discriminate; auto; eapply G; [eassumption|reflexivity|eassumption|reflexivity].
Qed.

(** ** C188: at rest *)

Lemma goto_differs : forall l i p q, nth_error l i = Some p -> p <> q -> goto l i q <> l.
Proof. intros l i p q A N H. rewrite <- H in A. rewrite goto_at, Nat.eqb_refl in A. destruct (nth_error l i); congruence. Qed.

(** a goroutine that holds something, or is past the locks, can go on *)
Definition free (p : pc) : bool :=
  match p with SLock _ | CLock _ | KLock | ALock _ | LSelect | Done _ => false | _ => true end.
Lemma free_goes cap s i p : inva s -> nth_error (lk_pcs s) i = Some p -> free p = true -> ~ at_rest cap s.
Proof.
  intros V A P H. destruct (step_total cap s (Move i true) V) as (s' & e & E). cbn [lstep] in E.
  specialize (H i true s' e E). subst s'. destruct s as [fl ch sh q cbs ps]. cbn [lk_pcs] in A. cbn [lmove] in E. rewrite A in E.
  destruct p; try discriminate P; break_in E; try discriminate.
  all: repeat match goal with H : ?x = ?x |- _ => clear H end.
  all: match goal with H : goto ?l ?n ?x = ?l |- _ => exact (goto_differs l n _ x A ltac:(discriminate) H) | _ => idtac end.
  - apply (f_equal (@length pc)) in H0. rewrite app_length, goto_length in H0. cbn in H0. lia.
  - match goal with H : goto ?l ?n ?x = ?l |- _ => refine (goto_differs l n _ x A _ H) end. intro X. injection X as X. apply (f_equal (@length Z)) in X. cbn in X. lia.
Qed.
Lemma held_goes cap s f : inva s -> (forall p, f p = true -> free p = true) -> existsb f (lk_pcs s) = true -> ~ at_rest cap s.
Proof.
  intros V Ff X. apply existsb_exists in X. destruct X as (p & H & P). apply In_nth_error in H. destruct H as [i A].
  apply (free_goes cap s i p V A). now apply Ff.
Qed.
Lemma rest_where cap s i p : inva s -> at_rest cap s -> nth_error (lk_pcs s) i = Some p ->
  (exists r, p = Done r) \/ (p = LSelect /\ lk_queue s = [] /\ lk_chan s = false /\ lk_shut s = false).
Proof.
  intros V H A. destruct (free p) eqn:P; [exfalso; exact (free_goes cap s i p V A P H)|].
  assert (Hw : existsb holds_w (lk_pcs s) = false).
  { apply not_true_iff_false. intro X. revert H. apply (held_goes cap s holds_w V); [|exact X]. intros []; cbn; congruence. }
  assert (Hr : existsb holds_r (lk_pcs s) = false).
  { apply not_true_iff_false. intro X. revert H. apply (held_goes cap s holds_r V); [|exact X]. intros []; cbn; congruence. }
  assert (Hc : existsb holds_c (lk_pcs s) = false).
  { apply not_true_iff_false. intro X. revert H. apply (held_goes cap s holds_c V); [|exact X]. intros []; cbn; congruence. }
  clear V. destruct s as [fl ch sh q cbs ps]. cbn [lk_pcs lk_queue lk_chan lk_shut] in *.
  destruct p; try discriminate P; try (left; eexists; reflexivity).
  1-4: exfalso; specialize (H i true); cbn [lmove] in H; rewrite A, ?Hw, ?Hr, ?Hc in H; cbn [orb] in H; specialize (H _ _ eq_refl); injection H as H;
       match type of H with goto ?l ?n ?x = ?l => exact (goto_differs l n _ x A ltac:(discriminate) H) end.
  right. split; [reflexivity|].
  destruct q as [|m t].
  - split; [reflexivity|]. split.
    + destruct ch; [|reflexivity]. exfalso. specialize (H i false). cbn [lmove] in H. rewrite A in H. specialize (H _ _ eq_refl). injection H as H.
      match type of H with goto ?l ?n ?x = ?l => exact (goto_differs l n _ x A ltac:(discriminate) H) end.
    + destruct sh; [|reflexivity]. exfalso. specialize (H i true). cbn [lmove] in H. rewrite A in H. specialize (H _ _ eq_refl). injection H as H.
      match type of H with goto ?l ?n ?x = ?l => exact (goto_differs l n _ x A ltac:(discriminate) H) end.
  - exfalso. specialize (H i true). cbn [lmove] in H. rewrite A in H. specialize (H _ _ eq_refl). injection H as H. apply (f_equal (@length Z)) in H. cbn in H. lia.
Qed.
Lemma done_returned i r l : did i (Done r) l -> exists r', In (Returned i r') l.
Proof.
  cbn [did]. intros [(c & D)|[(-> & ->)|[(-> & ->)|(_ & ->)]]].
  - destruct D; eexists; cbn; intuition reflexivity.
  - eexists. right. now left.
  - eexists. now left.
  - eexists. now left.
Qed.
Lemma rest_returned cap os s tr i c : lrun cap fresh_link os = Ok (s, tr) -> at_rest cap s -> In (Called i c) tr -> exists r, In (Returned i r) tr.
Proof.
  intros E H Hc. destruct (invz_run _ _ _ _ E) as ((V & _) & (N & D & L) & _). apply (mine_in i) in Hc; [|reflexivity].
  destruct (nth_error (lk_pcs s) i) as [p|] eqn:A; [|apply nth_error_None in A; rewrite (L i A) in Hc; destruct Hc].
  specialize (D i p A). destruct (rest_where cap s i p V H A) as [(r & ->)|(-> & _)].
  - destruct (done_returned i r _ D) as (r' & X). exists r'. now apply mine_was in X.
  - destruct D as [_ D]. rewrite D in Hc. destruct Hc.
Qed.
Lemma loop_not_called cap os s tr c : lrun cap fresh_link os = Ok (s, tr) -> ~ In (Called 0 c) tr.
Proof.
  intro E. cut (invd s tr /\ forall c, ~ In (Called 0 c) tr); [intros [_ H]; apply H|]. revert E.
  apply (lrun_inv cap (fun s tr => invd s tr /\ forall c, ~ In (Called 0 c) tr)).
  - split; [apply (invd_run cap []); reflexivity|intros c' []].
  - intros s0 t0 o s' e [D H] E. split; [eapply invd_step; eassumption|]. intros c' X. apply in_app_iff in X. destruct X as [X|X]; [exact (H _ X)|].
    destruct D as (N & _). destruct o as [c0|i b].
    + injection E as _ <-. destruct X as [X|[]]. injection X as X _. apply length_zero_iff_nil in X. exact (N X).
    + cbn [lstep] in E. moves E; cbn in X; intuition discriminate.
Qed.
Lemma rest_open cap os s tr : lrun cap fresh_link os = Ok (s, tr) -> at_rest cap s -> (forall j, ~ In (Won j) tr) -> wrotes tr = puts tr.
Proof.
  intros E H Nw. destruct (invz_run _ _ _ _ E) as (VA & (N & D & L) & (_ & R) & Wt).
  assert (F : lk_flag s = false). { apply not_true_iff_false. intro X. apply (flag_won cap s tr VA) in X. destruct X as [j X]. exact (Nw j X). }
  destruct VA as (V & (P & _) & _).
  destruct (nth_error (lk_pcs s) 0) as [p|] eqn:A; [|apply nth_error_None in A; destruct (lk_pcs s); [congruence|cbn in A; lia]].
  specialize (D _ _ A). destruct (rest_where cap s _ p V H A) as [(r & ->)|(-> & Q & _)].
  - exfalso. destruct D as [(c & D)|[(_ & D)|[(_ & D)|(X & _)]]]; [| | |congruence].
    + apply (loop_not_called cap os s tr c E). apply (mine_was 0). destruct D; now left.
    + apply (Nw 0%nat). apply (mine_was 0). rewrite D. now left.
    + assert (X : lk_flag s = true); [|congruence]. apply (R 0%nat RClosed); [|discriminate]. apply (mine_was 0). rewrite D. now left.
  - unfold invw in Wt. rewrite A in Wt. rewrite Wt, P, Q, app_nil_r. reflexivity.
Qed.
Lemma rest_closed cap os s tr j : lrun cap fresh_link os = Ok (s, tr) -> at_rest cap s -> In (Won j) tr ->
  In CodecClosed tr /\ (exists r, In (Returned 0 r) tr) /\ exists a b, tr = a ++ Invoked :: b /\ rans tr = addeds a.
Proof.
  intros E H Hw. destruct (invz_run _ _ _ _ E) as (VA & (N & D & L) & _ & _).
  assert (F : lk_flag s = true) by (apply (flag_won cap s tr VA); now exists j).
  destruct VA as (V & _ & M).
  assert (K : filter tok (lk_pcs s) = []).
  { destruct (filter tok (lk_pcs s)) as [|p l] eqn:G; [reflexivity|]. exfalso.
    assert (X : In p (filter tok (lk_pcs s))) by (rewrite G; now left). apply filter_In in X. destruct X as [X P].
    apply In_nth_error in X. destruct X as [i A]. destruct (rest_where cap s i p V H A) as [(r & ->)|(-> & _)]; discriminate. }
  unfold invm in M. rewrite K in M. destruct M as [(X & _)|(_ & (j' & M) & (a & b & T & B))]; [congruence|].
  split; [apply milestones_in; rewrite M; right; now left|split].
  - destruct (nth_error (lk_pcs s) 0) as [p|] eqn:A; [|apply nth_error_None in A; destruct (lk_pcs s); [congruence|cbn in A; lia]].
    destruct (rest_where cap s _ p V H A) as [(r & ->)|(_ & _ & X & _)].
    + destruct (done_returned _ _ _ (D _ _ A)) as (r' & X). exists r'. now apply (mine_was 0).
    + exfalso. destruct V as (T' & _). unfold tok_flags in T'. rewrite K in T'. intuition congruence.
  - exists a, b. split; [exact T|]. now rewrite app_nil_r in B.
Qed.

(** ** C188: it comes to rest *)

Definition adder (p : pc) : nat := match p with ACheck _ | ALock _ | AAdd _ => 1 | _ => 0 end%nat.
Definition weight (B : nat) (p : pc) : nat :=
  match p with
  | SLock _ => B + 18 | SCheck _ => B + 17 | SSelect _ => B + 16 | SUnlock _ => B + 12
  | CSwap _ => B + 11 | CChan _ => B + 10 | CLock _ => B + 9 | CQueue _ => B + 8 | CUnlock _ => B + 7 | CCodec _ => B + 6 | CSpawn _ => B + 5
  | KLock => B + 3 | KRun r => 2 + length r | KUnlock => 1
  | ACheck _ => 4 | ALock _ => 3 | AAdd _ => 2 | AUnlock => 1
  | LSelect => B + 12 | LSend _ => B + 13
  | Done _ => 0
  end%nat.
Definition total (f : pc -> nat) (l : list pc) : nat := list_sum (map f l).
Definition to_run (s : link) : nat := (length (lk_cbs s) + total adder (lk_pcs s))%nat.
Definition measure (s : link) : nat := (2 * length (lk_queue s) + total (weight (to_run s)) (lk_pcs s))%nat.
Lemma total_goto f : forall l i p q, nth_error l i = Some p -> (total f (goto l i q) + f p = total f l + f q)%nat.
Proof.
  unfold total. induction l as [|x t IH]; intros [|i] p q A; cbn in *; try discriminate.
  - injection A as ->. unfold list_sum. cbn. lia.
  - specialize (IH _ _ q A). unfold list_sum in *. cbn in *. lia.
Qed.
Lemma total_app f a b : total f (a ++ b) = (total f a + total f b)%nat.
Proof. unfold total. rewrite map_app. apply list_sum_app. Qed.
Lemma total_mono B B' l : (B <= B')%nat -> (total (weight B) l <= total (weight B') l)%nat.
Proof.
  intro H. unfold total. induction l as [|x t IH]; cbn [map]; [reflexivity|]. unfold list_sum in *. cbn [fold_right].
  assert (weight B x <= weight B' x)%nat by (destruct x; cbn; lia). lia.
Qed.
Lemma less cap s i b s' e : lmove cap s i b = Ok (s', e) -> s' <> s -> (measure s' < measure s)%nat.
Proof.
  intros E Ne. unfold measure.
  assert (T : (to_run s' <= to_run s)%nat).
  { unfold to_run. clear Ne. moves E; cbn [lk_cbs lk_pcs]; try lia;
    (match goal with A : nth_error ?l ?n = Some ?p |- context [goto ?l ?n ?q] => pose proof (total_goto adder l n p q A) end);
    rewrite ?total_app, ?app_length; cbn [adder total map list_sum fold_right length] in *; lia. }
  pose proof (total_mono _ _ (lk_pcs s') T) as Mo.
  enough (2 * length (lk_queue s') + total (weight (to_run s)) (lk_pcs s') < 2 * length (lk_queue s) + total (weight (to_run s)) (lk_pcs s))%nat by lia.
  clear T Mo. assert (Cb : (length (lk_cbs s) <= to_run s)%nat) by (unfold to_run; lia). set (B := to_run s) in *. clearbody B.
  moves E; cbn [lk_queue lk_pcs lk_cbs] in *; try (exfalso; now apply Ne);
    (match goal with A : nth_error ?l ?n = Some ?p |- context [goto ?l ?n ?q] => pose proof (total_goto (weight B) l n p q A) end);
    rewrite ?total_app, ?app_length; cbn [weight total map list_sum fold_right length] in *; lia.
Qed.
Lemma bounded cap s : exists N, forall n s', busy cap s n s' -> (n <= N)%nat.
Proof.
  exists (measure s). intros n s' H. induction H as [s|s i b s1 e n s2 E Ne H IH]; [lia|].
  pose proof (less _ _ _ _ _ _ E Ne). lia.
Qed.

(** for the Examples *)
Lemma rest_if cap s : Forall (fun i => lmove cap s i true = Ok (s, []) /\ lmove cap s i false = Ok (s, [])) (seq 0 (length (lk_pcs s))) -> at_rest cap s.
Proof.
  intros F i b s' e E. destruct (Nat.lt_ge_cases i (length (lk_pcs s))) as [L|L].
  - rewrite Forall_forall in F. destruct (F i) as [Et Ef]; [apply in_seq; lia|]. destruct b; congruence.
  - destruct s as [fl ch sh q cbs ps]. cbn [lk_pcs] in L. cbn [lmove] in E. apply nth_error_None in L. rewrite L in E. congruence.
Qed.

(** ** C189 *)

(** the queue alone *)
Fixpoint replay (cap : nat) (q : list Z) (tr : list lev) : option (list Z) :=
  match tr with
  | [] => Some q
  | Put _ m :: t => if (length q <? cap)%nat then replay cap (q ++ [m]) t else None
  | Took m :: t => match q with x :: q' => if x =? m then replay cap q' t else None | [] => None end
  | _ :: t => replay cap q t
  end.
Lemma replay_app cap : forall a q b, replay cap q (a ++ b) = match replay cap q a with Some q' => replay cap q' b | None => None end.
Proof.
  induction a as [|e t IH]; intros q b; [reflexivity|]. cbn [app replay].
  destruct e; try apply IH.
  - destruct (length q <? cap)%nat; [apply IH|reflexivity].
  - destruct q as [|x q']; [reflexivity|]. destruct (x =? m); [apply IH|reflexivity].
Qed.
Lemma replay_traffic cap : forall tr q, replay cap q (traffic tr) = replay cap q tr.
Proof.
  induction tr as [|e t IH]; intro q; [reflexivity|]. destruct e; cbn [traffic filter is_traffic replay]; try apply IH.
  - destruct (length q <? cap)%nat; [apply IH|reflexivity].
  - destruct q as [|x q']; [reflexivity|]. destruct (x =? m); [apply IH|reflexivity].
Qed.
Lemma replay_run cap os s tr : lrun cap fresh_link os = Ok (s, tr) -> replay cap [] tr = Some (lk_queue s).
Proof.
  apply (lrun_inv cap (fun s tr => replay cap [] tr = Some (lk_queue s))); [reflexivity|].
  intros s0 t0 o s' e H E. rewrite replay_app, H. destruct o as [c|i b]; [injection E as <- <-; reflexivity|].
  cbn [lstep] in E. moves E; cbn [lk_queue replay] in *; try reflexivity.
  - now rewrite B0.
  - now rewrite Z.eqb_refl.
  - now rewrite Z.eqb_refl.
Qed.
(** while the session is open *)
Definition calm (e : lev) : bool := match e with Won _ => false | Returned _ RNil => true | Returned _ _ => false | _ => true end.
Lemma accepts_open cap : forall tr q q' rest, forallb calm tr = true -> replay cap q tr = Some q' -> accepts cap true q' rest -> accepts cap true q (tr ++ rest).
Proof.
  induction tr as [|e t IH]; intros q q' rest C H A; cbn [app].
  - injection H as ->. exact A.
  - cbn [forallb] in C. apply andb_true_iff in C. destruct C as [C1 C2].
    destruct e; cbn [replay] in H; try (apply acc_other; [exact I|]; eapply IH; eassumption).
    + destruct (length q <? cap)%nat eqn:L; [|discriminate]. apply acc_put; [now apply Nat.ltb_lt|]. eapply IH; eassumption.
    + discriminate.
    + destruct q as [|x t']; [discriminate|]. destruct (Z.eqb_spec x m) as [->|]; [|discriminate]. apply acc_took. eapply IH; eassumption.
    + apply acc_added. eapply IH; eassumption.
    + destruct r; try discriminate. apply acc_nil. eapply IH; eassumption.
Qed.
Lemma accepts_closed cap : forall tr q, (forall e, In e tr -> is_traffic e = false /\ match e with Won _ => False | _ => True end) -> accepts cap false q tr.
Proof.
  induction tr as [|e t IH]; intros q H; [constructor|].
  assert (T : accepts cap false q t) by (apply IH; intros x X; apply H; now right).
  destruct (H e (or_introl eq_refl)) as [N W]. destruct e; try discriminate; try destruct W; try (apply acc_other; [exact I|exact T]); [now apply acc_added|now apply acc_error].
Qed.
Lemma traffic_app a b : traffic (a ++ b) = traffic a ++ traffic b. Proof. apply filter_app. Qed.
Lemma conduct_app a b : conduct (a ++ b) = conduct a ++ conduct b. Proof. apply filter_app. Qed.
Lemma traffic_traffic l : traffic (traffic l) = traffic l.
Proof. unfold traffic. induction l as [|e t IH]; [reflexivity|]. cbn. destruct (is_traffic e) eqn:E; cbn; rewrite ?E; congruence. Qed.
Lemma conduct_conduct l : conduct (conduct l) = conduct l.
Proof. unfold conduct. induction l as [|e t IH]; [reflexivity|]. cbn. destruct (is_traffic e) eqn:E; cbn; rewrite ?E; cbn; congruence. Qed.
Lemma traffic_conduct l : traffic (conduct l) = [].
Proof. unfold conduct, traffic. induction l as [|e t IH]; [reflexivity|]. cbn. destruct (is_traffic e) eqn:E; cbn; rewrite ?E; exact IH. Qed.
Lemma conduct_traffic l : conduct (traffic l) = [].
Proof. unfold conduct, traffic. induction l as [|e t IH]; [reflexivity|]. cbn. destruct (is_traffic e) eqn:E; cbn; rewrite ?E; exact IH. Qed.
Lemma filter_filter_and (f g : lev -> bool) l : filter f (filter g l) = filter (fun e => g e && f e) l.
Proof. induction l as [|e t IH]; [reflexivity|]. cbn. destruct (g e); cbn; [destruct (f e)|]; congruence. Qed.
Lemma filter_all (f : lev -> bool) l : (forall e, In e l -> f e = true) -> filter f l = l.
Proof. induction l as [|e t IH]; intro H; [reflexivity|]. cbn. rewrite (H e (or_introl eq_refl)). f_equal. apply IH. intros x X. apply H. now right. Qed.
Lemma mine_traffic i l : mine i (traffic l) = traffic (mine i l).
Proof. unfold mine, traffic. rewrite !filter_filter_and. apply filter_ext. intro e. apply andb_comm. Qed.
Lemma mine_conduct i l : mine i (conduct l) = conduct (mine i l).
Proof. unfold mine, conduct. rewrite !filter_filter_and. apply filter_ext. intro e. apply andb_comm. Qed.
Lemma one_won cap os s a j b : lrun cap fresh_link os = Ok (s, a ++ Won j :: b) -> (forall k, ~ In (Won k) a) /\ (forall k, ~ In (Won k) b).
Proof.
  intro E. destruct (milestones_once _ _ _ _ E) as (j' & rest & M). rewrite milestones_app in M. cbn [milestones flat_map] in M. fold (milestones b) in M.
  assert (Ka : forall k, In (Won k) a -> In (Won k) (milestones a)) by (intros k H; now apply in_milestones).
  assert (Kb : forall k, In (Won k) b -> In (Won k) (milestones b)) by (intros k H; now apply in_milestones).
  rewrite <- app_assoc in M. cbn [app] in M. destruct (milestones a) as [|x l] eqn:X.
  - split; [intros k H; destruct (Ka k H)|]. intros k H. apply Kb in H. cbn in M. injection M as _ M.
    assert (In (Won k) (milestones b ++ rest)) by (apply in_app_iff; now left). rewrite M in H0. cbn in H0. intuition discriminate.
  - exfalso. cbn in M. injection M as _ M. assert (H : In (Won j) (l ++ Won j :: milestones b ++ rest)) by apply in_elt. rewrite M in H. cbn in H. intuition discriminate.
Qed.
Lemma before_won cap os s a : lrun cap fresh_link os = Ok (s, a) -> (forall k, ~ In (Won k) a) -> forallb calm a = true.
Proof.
  intros E N. apply forallb_forall. intros e H. destruct e; try reflexivity.
  - destruct (N _ H).
  - destruct r; [reflexivity|exfalso|exfalso]; destruct (errors_closed _ _ _ _ _ _ E H ltac:(discriminate)) as (j & X); exact (N j X).
Qed.
Lemma linear cap os s tr : lrun cap fresh_link os = Ok (s, tr) ->
  exists tr', conduct tr' = conduct tr /\ traffic tr' = traffic tr /\ (forall i, mine i tr' = mine i tr) /\ accepts cap true [] tr'.
Proof.
  intro E.
  assert (Dec : (exists j, In (Won j) tr) \/ forall j, ~ In (Won j) tr).
  { clear. induction tr as [|e t IH]; [right; intros j []|]. destruct IH as [(j & H)|N]; [left; exists j; now right|].
    destruct e; try (right; intros j [H|H]; [discriminate|exact (N j H)]). left. exists i. now left. }
  destruct Dec as [(j & H)|N].
  2:{ exists tr. repeat split. rewrite <- (app_nil_r tr). eapply accepts_open; [eapply before_won; eassumption|eapply replay_run; eassumption|constructor]. }
  apply in_split in H. destruct H as (a & b & ->).
  destruct (one_won _ _ _ _ _ _ E) as [Na Nb].
  exists (a ++ traffic b ++ Won j :: conduct b). split; [|split; [|split]].
  - rewrite !conduct_app, conduct_traffic. cbn [app conduct filter is_traffic negb]. fold (conduct (conduct b)). now rewrite conduct_conduct.
  - rewrite !traffic_app, traffic_traffic. cbn [app traffic filter is_traffic]. fold (traffic (conduct b)) (traffic b). now rewrite traffic_conduct, app_nil_r.
  - intro i. rewrite !mine_app. f_equal.
    change (Won j :: conduct b) with ([Won j] ++ conduct b). change (Won j :: b) with ([Won j] ++ b). rewrite !mine_app, mine_traffic, mine_conduct.
    assert (Dp : (exists m, In (Put i m) (mine i b)) \/ traffic (mine i b) = []).
    { destruct (traffic (mine i b)) as [|e l] eqn:T; [now right|]. left.
      assert (H : In e (traffic (mine i b))) by (rewrite T; now left). apply filter_In in H. destruct H as [H K]. destruct e; try discriminate.
      - exists m. pose proof H as H'. apply filter_In in H'. destruct H' as [_ H']. apply Nat.eqb_eq in H'. now subst.
      - apply filter_In in H. destruct H as [_ H]. discriminate.
      - apply filter_In in H. destruct H as [_ H]. discriminate. }
    destruct Dp as [(m & P)|T].
    + pose proof (put_by_send _ _ _ _ i m E) as B.
      assert (Pt : In (Put i m) (a ++ Won j :: b)) by (apply in_app_iff; right; right; exact (mine_was i _ _ P)).
      specialize (B Pt). rewrite mine_app in B. change (Won j :: b) with ([Won j] ++ b) in B. rewrite mine_app in B.
      assert (Ca : In (Called i (CallSend m)) (mine i a)).
      { assert (X : In (Called i (CallSend m)) (mine i a ++ mine i [Won j] ++ mine i b)) by (destruct B as [-> | ->]; now left).
        apply in_app_iff in X. destruct X as [X|X]; [exact X|exfalso]. apply in_app_iff in X. destruct X as [X|X].
        - apply mine_was in X. destruct X as [X|[]]. discriminate.
        - apply mine_was in X. exact (proj1 (closed_refuses _ _ _ _ _ _ _ _ E X m) Pt). }
      assert (W0 : mine i [Won j] = []).
      { destruct (mine i [Won j]) as [|e l] eqn:W0; [reflexivity|exfalso].
        assert (X : In e [Won j]) by (apply (mine_was i); rewrite W0; now left). destruct X as [<-|[]].
        assert (X : In (Won j) (mine i a ++ (Won j :: l) ++ mine i b)) by (apply in_elt).
        destruct B as [B|B]; rewrite B in X; cbn in X; intuition discriminate. }
      rewrite W0 in *. cbn [app] in *.
      destruct (mine i a) as [|x [|y l]] eqn:Ma; [destruct Ca| |].
      * cbn [app] in B. destruct B as [B|B]; injection B as _ B; rewrite B; reflexivity.
      * exfalso. destruct B as [B|B]; cbn [app] in B; injection B as _ -> B.
        -- apply app_eq_nil in B. destruct B as [_ B]. rewrite B in P. destruct P.
        -- destruct l as [|z l]; cbn [app] in B; [rewrite B in P; destruct P as [P|[]]; discriminate|].
           injection B as _ B. apply app_eq_nil in B. destruct B as [_ B]. rewrite B in P. destruct P.
    + rewrite T. cbn [app]. f_equal. unfold conduct. apply filter_all. intros e H.
      destruct (is_traffic e) eqn:K; [|reflexivity]. exfalso. assert (X : In e (traffic (mine i b))) by (apply filter_In; now split). rewrite T in X. destruct X.
  - rewrite app_assoc. apply (accepts_open cap _ [] (lk_queue s)).
    + rewrite forallb_app. destruct (lrun_split _ _ _ _ _ a (Won j) b E eq_refl) as (os1 & o & os2 & s1 & s2 & R1 & _).
      rewrite (before_won _ _ _ _ R1 Na). apply forallb_forall. intros e H. apply filter_In in H. destruct H as [_ H]. now destruct e.
    + rewrite <- (replay_run _ _ _ _ E), <- replay_traffic, <- (replay_traffic cap (a ++ Won j :: b)), !traffic_app, traffic_traffic. reflexivity.
    + apply acc_close. apply accepts_closed. intros e H. apply filter_In in H. destruct H as [H K]. split; [now destruct (is_traffic e)|].
      destruct e; try exact I. exact (Nb _ H).
Qed.
