(** Nobody adds a callback while the callbacks are being called. *)
From Verif Require Import Base LibBase Link SpecLink ProofLink.

Definition invc (s : link) : Prop :=
  forall i j p q, nth_error (lk_pcs s) i = Some p -> nth_error (lk_pcs s) j = Some q -> holds_c p = true -> holds_c q = true -> i = j.
Lemma invc_step cap s o s' e : invc s -> lstep cap s o = Ok (s', e) -> invc s'.
Proof.
  intros X E. destruct o as [c|i b].
  - injection E as <- <-. intros i j p q A1 A2 W1 R1. cbn [lk_pcs] in *. at_goto; try (now destruct c). exact (X _ _ _ _ A1 A2 W1 R1).
  - cbn [lstep] in E. moves E; try exact X; intros i1 j1 p1 q1 A1 A2 W1 R1; cbn [lk_pcs] in *; at_goto; try discriminate; try reflexivity;
    try (eapply X; eassumption);
    match goal with
    | B : existsb holds_c ?l = false, A : nth_error ?l ?n = Some ?p, W : holds_c ?p = true |- _ => rewrite (existsb_at _ _ B _ _ A) in W; discriminate W
    | A : nth_error ?l ?n = Some ?p, A' : nth_error ?l ?n' = Some ?q |- ?n = ?n' => apply (X n n' p q A A'); [assumption || reflexivity|assumption || reflexivity]
    | A : nth_error ?l ?n = Some ?p, A' : nth_error ?l ?n' = Some ?q |- ?n' = ?n => apply (X n' n q p A' A); [assumption || reflexivity|assumption || reflexivity]
    end.
Qed.
Lemma invc_run cap os s tr : lrun cap fresh_link os = Ok (s, tr) -> invc s.
Proof.
  intro E. apply (lrun_inv cap (fun s _ => invc s)) with (os := os) (tr := tr); [| |exact E].
  - intros [|[|]] j p q A A' W; cbn in A; try discriminate. injection A as <-. discriminate.
  - intros. eapply invc_step; eassumption.
Qed.
Lemma added_at cap s o s' i f : lstep cap s o = Ok (s', [Added i f]) -> nth_error (lk_pcs s) i = Some (AAdd f).
Proof. intro E. destruct o as [c|j b]; [discriminate|]. cbn [lstep] in E. moves E; try discriminate. match goal with H : [Added _ _] = _ |- _ => injection H as <- <- | H : _ = [Added _ _] |- _ => injection H as <- <- | |- _ => idtac end; assumption. Qed.
Lemma callbacks_apart cap os s a i f b : lrun cap fresh_link os = Ok (s, a ++ Added i f :: b) -> In Invoked a ->
  exists a1 a2, a = a1 ++ Invoked :: a2 /\ rans a = addeds a1.
Proof.
  intros E I0. destruct (lrun_split _ _ _ _ _ _ _ _ E eq_refl) as (os1 & o & os2 & s1 & s2 & R1 & R2 & _).
  pose proof (added_at _ _ _ _ _ _ R2) as At. pose proof (invc_run _ _ _ _ R1) as X. destruct (invz_run _ _ _ _ R1) as ((_ & _ & M) & _).
  unfold invm in M.
  assert (G : forall l, milestones a = l -> ~ In Invoked l -> False). { intros l <- N. apply N. now apply in_milestones. }
  assert (B : before_invoked a [] -> exists a1 a2, a = a1 ++ Invoked :: a2 /\ rans a = addeds a1).
  { intros (a1 & a2 & H1 & H2). exists a1, a2. split; [exact H1|]. now rewrite H2, app_nil_r. }
  destruct (filter tok (lk_pcs s1)) as [|p l] eqn:F.
  - destruct M as [(_ & M & _)|(_ & _ & H)]; [|now apply B]. destruct (G _ M). intros [].
  - assert (P : In p (lk_pcs s1)). { apply (proj1 (filter_In tok p (lk_pcs s1))). rewrite F. now left. }
    apply In_nth_error in P. destruct P as (n & P).
    destruct p; destruct M as ((j & M) & R); try (exfalso; apply (G _ M); cbn; intuition discriminate); [|now apply B].
    exfalso. pose proof (X _ _ _ _ At P eq_refl eq_refl) as ->. rewrite At in P. discriminate.
Qed.
