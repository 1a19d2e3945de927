(** One byte of a frame changed on the way; lemmas behind C166-C168. *)
From Verif Require Import Base LibBase SpecFrame ProofFrame SpecSlip.

Lemma lxor_cancel a b : Z.lxor (Z.lxor a b) b = a.
Proof. rewrite Z.lxor_assoc, Z.lxor_nilpotent, Z.lxor_0_r. reflexivity. Qed.
Lemma lxor_inj a b c : Z.lxor a c = Z.lxor b c -> a = b.
Proof. intros E. rewrite <- (lxor_cancel a c), E, lxor_cancel. reflexivity. Qed.
Lemma lxor_out x y z : Z.lxor x y = z -> x = Z.lxor z y.
Proof. intros <-. symmetry. apply lxor_cancel. Qed.

(** What a receiver reads from the changed bytes *)
Lemma changed_reads P w : escaped P w -> forall u x y v Q, w = u ++ x :: v -> x <> y -> y <> 126 -> reads (u ++ y :: v) Q ->
  xor_all Q <> xor_all P \/ (shorter P Q \/ shorter Q P) /\
  exists z v', v = z :: v' /\ (z = 1 \/ z = 2) /\ (x = 124 /\ y = 125 \/ x = 125 /\ y = 124).
Proof.
  assert (STEP : forall b P Q (X : Prop), (xor_all Q <> xor_all P \/ (shorter P Q \/ shorter Q P) /\ X) -> xor_all (b :: Q) <> xor_all (b :: P) \/ (shorter (b :: P) (b :: Q) \/ shorter (b :: Q) (b :: P)) /\ X).
  { intros b P0 Q0 X [H|[H HX]]; [left|right; split; auto].
    - cbn [xor_all fold_right]. rewrite !(Z.lxor_comm b). intros E. apply H. exact (lxor_inj _ _ _ E).
    - destruct H as [(a & c & [[-> ->]|[-> ->]])|(a & c & [[-> ->]|[-> ->]])]; [left|left|right|right]; exists (b :: a), c; [left|right|left|right]; split; reflexivity. }
  induction 1 as [|p w E IH|p w E IH|b p w B1 B2 E IH]; intros u x y v Q W N D R.
  - destruct u; discriminate.
  - destruct u as [|u1 [|u2 u]]; cbn [app] in W, R; [injection W as W1 W2|injection W as W1 W2 W3|injection W as W1 W2 W3].
    + subst x v. inversion R as [|w0 p0 R0|w0 p0 R0|b0 w0 p0 B0 R0]; subst; try congruence.
      inversion R0 as [| | |b1 w1 p1 B1 R1]; subst. assert (p1 = p) as -> by (eapply reads_fun; [exact R1|apply escaped_reads; exact E]).
      destruct (Z.eq_dec y 124) as [->|NY].
      * right. split; [right; exists [], p; right; split; reflexivity|]. exists 2, w. auto.
      * left. cbn [xor_all fold_right]. rewrite <- Z.lxor_assoc. intros X. apply lxor_inj in X. apply NY. apply lxor_out in X. exact X.
    + subst u1. subst x v. inversion R as [|w0 p0 R0|w0 p0 R0|b0 w0 p0 B0 R0]; subst; try congruence.
      assert (p0 = p) as -> by (eapply reads_fun; [exact R0|apply escaped_reads; exact E]).
      left. cbn [xor_all fold_right]. intros X. apply lxor_inj in X. discriminate.
    + subst u1. subst u2. inversion R as [|w0 p0 R0|w0 p0 R0|b0 w0 p0 B0 R0]; subst; try congruence.
      apply STEP. exact (IH u x y v p0 eq_refl N D R0).
  - destruct u as [|u1 [|u2 u]]; cbn [app] in W, R; [injection W as W1 W2|injection W as W1 W2 W3|injection W as W1 W2 W3].
    + subst x v. inversion R as [|w0 p0 R0|w0 p0 R0|b0 w0 p0 B0 R0]; subst; try congruence.
      inversion R0 as [| | |b1 w1 p1 B1 R1]; subst. assert (p1 = p) as -> by (eapply reads_fun; [exact R1|apply escaped_reads; exact E]).
      destruct (Z.eq_dec y 124) as [->|NY].
      * right. split; [right; exists [], p; left; split; reflexivity|]. exists 1, w. auto.
      * left. cbn [xor_all fold_right]. rewrite <- Z.lxor_assoc. intros X. apply lxor_inj in X. apply NY. apply lxor_out in X. exact X.
    + subst u1. subst x v. inversion R as [|w0 p0 R0|w0 p0 R0|b0 w0 p0 B0 R0]; subst; try congruence.
      assert (p0 = p) as -> by (eapply reads_fun; [exact R0|apply escaped_reads; exact E]).
      left. cbn [xor_all fold_right]. intros X. apply lxor_inj in X. discriminate.
    + subst u1. subst u2. inversion R as [|w0 p0 R0|w0 p0 R0|b0 w0 p0 B0 R0]; subst; try congruence.
      apply STEP. exact (IH u x y v p0 eq_refl N D R0).
  - destruct u as [|u1 u]; cbn [app] in W, R; injection W as W1 W2.
    + subst x v. inversion R as [|w0 p0 R0|w0 p0 R0|b0 w0 p0 B0 R0]; subst.
      * inversion E as [| | |b1 p1 w1 F1 F2 E1]; subst. assert (p0 = p1) as -> by (eapply reads_fun; [exact R0|apply escaped_reads; exact E1]).
        destruct (Z.eq_dec b 124) as [->|NB].
        -- right. split; [left; exists [], p1; left; split; reflexivity|]. exists 1, w0. auto.
        -- left. cbn [xor_all fold_right]. rewrite <- Z.lxor_assoc. intros X. apply lxor_inj in X. symmetry in X. apply NB. apply lxor_out in X. exact X.
      * inversion E as [| | |b1 p1 w1 F1 F2 E1]; subst. assert (p0 = p1) as -> by (eapply reads_fun; [exact R0|apply escaped_reads; exact E1]).
        destruct (Z.eq_dec b 124) as [->|NB].
        -- right. split; [left; exists [], p1; right; split; reflexivity|]. exists 2, w0. auto.
        -- left. cbn [xor_all fold_right]. rewrite <- Z.lxor_assoc. intros X. apply lxor_inj in X. symmetry in X. apply NB. apply lxor_out in X. exact X.
      * assert (p0 = p) as -> by (eapply reads_fun; [exact R0|apply escaped_reads; exact E]).
        left. cbn [xor_all fold_right]. intros X. apply lxor_inj in X. congruence.
    + subst u1. inversion R as [|w0 p0 R0|w0 p0 R0|b0 w0 p0 B0 R0]; subst; try congruence.
      apply STEP. exact (IH u x y v p0 eq_refl N D R0).
Qed.

(** After a slip there is something to read *)
Lemma slip_reads P w : escaped P w -> forall u x y z v, w = u ++ x :: z :: v -> (x = 124 /\ y = 125 \/ x = 125 /\ y = 124) -> (z = 1 \/ z = 2) ->
  exists Q, reads (u ++ y :: z :: v) Q /\ (shorter P Q \/ shorter Q P) /\ xor_all Q = xor_all P.
Proof.
  assert (STEP : forall b w P (Q : bytes), b <> 125 -> reads w Q /\ (shorter P Q \/ shorter Q P) /\ xor_all Q = xor_all P ->
    reads (b :: w) (b :: Q) /\ (shorter (b :: P) (b :: Q) \/ shorter (b :: Q) (b :: P)) /\ xor_all (b :: Q) = xor_all (b :: P)).
  { intros b w0 P0 Q0 B (R & H & X). split; [constructor; auto|]. split; [|cbn [xor_all fold_right]; f_equal; exact X].
    destruct H as [(a & c & [[-> ->]|[-> ->]])|(a & c & [[-> ->]|[-> ->]])]; [left|left|right|right]; exists (b :: a), c; [left|right|left|right]; split; reflexivity. }
  assert (STEP2 : forall b w e P (Q : bytes), (b = 125 /\ e = 1 \/ b = 126 /\ e = 2) -> reads w Q /\ (shorter P Q \/ shorter Q P) /\ xor_all Q = xor_all P ->
    reads (125 :: e :: w) (b :: Q) /\ (shorter (b :: P) (b :: Q) \/ shorter (b :: Q) (b :: P)) /\ xor_all (b :: Q) = xor_all (b :: P)).
  { intros b w0 e P0 Q0 B (R & H & X). split; [destruct B as [[-> ->]|[-> ->]]; constructor; auto|]. split; [|cbn [xor_all fold_right]; f_equal; exact X].
    destruct H as [(a & c & [[-> ->]|[-> ->]])|(a & c & [[-> ->]|[-> ->]])]; [left|left|right|right]; exists (b :: a), c; [left|right|left|right]; split; reflexivity. }
  induction 1 as [|p w E IH|p w E IH|b p w B1 B2 E IH]; intros u x y z v W XY Z0.
  - destruct u; discriminate.
  - destruct u as [|u1 [|u2 u]]; cbn [app] in W; injection W as W1 W2 W3.
    + subst x. subst z v. destruct XY as [[? _]|[_ ->]]; [discriminate|].
      exists (124 :: 2 :: p). split; [constructor; [discriminate|]; constructor; [discriminate|]; apply escaped_reads; exact E|]. split; [right; exists [], p; right; split; reflexivity|].
      cbn [xor_all fold_right]. rewrite <- Z.lxor_assoc. reflexivity.
    + lia.
    + subst u1 u2. destruct (IH u x y z v W3 XY Z0) as (Q & H). exists (126 :: Q). cbn [app]. apply STEP2; auto.
  - destruct u as [|u1 [|u2 u]]; cbn [app] in W; injection W as W1 W2 W3.
    + subst x. subst z v. destruct XY as [[? _]|[_ ->]]; [discriminate|].
      exists (124 :: 1 :: p). split; [constructor; [discriminate|]; constructor; [discriminate|]; apply escaped_reads; exact E|]. split; [right; exists [], p; left; split; reflexivity|].
      cbn [xor_all fold_right]. rewrite <- Z.lxor_assoc. reflexivity.
    + lia.
    + subst u1 u2. destruct (IH u x y z v W3 XY Z0) as (Q & H). exists (125 :: Q). cbn [app]. apply STEP2; auto.
  - destruct u as [|u1 u]; cbn [app] in W; injection W as W1 W2.
    + subst b w. destruct XY as [[-> ->]|[-> _]]; [|congruence].
      destruct Z0 as [-> | ->]; inversion E as [| | |b1 p1 w1 F1 F2 E1]; subst.
      * exists (125 :: p1). split; [constructor; apply escaped_reads; exact E1|]. split; [left; exists [], p1; left; split; reflexivity|].
        cbn [xor_all fold_right]. rewrite <- Z.lxor_assoc. reflexivity.
      * exists (126 :: p1). split; [constructor; apply escaped_reads; exact E1|]. split; [left; exists [], p1; right; split; reflexivity|].
        cbn [xor_all fold_right]. rewrite <- Z.lxor_assoc. reflexivity.
    + subst u1. destruct (IH u x y z v W2 XY Z0) as (Q & H). exists (b :: Q). cbn [app]. apply STEP; auto.
Qed.
