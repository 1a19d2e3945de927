(** One byte of a frame changed on the way: the frame and the message; lemmas behind C166-C168. *)
From Verif Require Import Base LibBase Bits LibBits Bcd LibBcd Env Registry Message SpecFrame ProofFrame ProofHeader SpecMsg ProofMsg SpecSlip ProofSlip.

Lemma escaped_app a b v w : escaped a v -> escaped b w -> escaped (a ++ b) (v ++ w).
Proof. induction 1; intros; cbn [app]; auto; constructor; auto. Qed.
Lemma xor_whole p : xor_all (p ++ [xor_all p]) = 0.
Proof. rewrite xor_all_app. cbn [xor_all fold_right]. rewrite Z.lxor_0_r. apply Z.lxor_nilpotent. Qed.
Lemma frame_wire p data : frame p (xor_all p) data -> exists w, data = [126] ++ w ++ [126] /\ escaped (p ++ [xor_all p]) w.
Proof.
  intros (w & v & E & F & ->). exists (w ++ v). rewrite <- app_assoc. split; [reflexivity|]. apply escaped_app; auto.
Qed.
Lemma interior (a b : bytes) : [126] ++ a ++ [126] = [126] ++ b ++ [126] -> a = b.
Proof. intros H. injection H as H. apply app_inj_tail in H. tauto. Qed.
Lemma reads_app a b v w : reads v a -> reads w b -> reads (v ++ w) (a ++ b).
Proof. induction 1; intros; cbn [app]; auto; constructor; auto. Qed.
(** The last byte read is one byte, or two, of the wire *)
Lemma reads_last_split w p c : reads w (p ++ [c]) -> exists w1 v, w = w1 ++ v /\ reads w1 p /\ checksum_sent c v.
Proof.
  intros H. remember (p ++ [c]) as q eqn:E. revert p E. induction H as [|w q H IH|w q H IH|b w q B H IH]; intros p E.
  - destruct p; discriminate.
  - destruct p as [|x p]; cbn [app] in E; injection E as E1 E2.
    + subst c q. inversion H; subst. exists [], [125; 1]. split; [reflexivity|]. split; [constructor|right; left; auto].
    + subst x. destruct (IH p E2) as (w1 & v & -> & R & C). exists (125 :: 1 :: w1), v. split; [reflexivity|]. split; [constructor; auto|auto].
  - destruct p as [|x p]; cbn [app] in E; injection E as E1 E2.
    + subst c q. inversion H; subst. exists [], [125; 2]. split; [reflexivity|]. split; [constructor|right; right; auto].
    + subst x. destruct (IH p E2) as (w1 & v & -> & R & C). exists (125 :: 2 :: w1), v. split; [reflexivity|]. split; [constructor; auto|auto].
  - destruct p as [|x p]; cbn [app] in E; injection E as E1 E2.
    + subst c q. inversion H; subst. exists [], [b]. split; [reflexivity|]. split; [constructor|left; auto].
    + subst x. destruct (IH p E2) as (w1 & v & -> & R & C). exists (b :: w1), v. split; [reflexivity|]. split; [constructor; auto|auto].
Qed.
(** What the changed frame carries, read as a whole *)
Lemma carries_whole w q : carries ([126] ++ w ++ [126]) q -> reads w (q ++ [xor_all q]) \/ exists w0, w = w0 ++ [125] /\ reads w0 q /\ xor_all q = 125.
Proof.
  intros (_ & w1 & v & E & R & C). rewrite app_assoc in E. rewrite <- (app_assoc [126]) in E. change ([126] ++ w ++ [126] = [126] ++ (w1 ++ v ++ [126])) in E. rewrite (app_assoc w1) in E. apply interior in E. subst w.
  destruct C as [->|[[C ->]|[C ->]]].
  - destruct (Z.eq_dec (xor_all q) 125) as [Q|Q]; [right; exists w1; rewrite Q; auto|left]. apply reads_app; auto. constructor; [exact Q|constructor].
  - left. rewrite C. apply reads_app; auto. repeat constructor.
  - left. rewrite C. apply reads_app; auto. repeat constructor.
Qed.
Lemma reads_snoc P w x : escaped P (w ++ [x]) -> forall q, reads w q -> P = q ++ [x].
Proof.
  intros E q R. pose proof (escaped_last _ _ _ _ E eq_refl) as N. assert (R' : reads (w ++ [x]) (q ++ [x])) by (apply reads_app; auto; constructor; [exact N|constructor]).
  eapply reads_fun; [apply escaped_reads; exact E|exact R'].
Qed.

Lemma mangled_noticed p data data' q : frame p (xor_all p) data -> mangled data data' -> carries data' q ->
  slip data data' /\ (shorter (p ++ [xor_all p]) (q ++ [xor_all q]) \/ shorter (q ++ [xor_all q]) (p ++ [xor_all p])).
Proof.
  intros F (u & x & y & v & D & D' & N & Y) C. destruct (frame_wire p data F) as (w & D2 & E). rewrite D in D2.
  assert (W : w = u ++ x :: v). { symmetry. apply interior. rewrite <- app_assoc. exact D2. }
  assert (C' : carries ([126] ++ (u ++ y :: v) ++ [126]) q) by (rewrite <- app_assoc; rewrite D' in C; exact C).
  destruct (carries_whole _ _ C') as [R|(w0 & W0 & R & X)].
  - destruct (changed_reads _ _ E u x y v _ W N Y R) as [H|[S (z & v' & V & Z0 & XY)]].
    + exfalso. apply H. rewrite !xor_whole. reflexivity.
    + split; [|exact S]. exists u, x, y, z, v'. subst v. split; [exact D|]. split; [exact D'|]. auto.
  - exfalso. destruct (last_case v) as [->|(v' & l & ->)].
    + apply app_inj_tail in W0 as [<- ->]. rewrite W in E. pose proof (reads_snoc _ _ _ E q R) as P. apply app_inj_tail in P as [-> P]. congruence.
    + rewrite app_comm_cons, app_assoc in W0. apply app_inj_tail in W0 as [_ ->]. rewrite W, app_comm_cons, app_assoc in E. exact (escaped_last _ _ _ _ E eq_refl eq_refl).
Qed.
Lemma slip_carries p data data' : frame p (xor_all p) data -> slip data data' ->
  exists q, carries data' q /\ (shorter (p ++ [xor_all p]) (q ++ [xor_all q]) \/ shorter (q ++ [xor_all q]) (p ++ [xor_all p])).
Proof.
  intros F (u & x & y & z & v & D & D' & XY & Z0). destruct (frame_wire p data F) as (w & D2 & E). rewrite D in D2.
  assert (W : w = u ++ x :: z :: v). { symmetry. apply interior. rewrite <- app_assoc. exact D2. }
  destruct (slip_reads _ _ E u x y z v W XY Z0) as (Q & R & S & X). rewrite xor_whole in X.
  assert (exists q c, Q = q ++ [c] /\ q <> []) as (q & c & -> & NQ).
  { destruct (last_case Q) as [->|(q & c & ->)].
    - exfalso. destruct S as [(a & b & [[_ H]|[_ H]])|(a & b & [[H _]|[H _]])]; destruct a; discriminate.
    - exists q, c. split; auto. intros ->. cbn [app xor_all fold_right] in *. rewrite Z.lxor_0_r in X. subst c.
      destruct S as [(a & b & [[_ H]|[_ H]])|(a & b & [[H _]|[H _]])]; destruct a as [|? [|? ?]]; discriminate. }
  assert (c = xor_all q) as ->.
  { rewrite xor_all_app in X. cbn [xor_all fold_right] in X. rewrite Z.lxor_0_r in X. apply Z.lxor_eq in X. symmetry. exact X. }
  exists q. split; [|exact S]. split; [exact NQ|]. destruct (reads_last_split _ _ _ R) as (w1 & v1 & W1 & R1 & C1). exists w1, v1.
  split; [|auto]. rewrite D', (app_assoc w1), <- W1, <- app_assoc. reflexivity.
Qed.
Lemma mangled_exact p data data' : frame p (xor_all p) data -> mangled data data' -> ((exists q, carries data' q) <-> slip data data').
Proof.
  intros F M. split; [intros (q & C); exact (proj1 (mangled_noticed p data data' q F M C))|].
  intros S. destruct (slip_carries p data data' F S) as (q & C & _). exists q. exact C.
Qed.
Lemma unframe_error data e : unframe data = Err e -> e = ErrInvalidMessage \/ e = ErrInvalidCheckSum.
Proof.
  unfold unframe. destruct (zlen data <? 2); [intros H; injection H as <-; auto|].
  assert (I : forall l i r, index l i = Err r -> False) by (intros l i r; unfold index; destruct (_ || _); [discriminate|destruct (nth_error _ _); discriminate]).
  assert (U : forall l i r, upto l i = Err r -> False) by (intros l i r; unfold upto; destruct (_ || _); discriminate).
  assert (F : forall l i r, from l i = Err r -> False) by (intros l i r; unfold from; destruct (_ || _); discriminate).
  destruct (index data 0) eqn:E1; cbn [bind]; [|exfalso; eauto|discriminate].
  destruct (index data (zlen data - 1)) eqn:E2; cbn [bind]; [|exfalso; eauto|discriminate].
  destruct (_ || _); [intros H; injection H as <-; auto|].
  destruct (upto data _) as [d0| |] eqn:E3; cbn [bind]; [|exfalso; eauto|discriminate].
  destruct (from d0 1) as [d1| |] eqn:E4; cbn [bind]; [|exfalso; eauto|discriminate].
  destruct (zlen d1 =? 0); [intros H; injection H as <-; auto|].
  assert (SC : forall r, split_checksum d1 = Err r -> r = ErrInvalidMessage).
  { intros r. unfold split_checksum. destruct (index d1 (zlen d1 - 1)) eqn:G1; cbn [bind]; [|intros; exfalso; eauto|discriminate].
    destruct (index d1 (zlen d1 - 2)) eqn:G2; cbn [bind]; [|intros; exfalso; eauto|discriminate].
    destruct (negb _); [destruct (upto d1 _) eqn:G3; cbn [bind]; [discriminate|exfalso; eauto|discriminate]|].
    destruct (_ =? escape_suffix1); [destruct (upto d1 _) eqn:G3; cbn [bind]; [discriminate|exfalso; eauto|discriminate]|].
    destruct (_ =? escape_suffix2); [destruct (upto d1 _) eqn:G3; cbn [bind]; [discriminate|exfalso; eauto|discriminate]|]. intros H. injection H as <-. auto. }
  destruct (split_checksum d1) as [[d2 sum]|r|] eqn:E5; cbn [bind]; [|intros H; injection H as <-; left; apply SC; reflexivity|discriminate].
  assert (UE : forall n l, (length l <= n)%nat -> forall cs b r, unescape l cs b = Err r -> r = ErrInvalidMessage).
  { induction n as [|n IH]; intros [|hd0 l] L cs b r; cbn [length] in L; try lia; try discriminate. cbn [unescape].
    destruct (negb _); [apply IH; lia|]. destruct l as [|hd1 l]; [intros H; injection H as <-; reflexivity|]. cbn [length] in L.
    destruct (_ =? _); [apply IH; lia|]. destruct (_ =? _); [apply IH; lia|]. intros H. injection H as <-. reflexivity. }
  destruct (unescape d2 0 []) as [[cs b]|r|] eqn:E6; cbn [bind]; [|intros H; injection H as <-; left; eapply UE; [apply le_n|exact E6]|discriminate].
  destruct (_ || _); [intros H; injection H as <-; auto|discriminate].
Qed.
Lemma mangled_long p data data' : p <> [] -> frame p (xor_all p) data -> mangled data data' -> unframe data' <> Panic.
Proof.
  intros NP F (u & x & y & v & D & D' & _ & _) H. apply unframe_panic in H as (t & H).
  destruct (frame_wire p data F) as (w & D2 & E). assert (L : (length w <= 1)%nat).
  { assert (L1 : length data = length data'). { rewrite D, D'. repeat (rewrite app_length; cbn [length]). reflexivity. }
    rewrite H, D2 in L1. repeat (rewrite app_length in L1; cbn [length] in L1). lia. }
  assert (G : forall a b, escaped a b -> (length a <= length b)%nat) by (induction 1; cbn [length]; lia).
  apply G in E. rewrite app_length in E. destruct p; [congruence|]. cbn [length] in E. lia.
Qed.
Lemma mangled_refused env key p data data' : p <> [] -> frame p (xor_all p) data -> mangled data data' -> ~ slip data data' ->
  msg_decode env key data' = Err ErrInvalidMessage \/ msg_decode env key data' = Err ErrInvalidCheckSum.
Proof.
  intros NP F M S. unfold msg_decode. destruct (unframe data') as [q|e|] eqn:U; cbn [bind].
  - exfalso. apply S. apply (mangled_exact p data data' F M). exists q. apply unframe_carries. exact U.
  - destruct (unframe_error _ _ U) as [-> | ->]; auto.
  - exfalso. exact (mangled_long p data data' NP F M U).
Qed.
