(** The functions of Sha1.v against the standard. *)
From Verif Require Import Base LibBase EntTerm Sha1 SpecRsa SpecSha ProofRsa.

(** ** The relations leave no choice *)
Lemma bits_same x y : word32 x -> word32 y -> (forall i, 0 <= i < 32 -> Z.testbit x i = Z.testbit y i) -> x = y.
Proof.
  unfold word32. intros X Y H. rewrite <- (Z.mod_small x (2 ^ 32)), <- (Z.mod_small y (2 ^ 32)) by lia. apply Z.bits_inj'. intros i I0.
  destruct (Z_lt_le_dec i 32); [rewrite !Z.mod_pow2_bits_low by lia; apply H; lia|rewrite !Z.mod_pow2_bits_high by lia; reflexivity].
Qed.
Lemma turned_same n x y y' : turned n x y -> turned n x y' -> y = y'.
Proof.
  intros (W & A) (W' & B). apply bits_same; auto. intros i I0. specialize (A ((i - n) mod 32) ltac:(lia)). specialize (B ((i - n) mod 32) ltac:(lia)).
  replace (((i - n) mod 32 + n) mod 32) with i in * by lia. congruence.
Qed.
Lemma bitwise_same f x y z r r' : bitwise f x y z r -> bitwise f x y z r' -> r = r'.
Proof. intros (W & A) (W' & B). apply bits_same; auto. intros i I0. rewrite A, B; auto. Qed.
Lemma scheduled_same p i w w' : scheduled p i w -> scheduled p i w' -> forall t, (t < 80)%nat -> w t = w' t.
Proof.
  intros (A & B) (A' & B') t. induction t as [t IH] using (well_founded_induction lt_wf). intros T.
  destruct (Nat.lt_ge_cases t 16); [rewrite A, A'; auto|]. specialize (B t ltac:(lia)). specialize (B' t ltac:(lia)).
  rewrite (IH (t - 3)%nat), (IH (t - 8)%nat), (IH (t - 14)%nat), (IH (t - 16)%nat) in B by lia. exact (turned_same _ _ _ _ B B').
Qed.
Lemma works_same w w' a b c d e a' b' c' d' e' : (forall t, (t < 80)%nat -> w t = w' t) -> works w a b c d e -> works w' a' b' c' d' e' ->
  [a O; b O; c O; d O; e O] = [a' O; b' O; c' O; d' O; e' O] -> forall t, (t <= 80)%nat -> a t = a' t /\ b t = b' t /\ c t = c' t /\ d t = d' t /\ e t = e' t.
Proof.
  intros E X Y H0 t. induction t as [|t IH]; intros T; [injection H0; auto|]. destruct (IH ltac:(lia)) as (A & B & C & D & F).
  destruct (X t ltac:(lia)) as (r & f & R & G & XA & XB & XC & XD & XE). destruct (Y t ltac:(lia)) as (r' & f' & R' & G' & YA & YB & YC & YD & YE).
  rewrite A in R. rewrite B, C, D in G. rewrite B in XC. pose proof (turned_same _ _ _ _ R R') as ->. pose proof (bitwise_same _ _ _ _ _ _ G G') as ->.
  pose proof (turned_same _ _ _ _ XC YC). rewrite E in XA by lia. repeat split; congruence.
Qed.
Lemma block_same p i h h1 h2 : block_takes p i h h1 -> block_takes p i h h2 -> h1 = h2.
Proof.
  intros (w & a & b & c & d & e & S1 & W1 & H1 & ->) (w' & a' & b' & c' & d' & e' & S2 & W2 & H2 & ->). rewrite H1 in H2.
  destruct (works_same w w' a b c d e a' b' c' d' e' (scheduled_same _ _ _ _ S1 S2) W1 W2 H2 80%nat ltac:(lia)) as (-> & -> & -> & -> & ->).
  injection H2 as -> -> -> -> ->. reflexivity.
Qed.
Lemma hashed_same p n h : hashed p n h -> forall h', hashed p n h' -> h = h'.
Proof.
  induction 1 as [|i h h1 H IH B]; intros h' H'; inversion H'; subst; [reflexivity|]. match goal with X : hashed p i ?g |- _ => apply IH in X; subst end. eapply block_same; eauto.
Qed.
Lemma number_value l : number l = be_value l.
Proof.
  unfold be_value. assert (G : forall l a, fold_left (fun acc b => acc * 256 + b) l a = a * 256 ^ zlen l + number l).
  { clear. induction l as [|x l IH]; intros a; cbn [fold_left number]; [change (zlen (@nil Z)) with 0; cbn; lia|]. rewrite IH, zlen_cons, Z.pow_add_r by (pose proof (zlen_nonneg l); lia). change (256 ^ 1) with 256. ring. }
  rewrite G. lia.
Qed.
Lemma padded_same m p p' : padded m p -> padded m p' -> p = p'.
Proof.
  intros (z & len & -> & Z0 & B & L & V & D) (z' & len' & -> & Z0' & B' & L' & V' & D'). rewrite number_value in V, V'.
  assert (len = len') as ->. { rewrite <- (bytes_of_value len B), <- (bytes_of_value len' B'), L, L', V, V'. reflexivity. }
  assert (z = z') as ->; [|reflexivity]. unfold zlen in D, D'. rewrite !app_length, repeat_length in D, D'. cbn [length] in D, D'. lia.
Qed.
(** Bytes are determined by their words. *)
Lemma word_bytes a b c d a' b' c' d' : is_byte a -> is_byte b -> is_byte c -> is_byte d -> is_byte a' -> is_byte b' -> is_byte c' -> is_byte d' ->
  number [a; b; c; d] = number [a'; b'; c'; d'] -> a = a' /\ b = b' /\ c = c' /\ d = d'.
Proof. unfold is_byte. intros. cbn [number] in *. change (zlen [b; c; d]) with 3 in *. change (zlen [c; d]) with 2 in *. change (zlen [d]) with 1 in *.
  change (zlen [b'; c'; d']) with 3 in *. change (zlen [c'; d']) with 2 in *. change (zlen [d']) with 1 in *. change (zlen (@nil Z)) with 0 in *.
  change (256 ^ 3) with 16777216 in *. change (256 ^ 2) with 65536 in *. change (256 ^ 1) with 256 in *. change (256 ^ 0) with 1 in *. lia. Qed.
Lemma nth_byte l j : bytes_ok l -> is_byte (nth j l 0).
Proof. intros B. destruct (Nat.lt_ge_cases j (length l)); [apply (proj1 (Forall_forall _ _) B); apply nth_In; auto|]. rewrite nth_overflow by auto. unfold is_byte. lia. Qed.
Lemma words_same d d' : bytes_ok d -> bytes_ok d' -> length d = 20%nat -> length d' = 20%nat -> (forall k, (k < 5)%nat -> word_at d k = word_at d' k) -> d = d'.
Proof.
  intros B B' L L' H. apply (nth_ext _ _ 0 0); [congruence|]. intros j J. rewrite L in J.
  pose proof (H (j / 4)%nat ltac:(apply Nat.div_lt_upper_bound; lia)) as E. unfold word_at in E. apply word_bytes in E; auto using nth_byte. destruct E as (E0 & E1 & E2 & E3).
  pose proof (Nat.div_mod j 4 ltac:(lia)) as D. pose proof (Nat.mod_upper_bound j 4 ltac:(lia)) as U. destruct (j mod 4)%nat as [|[|[|[|]]]] eqn:M; try lia; rewrite D; auto.
  rewrite Nat.add_0_r. auto.
Qed.
Lemma digest_same m d d' : digest m d -> digest m d' -> d = d'.
Proof.
  intros (p & n & h & P & N & H & B & L & W) (p' & n' & h' & P' & N' & H' & B' & L' & W'). pose proof (padded_same _ _ _ P P') as <-. assert (n' = n) as -> by lia.
  pose proof (hashed_same _ _ _ H _ H') as <-. apply words_same; auto. intros k K. rewrite W, W'; auto.
Qed.
