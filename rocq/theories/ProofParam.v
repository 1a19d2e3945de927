(** Parameters: typed storage and privacy of the stored bytes. *)
From Verif Require Import Base LibBase Env EntTerm SpecEntity ProofRound2 ParamHeap.

Definition pinv (s : pstate) : Prop :=
  (pbuf s < length (pmem s))%nat /\ ~ In (pbuf s) (mine s) /\ Forall (fun a => (a < length (pmem s))%nat) (mine s).
Lemma set_nth_len {A} n (v : A) l : length (set_nth n v l) = length l.
Proof. revert n. induction l; intros [|n]; cbn; auto. Qed.
Lemma set_nth_other {A} n k (v d : A) l : n <> k -> nth k (set_nth n v l) d = nth k l d.
Proof. revert n k. induction l; intros [|n] [|k] H; cbn; auto; congruence. Qed.
Lemma existsb_in a l : existsb (Nat.eqb a) l = true <-> In a l.
Proof.
  rewrite existsb_exists. split; [intros (x & H & E); apply Nat.eqb_eq in E; subst; auto|intros; exists a; split; auto; apply Nat.eqb_refl].
Qed.
Lemma mine_mono (l : list nat) n m : (n <= m)%nat -> Forall (fun a => (a < n)%nat) l -> Forall (fun a => (a < m)%nat) l.
Proof. intros H. apply Forall_impl. intros. lia. Qed.
Lemma not_mine l n : Forall (fun a => (a < n)%nat) l -> ~ In n l.
Proof. intros H K. rewrite Forall_forall in H. specialize (H n K). lia. Qed.
Lemma pstep_inv s o : pinv s -> pinv (pstep s o).
Proof.
  intros (H1 & H2 & H3). unfold pinv. destruct o; cbn [pstep]; repeat match goal with |- context[if ?b then _ else _] => destruct b end;
    cbn [pmem pbuf mine]; rewrite ?app_length, ?set_nth_len; cbn [length]; auto;
    (split; [lia|split; [|try constructor; try lia; eapply mine_mono; [|exact H3]; lia]]); try (apply not_mine; auto; fail); auto.
  all: cbn [In]; intros [K|K]; [lia|auto].
Qed.
Lemma prun_inv ops : forall s, pinv s -> pinv (prun s ops).
Proof. unfold prun. induction ops; cbn [fold_left]; auto using pstep_inv. Qed.
Lemma pinit_inv : pinv pinit. Proof. repeat split; cbn; auto. Qed.
Definition is_set (o : pop) : bool := match o with PMake _ | PWrite _ _ _ | PGetBytes => false | _ => true end.
Lemma pstep_keeps s o : pinv s -> is_set o = false -> pvalue (pstep s o) = pvalue s.
Proof.
  intros (H1 & H2 & H3) Ho. unfold pvalue, buf_at. destruct o; try discriminate Ho; cbn [pstep pmem pid pbuf].
  - rewrite app_nth1 by auto. auto.
  - destruct (existsb (Nat.eqb a) (mine s)) eqn:E; auto. cbn [pmem pid pbuf]. rewrite set_nth_other; auto.
    intros ->. apply H2. apply existsb_in. auto.
  - rewrite app_nth1 by auto. auto.
Qed.
Lemma prun_keeps ops : forall s, pinv s -> Forall (fun o => is_set o = false) ops -> pvalue (prun s ops) = pvalue s.
Proof.
  unfold prun. induction ops as [|o ops IH]; intros s Hs Ho; cbn [fold_left]; auto. inversion Ho; subst.
  rewrite IH; auto using pstep_inv, pstep_keeps.
Qed.
Lemma prun_app s a b : prun s (a ++ b) = prun (prun s a) b. Proof. apply fold_left_app. Qed.
Lemma set_value s id a : existsb (Nat.eqb a) (mine s) = true -> pvalue (pstep s (PSetBytes id a)) = Param id (buf_at (pmem s) a).
Proof.
  intros H. cbn [pstep]. rewrite H. unfold pvalue, buf_at. cbn [pmem pid pbuf]. rewrite app_nth2, Nat.sub_diag by lia. reflexivity.
Qed.
Lemma private ops1 id a ops2 : In a (mine (prun pinit ops1)) -> Forall (fun o => is_set o = false) ops2 ->
  pvalue (prun pinit (ops1 ++ PSetBytes id a :: ops2)) = set_bytes id (buf_at (pmem (prun pinit ops1)) a).
Proof.
  intros Ha Ho. rewrite prun_app. set (s := prun pinit ops1) in *. assert (I : pinv s) by (apply prun_inv, pinit_inv).
  change (prun s (PSetBytes id a :: ops2)) with (prun (pstep s (PSetBytes id a)) ops2).
  rewrite prun_keeps; auto using pstep_inv. apply set_value. apply existsb_in; auto.
Qed.
Lemma private_numbers ops1 id n ops2 : Forall (fun o => is_set o = false) ops2 ->
  pvalue (prun pinit (ops1 ++ PSetByte id n :: ops2)) = set_byte id n /\
  pvalue (prun pinit (ops1 ++ PSetUint16 id n :: ops2)) = set_uint16 id n /\
  pvalue (prun pinit (ops1 ++ PSetUint32 id n :: ops2)) = set_uint32 id n.
Proof.
  intros Ho. rewrite !prun_app. set (s := prun pinit ops1) in *. assert (I : pinv s) by (apply prun_inv, pinit_inv).
  assert (K : forall o, pvalue (prun s (o :: ops2)) = pvalue (pstep s o)).
  { intros o. change (prun s (o :: ops2)) with (prun (pstep s o) ops2). apply prun_keeps; auto using pstep_inv. }
  rewrite !K. unfold pvalue, buf_at. cbn [pstep pmem pid pbuf]. rewrite !app_nth2, !Nat.sub_diag by lia. auto.
Qed.
(** A slice obtained from GetBytes holds the value and is the caller's own. *)
Lemma got_bytes ops : let s := prun pinit ops in let s' := pstep s PGetBytes in
  exists a, In a (mine s') /\ ~ In a (mine s) /\ a <> pbuf s' /\ get_bytes (pvalue s) = Ok (buf_at (pmem s') a).
Proof.
  intros s s'. assert (I : pinv s) by (apply prun_inv, pinit_inv). destruct I as (I1 & I2 & I3).
  exists (length (pmem s)). cbn [s' pstep mine pbuf pmem]. split; [left; auto|]. split; [apply not_mine; auto|]. split; [lia|].
  unfold get_bytes, pvalue, buf_at. cbn [pr_val]. rewrite app_nth2, Nat.sub_diag by lia. reflexivity.
Qed.

Lemma typed env id :
  (forall b, pr_id (set_byte id b) = id /\ get_byte (set_byte id b) = Ok b) /\
  (forall n, is_u16 n -> pr_id (set_uint16 id n) = id /\ get_uint16 (set_uint16 id n) = Ok n) /\
  (forall n, is_u32 n -> pr_id (set_uint32 id n) = id /\ get_uint32 (set_uint32 id n) = Ok n) /\
  (forall d, pr_id (set_bytes id d) = id /\ get_bytes (set_bytes id d) = Ok d) /\
  (forall s, text_ok env s -> s <> [] -> pr_id (set_string env id s) = id /\ get_string env (set_string env id s) = Ok s) /\
  (pr_id (set_string env id []) = id /\ get_bytes (set_string env id []) = Ok [] /\ (gb_dec env [] = ([], false) -> get_string env (set_string env id []) = Ok [])).
Proof.
  split; [auto|]. split; [|split; [|split; [auto|split]]].
  - intros n H. split; auto. unfold get_uint16, set_uint16. cbn [pr_val w_u16]. rewrite be16_w; auto.
  - intros n H. split; auto. unfold get_uint32, set_uint32. cbn [pr_val w_u32]. rewrite be32_w; auto.
  - intros s (d & He & Hb & Hn & Hz & Hd) Hs. unfold set_string. destruct s; [congruence|].
    replace (zlen (z :: s) =? 0) with false by (pose proof (zlen_nonneg s); rewrite zlen_cons; lia).
    split; auto. unfold get_string. cbn [set_bytes pr_val]. rewrite He. cbn [fst]. specialize (Hd 0%nat). cbn in Hd.
    rewrite !app_nil_r in Hd. rewrite Hd. auto.
  - split; [reflexivity|]. split; [reflexivity|]. intros H. unfold get_string. cbn. rewrite H. reflexivity.
Qed.
Lemma short_values p :
  (get_byte p = Err PErrInvalidBody <-> zlen (pr_val p) < 1) /\ (get_byte p = Err PErrInvalidBody \/ exists v, get_byte p = Ok v) /\
  (get_uint16 p = Err PErrInvalidBody <-> zlen (pr_val p) < 2) /\ (get_uint16 p = Err PErrInvalidBody \/ exists v, get_uint16 p = Ok v) /\
  (get_uint32 p = Err PErrInvalidBody <-> zlen (pr_val p) < 4) /\ (get_uint32 p = Err PErrInvalidBody \/ exists v, get_uint32 p = Ok v).
Proof.
  unfold get_byte, get_uint16, get_uint32. destruct (pr_val p) as [|a [|b [|c [|d l]]]]; rewrite ?zlen_cons, ?zlen_nil;
    try (pose proof (zlen_nonneg l)); repeat split; intros; try lia; try discriminate; eauto.
Qed.
