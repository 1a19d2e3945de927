(** container/heap on the expiration queue: order, positions and contents. *)
From Coq Require Import Permutation.
From Verif Require Import Base LibBase Timer.
Local Open Scope nat_scope.

(** ** Arrays *)
Lemma upd_len {A} (l : list A) : forall i x, length (upd_nth l i x) = length l.
Proof. induction l; intros [|i] x; cbn; auto. Qed.
Lemma upd_nth_at {A} (l : list A) : forall i k x d, nth k (upd_nth l i x) d = if (k =? i) && (i <? length l) then x else nth k l d.
Proof.
  induction l as [|a l IH]; intros [|i] k x d; cbn [upd_nth length]; destruct k as [|k]; cbn [nth Nat.eqb andb]; auto.
  - rewrite andb_false_r. reflexivity.
  - rewrite IH. reflexivity.
Qed.
Lemma deref_set st p i x : deref (set_index st p i) x = if (x =? p) && (p <? length st) then Elem (e_key (deref st p)) i (e_expire (deref st p)) else deref st x.
Proof. unfold deref, set_index. rewrite upd_nth_at. reflexivity. Qed.
Lemma key_set st p i x : e_key (deref (set_index st p i) x) = e_key (deref st x).
Proof. rewrite deref_set. destruct ((x =? p) && (p <? length st)) eqn:E; auto. replace x with p by lia. reflexivity. Qed.
Lemma expire_set st p i x : e_expire (deref (set_index st p i) x) = e_expire (deref st x).
Proof. rewrite deref_set. destruct ((x =? p) && (p <? length st)) eqn:E; auto. replace x with p by lia. reflexivity. Qed.
Lemma index_set st p i x : p < length st -> e_index (deref (set_index st p i) x) = if x =? p then i else e_index (deref st x).
Proof. intros L. rewrite deref_set. destruct (Nat.eqb_spec x p), (Nat.ltb_spec p (length st)); try lia; reflexivity. Qed.
Lemma set_index_len st p i : length (set_index st p i) = length st.
Proof. apply upd_len. Qed.
Lemma nth_swap (q : list nat) i j k : i < length q -> j < length q ->
  nth k (upd_nth (upd_nth q i (nth j q 0)) j (nth i q 0)) 0 = nth (if k =? j then i else if k =? i then j else k) q 0.
Proof.
  intros I J. rewrite !upd_nth_at, upd_len. destruct (Nat.eqb_spec k j), (Nat.eqb_spec k i), (Nat.ltb_spec j (length q)), (Nat.ltb_spec i (length q)); try lia; cbn [andb]; reflexivity.
Qed.

(** ** What stays the same *)
Record same (h h' : hst) : Prop := {
  sm_len : length (fst h') = length (fst h);
  sm_key : forall x, e_key (deref (fst h') x) = e_key (deref (fst h) x);
  sm_exp : forall x, e_expire (deref (fst h') x) = e_expire (deref (fst h) x) }.
Lemma same_refl h : same h h. Proof. constructor; auto. Qed.
Lemma same_trans a b c : same a b -> same b c -> same a c.
Proof. intros [] []. constructor; intros; congruence. Qed.
Lemma same_swap h i j : same h (q_swap h i j).
Proof. destruct h as [st q]. constructor; cbn [q_swap fst]; intros; rewrite ?set_index_len, ?key_set, ?expire_set; reflexivity. Qed.

(** Positions are recorded in the elements. *)
Record wf_q (h : hst) : Prop := {
  wq_ptr : forall i, i < length (snd h) -> nth i (snd h) 0 < length (fst h);
  wq_idx : forall i, i < length (snd h) -> e_index (deref (fst h) (nth i (snd h) 0)) = Z.of_nat i }.
Lemma wf_inj h i j : wf_q h -> i < length (snd h) -> j < length (snd h) -> nth i (snd h) 0 = nth j (snd h) 0 -> i = j.
Proof. intros W I J E. pose proof (wq_idx h W i I). pose proof (wq_idx h W j J). rewrite E in *. lia. Qed.
Lemma wf_nodup h : wf_q h -> NoDup (snd h).
Proof. intros W. apply (NoDup_nth _ 0). intros. apply (wf_inj h); auto. Qed.
Lemma wf_swap h i j : wf_q h -> i < length (snd h) -> j < length (snd h) -> wf_q (q_swap h i j).
Proof.
  intros W I J. destruct h as [st q]. pose proof wf_inj as INJ. cbn [snd fst] in I, J.
  assert (PI := wq_ptr _ W i I). assert (PJ := wq_ptr _ W j J). cbn [snd fst] in PI, PJ.
  constructor; cbn [q_swap fst snd]; intros k K; rewrite !upd_len in K; rewrite nth_swap by auto; rewrite ?set_index_len.
  - apply (wq_ptr _ W). cbn [snd]. destruct (k =? j), (k =? i); lia.
  - rewrite !index_set by (rewrite ?set_index_len; auto).
    destruct (Nat.eqb_spec k j) as [->|NJ]; [rewrite Nat.eqb_refl; reflexivity|].
    destruct (Nat.eqb_spec k i) as [->|NI].
    + destruct (Nat.eqb_spec (nth j q 0) (nth i q 0)) as [E|E].
      * apply (INJ (st, q)) in E; auto; congruence.
      * rewrite Nat.eqb_refl. reflexivity.
    + destruct (Nat.eqb_spec (nth k q 0) (nth i q 0)) as [E|E]; [apply (INJ (st, q)) in E; auto; congruence|].
      destruct (Nat.eqb_spec (nth k q 0) (nth j q 0)) as [E'|E']; [apply (INJ (st, q)) in E'; auto; congruence|].
      apply (wq_idx _ W). auto.
Qed.
Lemma swap_len h i j : length (snd (q_swap h i j)) = length (snd h).
Proof. destruct h. cbn [q_swap snd]. rewrite !upd_len. reflexivity. Qed.
Lemma swap_perm h i j : i < length (snd h) -> j < length (snd h) -> Permutation (snd h) (snd (q_swap h i j)).
Proof.
  intros I J. destruct h as [st q]. cbn [q_swap snd] in *.
  apply (Permutation_nth q _ 0). rewrite !upd_len. split; [reflexivity|]. exists (fun k => if k =? j then i else if k =? i then j else k). split; [|split].
  - intros k K. destruct (k =? j), (k =? i); lia.
  - intros x y X Y E. destruct (Nat.eqb_spec x j), (Nat.eqb_spec y j), (Nat.eqb_spec x i), (Nat.eqb_spec y i); subst; try congruence; lia.
  - intros k K. apply nth_swap; auto.
Qed.

(** ** Order *)
Definition ex (h : hst) (i : nat) : Z := e_expire (deref (fst h) (nth i (snd h) 0)).
Definition par (k : nat) : nat := (k - 1) / 2.
Lemma ex_swap h i j k : i < length (snd h) -> j < length (snd h) -> ex (q_swap h i j) k = ex h (if k =? j then i else if k =? i then j else k).
Proof.
  intros I J. destruct h as [st q]. unfold ex. cbn [q_swap fst snd] in *. rewrite !expire_set, nth_swap by auto. reflexivity.
Qed.
Lemma less_ex h i j : q_less h i j = (ex h i <? ex h j)%Z. Proof. reflexivity. Qed.
Definition heap (h : hst) (n : nat) : Prop := forall k, 0 < k < n -> (ex h (par k) <= ex h k)%Z.
Definition hole (h : hst) (n i : nat) : Prop :=
  (forall k, 0 < k < n -> k <> i -> par k <> i -> (ex h (par k) <= ex h k)%Z) /\
  (forall k, 0 < k < n -> par k = i -> 0 < i -> (ex h (par i) <= ex h k)%Z).
Definition over (h : hst) (n i : nat) : Prop := forall k, 0 < k < n -> par k = i -> (ex h i <= ex h k)%Z.
Lemma par_lt k : 0 < k -> par k < k. Proof. unfold par. intros. lia. Qed.

Record moved (h h' : hst) (n : nat) : Prop := {
  mv_same : same h h';
  mv_wf : wf_q h -> wf_q h';
  mv_len : length (snd h') = length (snd h);
  mv_perm : Permutation (snd h) (snd h');
  mv_rest : forall k, n <= k -> nth k (snd h') 0 = nth k (snd h) 0 }.
Lemma moved_refl h n : moved h h n. Proof. constructor; auto using same_refl. Qed.
Lemma moved_trans a b c n : moved a b n -> moved b c n -> moved a c n.
Proof. intros [] []. constructor; eauto using same_trans, Permutation_trans; [congruence|]. intros. rewrite mv_rest1, mv_rest0; auto. Qed.
Lemma moved_swap h i j n : i < n -> j < n -> n <= length (snd h) -> moved h (q_swap h i j) n.
Proof.
  intros I J N. constructor; [apply same_swap|intros; apply wf_swap; auto; lia|apply swap_len|apply swap_perm; lia|].
  intros k K. destruct h as [st q]. cbn [q_swap snd] in *. rewrite nth_swap by lia. destruct (Nat.eqb_spec k j), (Nat.eqb_spec k i); first [lia|reflexivity].
Qed.

Lemma up_ok fuel : forall h j n, j < fuel -> j < n -> n <= length (snd h) -> hole h n j -> over h n j ->
  moved h (heap_up fuel h j) n /\ heap (heap_up fuel h j) n.
Proof.
  induction fuel as [|fuel IH]; intros h j n F J N (H1 & H2) O; [lia|]. cbn [heap_up]. fold (par j). rewrite less_ex.
  destruct (Nat.eqb_spec (par j) j) as [E|E]; cbn [orb].
  - assert (j = 0) by (destruct j; auto; pose proof (par_lt (S j)); lia). subst. split; [apply moved_refl|].
    intros k K. destruct (Nat.eq_dec (par k) 0) as [P|P]; [rewrite P; apply O; auto|]. apply H1; lia.
  - assert (0 < j) by (destruct j; [cbn in E|]; lia). pose proof (par_lt j H) as Pj.
    destruct (Z.ltb_spec (ex h j) (ex h (par j))) as [L|L]; cbn [negb].
    + assert (M : moved h (q_swap h (par j) j) n) by (apply moved_swap; lia).
      assert (X : forall k, ex (q_swap h (par j) j) k = ex h (if k =? j then par j else if k =? par j then j else k)) by (intros; apply ex_swap; lia).
      destruct (IH (q_swap h (par j) j) (par j) n) as (A & B); try lia.
      * rewrite swap_len. lia.
      * split.
        -- intros k K K1 K2. rewrite !X. destruct (Nat.eqb_spec k j) as [->|]; [congruence|]. destruct (Nat.eqb_spec k (par j)) as [|]; [congruence|].
           destruct (Nat.eqb_spec (par k) j) as [Pk|Pk]; [apply H2; auto|]. destruct (Nat.eqb_spec (par k) (par j)); [congruence|]. apply H1; auto.
        -- intros k K K1 K2. rewrite !X. pose proof (par_lt _ K2). destruct (Nat.eqb_spec (par (par j)) j); [lia|]. destruct (Nat.eqb_spec (par (par j)) (par j)); [lia|].
           assert (ex h (par (par j)) <= ex h (par j))%Z by (apply H1; lia).
           destruct (Nat.eqb_spec k j) as [->|]; auto. destruct (Nat.eqb_spec k (par j)) as [->|]; [lia|].
           assert (ex h (par k) <= ex h k)%Z by (apply H1; lia). rewrite K1 in H4. lia.
      * intros k K K1. rewrite !X, Nat.eqb_refl. destruct (Nat.eqb_spec (par j) j); [lia|].
        destruct (Nat.eqb_spec k j) as [->|]; [lia|]. pose proof (par_lt k). destruct (Nat.eqb_spec k (par j)) as [->|]; [lia|].
        assert (ex h (par k) <= ex h k)%Z by (apply H1; lia). rewrite K1 in H3. lia.
      * split; auto. eapply moved_trans; eauto.
    + split; [apply moved_refl|]. intros k K. destruct (Nat.eq_dec k j) as [->|]; auto. destruct (Nat.eq_dec (par k) j) as [P|]; [rewrite P; apply O; auto|apply H1; auto].
Qed.

Lemma par_children i k : 0 < k -> (par k = i <-> k = 2 * i + 1 \/ k = S (2 * i + 1)).
Proof. unfold par. intros. lia. Qed.

(** The part of [down] that moves: the element is not smaller than its parent. *)
Lemma down_ok fuel : forall h i n, n <= i + fuel -> i < n -> n <= length (snd h) -> hole h n i -> (0 < i -> (ex h (par i) <= ex h i)%Z) ->
  let r := heap_down fuel h i n in moved h (fst r) n /\ heap (fst r) n /\ i <= snd r.
Proof.
  induction fuel as [|fuel IH]; intros h i n F I N (H1 & H2) P; [lia|]. cbn [heap_down].
  destruct (Nat.leb_spec n (2 * i + 1)) as [L|L].
  { cbn [fst snd]. split; [apply moved_refl|]. split; auto. intros k K. destruct (Nat.eq_dec k i) as [->|]; [apply P; lia|]. apply H1; auto. intros E. apply par_children in E; lia. }
  set (j := if (S (2 * i + 1) <? n) && q_less h (S (2 * i + 1)) (2 * i + 1) then S (2 * i + 1) else 2 * i + 1).
  assert (J : i < j < n /\ par j = i /\ forall k, 0 < k < n -> par k = i -> (ex h j <= ex h k)%Z).
  { unfold j. rewrite less_ex. destruct (Nat.ltb_spec (S (2 * i + 1)) n); cbn [andb]; [destruct (Z.ltb_spec (ex h (S (2 * i + 1))) (ex h (2 * i + 1)))|];
    (split; [lia|split; [apply par_children; lia|]]); intros k K E; apply par_children in E; try lia; destruct E; subst; lia. }
  clearbody j. destruct J as (J & PJ & MIN). rewrite less_ex. destruct (Z.ltb_spec (ex h j) (ex h i)) as [B|B]; cbn [negb].
  - assert (M : moved h (q_swap h i j) n) by (apply moved_swap; lia).
    assert (X : forall k, ex (q_swap h i j) k = ex h (if k =? j then i else if k =? i then j else k)) by (intros; apply ex_swap; lia).
    destruct (IH (q_swap h i j) j n) as (A & C & D); try lia.
    + rewrite swap_len. lia.
    + split.
      * intros k K K1 K2. rewrite !X. destruct (Nat.eqb_spec k j); [congruence|]. destruct (Nat.eqb_spec (par k) j); [congruence|].
        destruct (Nat.eqb_spec k i) as [->|].
        -- pose proof (par_lt i). destruct (Nat.eqb_spec (par i) i); [lia|]. apply H2; try lia.
        -- destruct (Nat.eqb_spec (par k) i); [apply MIN; auto|]. apply H1; auto.
      * intros k K K1 K2. rewrite !X, PJ, Nat.eqb_refl. pose proof (par_lt k). destruct (Nat.eqb_spec i j); [lia|]. destruct (Nat.eqb_spec k j); [lia|]. destruct (Nat.eqb_spec k i); [lia|].
        rewrite <- K1. apply H1; lia.
    + intros _. rewrite !X, PJ, !Nat.eqb_refl. destruct (Nat.eqb_spec i j); lia.
    + split; [eapply moved_trans; eauto|]. split; [exact C|lia].
  - cbn [fst snd]. split; [apply moved_refl|]. split; auto. intros k K. destruct (Nat.eq_dec k i) as [->|]; [apply P; lia|].
    destruct (Nat.eq_dec (par k) i) as [E|]; [rewrite E; specialize (MIN k K E); lia|apply H1; auto].
Qed.

(** [down] followed by [up] if nothing moved, from any hole. *)
Lemma fix_ok h i n : i < n -> n <= length (snd h) -> hole h n i -> forall f1 f2, n <= f1 -> n <= f2 ->
  let '(h2, i') := heap_down f1 h i n in
  let h3 := if i <? i' then h2 else heap_up f2 h2 i in
  moved h h3 n /\ heap h3 n.
Proof.
  intros I N H f1 f2 F1 F2. destruct (Z_le_gt_dec (ex h (par i)) (ex h i)) as [L|G].
  - pose proof (down_ok f1 h i n ltac:(lia) I N H (fun _ => L)) as D. destruct (heap_down f1 h i n) as [h2 i'] eqn:Eq. cbn [fst snd] in D. destruct D as (A & B & C).
    destruct (Nat.ltb_spec i i'); auto.
    assert (M2 := mv_len _ _ _ A). destruct (up_ok f2 h2 i n) as (U & V); try lia.
    + split; [intros; apply B; auto|]. intros k K E I0. apply Z.le_trans with (ex h2 i); [apply B; lia|rewrite <- E; apply B; auto].
    + intros k K E. rewrite <- E. apply B; auto.
    + split; auto. eapply moved_trans; eauto.
  - assert (I0 : 0 < i) by (destruct i; [cbn in G|]; lia).
    assert (O : over h n i). { intros k K E. pose proof (proj2 H k K E I0). lia. }
    assert (E : heap_down f1 h i n = (h, i)).
    { destruct f1; [lia|]. cbn [heap_down]. destruct (Nat.leb_spec n (2 * i + 1)); auto.
      set (j := if (S (2 * i + 1) <? n) && q_less h (S (2 * i + 1)) (2 * i + 1) then S (2 * i + 1) else 2 * i + 1).
      assert (J : 0 < j < n /\ par j = i).
      { unfold j. destruct (Nat.ltb_spec (S (2 * i + 1)) n); cbn [andb]; [destruct (q_less h _ _)|]; (split; [lia|apply par_children; lia]). }
      rewrite less_ex. destruct (Z.ltb_spec (ex h j) (ex h i)); auto. destruct J as (J & P). pose proof (O j J P). lia. }
    rewrite E, Nat.ltb_irrefl. apply up_ok; auto; lia.
Qed.
