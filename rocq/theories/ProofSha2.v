(** Sha1.v computes what the standard asks for. *)
From Verif Require Import Base LibBase EntTerm ProofRound2 Sha1 SpecRsa SpecSha ProofRsa ProofSha.

Lemma u32_mod n : u32 n = n mod 2 ^ 32. Proof. reflexivity. Qed.
Lemma word_mod n : word32 (n mod 2 ^ 32). Proof. unfold word32. apply Z.mod_pos_bound. lia. Qed.
Lemma rotl_turned n x : 0 < n < 32 -> word32 x -> turned n x (rotl n x).
Proof.
  intros N X. unfold turned, rotl. rewrite u32_mod.
  assert (HB : forall i, 0 <= i -> Z.testbit (Z.lor (Z.shiftl x n mod 2 ^ 32) (Z.shiftr x (32 - n))) i = (if i <? 32 then Z.testbit x (i - n) else false) || Z.testbit x (i + (32 - n))).
  { intros i I0. rewrite Z.lor_spec, Z.shiftr_spec by lia. f_equal. destruct (Z.ltb_spec i 32); [rewrite Z.mod_pow2_bits_low, Z.shiftl_spec by lia; reflexivity|apply Z.mod_pow2_bits_high; lia]. }
  assert (Hi : forall i, 32 <= i -> Z.testbit x i = false).
  { intros i I0. unfold word32 in X. rewrite <- (Z.mod_small x (2 ^ 32)) by lia. apply Z.mod_pow2_bits_high. lia. }
  split.
  - unfold word32. assert (P : 0 <= Z.lor (Z.shiftl x n mod 2 ^ 32) (Z.shiftr x (32 - n))).
    { apply Z.lor_nonneg. split; [apply (word_mod (Z.shiftl x n))|]. apply Z.shiftr_nonneg. unfold word32 in X. lia. }
    set (y := Z.lor _ _) in *. assert (E : y = y mod 2 ^ 32); [|rewrite E; apply (word_mod y)].
    apply Z.bits_inj'. intros i I0. destruct (Z_lt_le_dec i 32); [rewrite Z.mod_pow2_bits_low by lia; reflexivity|]. rewrite Z.mod_pow2_bits_high by lia.
    rewrite HB by lia. replace (i <? 32) with false by lia. apply Hi. lia.
  - intros i I0. rewrite HB by lia. replace ((i + n) mod 32 <? 32) with true by lia. destruct (Z_lt_le_dec (i + n) 32).
    + rewrite Z.mod_small by lia. replace (i + n - n) with i by lia. rewrite (Hi (i + n + (32 - n))) by lia. apply orb_false_r.
    + replace ((i + n) mod 32) with (i + n - 32) by lia. rewrite (Z.testbit_neg_r x (i + n - 32 - n)) by lia. cbn [orb]. f_equal. lia.
Qed.
Lemma word_bits x : 0 <= x -> (forall i, 32 <= i -> Z.testbit x i = false) -> word32 x.
Proof.
  intros P H. assert (E : x = x mod 2 ^ 32); [|rewrite E; apply word_mod]. apply Z.bits_inj'. intros i I0.
  destruct (Z_lt_le_dec i 32); [rewrite Z.mod_pow2_bits_low by lia; reflexivity|]. rewrite Z.mod_pow2_bits_high by lia. apply H. lia.
Qed.
Lemma word_high x i : word32 x -> 32 <= i -> Z.testbit x i = false.
Proof. unfold word32. intros X I0. rewrite <- (Z.mod_small x (2 ^ 32)) by lia. apply Z.mod_pow2_bits_high. lia. Qed.
Lemma complement b i : word32 b -> 0 <= i < 32 -> Z.testbit (4294967295 - b) i = negb (Z.testbit b i).
Proof.
  intros B I0. assert (E : 4294967295 - b = Z.ldiff (Z.ones 32) b).
  { change 4294967295 with (Z.ones 32). apply Z.sub_nocarry_ldiff. apply Z.bits_inj'. intros n Hn. rewrite Z.bits_0, Z.ldiff_spec.
    destruct (Z_lt_le_dec n 32); [rewrite Z.ones_spec_low by lia; apply andb_false_r|]. rewrite (word_high b n B) by lia. reflexivity. }
  rewrite E, Z.ldiff_spec, Z.ones_spec_low by lia. reflexivity.
Qed.
Lemma f_word t b c d : word32 b -> word32 c -> word32 d -> bitwise (logical t) b c d (sha1_f (Z.of_nat t) b c d).
Proof.
  intros B C D. assert (B' : word32 (4294967295 - b)) by (unfold word32 in *; lia). assert (NN : forall x, word32 x -> 0 <= x) by (unfold word32; lia).
  pose proof (NN _ B). pose proof (NN _ C). pose proof (NN _ D). pose proof (NN _ B').
  unfold bitwise, logical, sha1_f. change 20 with (Z.of_nat 20). change 40 with (Z.of_nat 40). change 60 with (Z.of_nat 60).
  assert (LT : forall n, (Z.of_nat t <? Z.of_nat n) = (t <? n)%nat) by (intros n; destruct (Nat.ltb_spec t n); lia). rewrite !LT.
  assert (P1 : 0 <= Z.lxor (Z.land b c) (Z.land (4294967295 - b) d)).
  { apply Z.lxor_nonneg. split; intros _; apply Z.land_nonneg; auto. }
  assert (P2 : 0 <= Z.lxor b (Z.lxor c d)). { apply Z.lxor_nonneg. split; intros _; auto. apply Z.lxor_nonneg. tauto. }
  assert (P3 : 0 <= Z.lxor (Z.land b c) (Z.lxor (Z.land b d) (Z.land c d))).
  { apply Z.lxor_nonneg. split; intros _; [apply Z.lxor_nonneg; split; intros _|]; apply Z.land_nonneg; auto. }
  assert (Q2 : word32 (Z.lxor b (Z.lxor c d)) /\ forall i, 0 <= i < 32 -> Z.testbit (Z.lxor b (Z.lxor c d)) i = parity (Z.testbit b i) (Z.testbit c i) (Z.testbit d i)).
  { split; [apply word_bits; auto; intros i I0; rewrite !Z.lxor_spec, !(word_high _ i) by auto; reflexivity|]. intros i I0. rewrite !Z.lxor_spec. reflexivity. }
  destruct (t <? 20)%nat; [|destruct (t <? 40)%nat; [exact Q2|destruct (t <? 60)%nat; [|exact Q2]]].
  - split; [apply word_bits; auto; intros i I0; rewrite Z.lxor_spec, !Z.land_spec, (word_high b i), (word_high (4294967295 - b) i) by auto; reflexivity|].
    intros i I0. rewrite Z.lxor_spec, !Z.land_spec, complement by auto. unfold choice. destruct (Z.testbit b i), (Z.testbit c i), (Z.testbit d i); reflexivity.
  - split; [apply word_bits; auto; intros i I0; rewrite !Z.lxor_spec, !Z.land_spec, (word_high b i), (word_high c i) by auto; reflexivity|].
    intros i I0. rewrite !Z.lxor_spec, !Z.land_spec. unfold majority. destruct (Z.testbit b i), (Z.testbit c i), (Z.testbit d i); reflexivity.
Qed.
Lemma k_constant t : sha1_k (Z.of_nat t) = constant t.
Proof.
  unfold sha1_k, constant. change 20 with (Z.of_nat 20). change 40 with (Z.of_nat 40). change 60 with (Z.of_nat 60).
  assert (LT : forall n, (Z.of_nat t <? Z.of_nat n) = (t <? n)%nat) by (intros n; destruct (Nat.ltb_spec t n); lia). rewrite !LT.
  destruct (t <? 20)%nat; [vm_compute; reflexivity|]. destruct (t <? 40)%nat; [vm_compute; reflexivity|]. destruct (t <? 60)%nat; vm_compute; reflexivity.
Qed.

(** ** Lists *)
Lemma nth_skip {A} (l : list A) i j d : nth j (skipn i l) d = nth (i + j) l d.
Proof. revert l. induction i as [|i IH]; intros l; [reflexivity|]. destruct l as [|x l]; [destruct j; reflexivity|]. cbn [skipn Nat.add nth]. apply IH. Qed.
Lemma nth_first {A} (l : list A) n j d : (j < n)%nat -> nth j (firstn n l) d = nth j l d.
Proof. revert l j. induction n as [|n IH]; intros l j J; [lia|]. destruct l as [|x l]; [reflexivity|]. destruct j; [reflexivity|]. cbn [firstn nth]. apply IH. lia. Qed.
Lemma words_nth b : forall k t, length b = (4 * k)%nat -> (t < k)%nat -> nth t (words b) 0 = word_at b t.
Proof.
  intros k. revert b. induction k as [|k IH]; intros b t L T; [lia|].
  destruct b as [|x0 [|x1 [|x2 [|x3 b]]]]; cbn [length] in L; try lia. cbn [words]. destruct t as [|t]; [unfold word_at; cbn [nth Nat.mul Nat.add]; symmetry; apply number_value|].
  cbn [nth]. rewrite IH by lia. unfold word_at. replace (4 * S t)%nat with (S (S (S (S (4 * t))))) by lia. reflexivity.
Qed.
Lemma words_length b : forall k, length b = (4 * k)%nat -> length (words b) = k.
Proof. intros k. revert b. induction k as [|k IH]; intros b L; [destruct b; [reflexivity|discriminate]|]. destruct b as [|x0 [|x1 [|x2 [|x3 b]]]]; cbn [length] in L; try lia. cbn [words length]. f_equal. apply IH. lia. Qed.

(** ** The schedule *)
Lemma schedule_length k : forall w, length (schedule k w) = (k + length w)%nat.
Proof. induction k as [|k IH]; intros w; [reflexivity|]. cbn [schedule]. rewrite IH. cbn [length]. lia. Qed.
Lemma schedule_old k : forall w j, nth (k + j) (schedule k w) 0 = nth j w 0.
Proof. induction k as [|k IH]; intros w j; [reflexivity|]. cbn [schedule]. replace (S k + j)%nat with (k + S j)%nat by lia. rewrite IH. reflexivity. Qed.
Lemma schedule_new k : forall w j, (j < k)%nat -> let L := schedule k w in
  nth j L 0 = rotl 1 (Z.lxor (Z.lxor (nth (j + 3) L 0) (nth (j + 8) L 0)) (Z.lxor (nth (j + 14) L 0) (nth (j + 16) L 0))).
Proof.
  induction k as [|k IH]; intros w j J; [lia|]. cbn [schedule]. cbv zeta. destruct (Nat.eq_dec j k) as [->|N]; [|apply IH; lia].
  rewrite !schedule_old. rewrite <- (Nat.add_0_r k) at 1. rewrite schedule_old. reflexivity.
Qed.
Lemma words_in b : bytes_ok b -> Forall word32 (words b).
Proof.
  intros B. remember (length b) as n eqn:E. revert b B E. induction n as [n IH] using (well_founded_induction lt_wf). intros b B E.
  destruct b as [|x0 [|x1 [|x2 [|x3 b]]]]; try constructor.
  - apply bytes_ok_cons in B as [B0 B]. apply bytes_ok_cons in B as [B1 B]. apply bytes_ok_cons in B as [B2 B]. apply bytes_ok_cons in B as [B3 B]. unfold is_byte, word32, be_value in *. cbn [fold_left]. lia.
  - apply (IH (length b)); [cbn [length] in E; lia| |reflexivity]. repeat (apply bytes_ok_cons in B as [_ B]). exact B.
Qed.
Lemma xor_word x y : word32 x -> word32 y -> word32 (Z.lxor x y).
Proof. intros X Y. apply word_bits; [apply Z.lxor_nonneg; unfold word32 in *; lia|]. intros i I0. rewrite Z.lxor_spec, !(word_high _ i) by auto. reflexivity. Qed.
Lemma rotl_word n x : 0 < n < 32 -> word32 x -> word32 (rotl n x). Proof. intros N X. apply (rotl_turned n x N X). Qed.
Lemma nth_word l j : Forall word32 l -> word32 (nth j l 0).
Proof. intros B. destruct (Nat.lt_ge_cases j (length l)); [apply (proj1 (Forall_forall _ _) B); apply nth_In; auto|]. rewrite nth_overflow by auto. unfold word32. lia. Qed.
Lemma schedule_words k : forall w, Forall word32 w -> Forall word32 (schedule k w).
Proof. induction k as [|k IH]; intros w W; [exact W|]. cbn [schedule]. apply IH. constructor; auto. apply rotl_word; [lia|]. repeat apply xor_word; apply nth_word; auto. Qed.
Definition sched (b : bytes) : list Z := rev (schedule 64 (rev (words b))).
Lemma sched_length b : length b = 64%nat -> length (sched b) = 80%nat.
Proof. intros L. unfold sched. rewrite rev_length, schedule_length, rev_length, (words_length b 16) by auto. reflexivity. Qed.
Lemma sched_words b : bytes_ok b -> Forall word32 (sched b).
Proof. intros B. unfold sched. apply Forall_rev, schedule_words, Forall_rev, words_in, B. Qed.
Lemma sched_ok p i b : bytes_ok b -> length b = 64%nat -> (forall j, (j < 64)%nat -> nth j b 0 = nth (64 * i + j) p 0) -> scheduled p i (fun t => nth t (sched b) 0).
Proof.
  intros B L H. pose proof (sched_length b L) as SL. assert (WL : length (words b) = 16%nat) by (apply words_length; auto).
  assert (LL : length (schedule 64 (rev (words b))) = 80%nat) by (rewrite <- SL; unfold sched; rewrite rev_length; reflexivity).
  assert (AT : forall t, (t < 80)%nat -> nth t (sched b) 0 = nth (79 - t) (schedule 64 (rev (words b))) 0).
  { intros t T. unfold sched. rewrite rev_nth by lia. f_equal. lia. }
  split.
  - intros t T. rewrite AT by lia. replace (79 - t)%nat with (64 + (15 - t))%nat by lia. rewrite schedule_old, rev_nth by lia. rewrite WL. replace (16 - S (15 - t))%nat with t by lia.
    rewrite (words_nth b 16) by auto. unfold word_at. rewrite !H by lia. replace (4 * (16 * i + t))%nat with (64 * i + 4 * t)%nat by lia. rewrite <- !Nat.add_assoc. reflexivity.
  - intros t T. rewrite !AT by lia. rewrite (schedule_new 64 (rev (words b)) (79 - t)) by lia. cbv zeta.
    replace (79 - t + 3)%nat with (79 - (t - 3))%nat by lia. replace (79 - t + 8)%nat with (79 - (t - 8))%nat by lia. replace (79 - t + 14)%nat with (79 - (t - 14))%nat by lia.
    replace (79 - t + 16)%nat with (79 - (t - 16))%nat by lia. rewrite <- Z.lxor_assoc. apply rotl_turned; [lia|].
    pose proof (schedule_words 64 (rev (words b)) (Forall_rev (words_in b B))) as W.
    repeat match goal with |- word32 (Z.lxor _ _) => apply xor_word end; apply nth_word; exact W.
Qed.

(** ** The rounds *)
Definition step1 (t w : Z) (s : sha1_state) : sha1_state :=
  H5 (u32 (rotl 5 (s_a s) + sha1_f t (s_b s) (s_c s) (s_d s) + s_e s + sha1_k t + w)) (s_a s) (rotl 30 (s_b s)) (s_c s) (s_d s).
Lemma rounds_snoc ws : forall t w s, rounds t (ws ++ [w]) s = step1 (t + zlen ws) w (rounds t ws s).
Proof.
  induction ws as [|x ws IH]; intros t w s; cbn [app rounds]; [unfold step1; change (zlen (@nil Z)) with 0; rewrite Z.add_0_r; reflexivity|].
  cbv zeta. rewrite IH, zlen_cons. f_equal. lia.
Qed.
Definition state_ok (s : sha1_state) : Prop := word32 (s_a s) /\ word32 (s_b s) /\ word32 (s_c s) /\ word32 (s_d s) /\ word32 (s_e s).
Lemma step1_ok t w s : state_ok s -> state_ok (step1 t w s).
Proof. intros (A & B & C & D & E). unfold step1, state_ok. cbn [s_a s_b s_c s_d s_e]. rewrite u32_mod. split; [apply word_mod|]. split; auto. split; [apply rotl_word; [lia|auto]|]. auto. Qed.
Definition after (ws : list Z) (s : sha1_state) (t : nat) : sha1_state := rounds 0 (firstn t ws) s.
Lemma firstn_snoc {A} (l : list A) t d : (t < length l)%nat -> firstn (S t) l = firstn t l ++ [nth t l d].
Proof. revert t. induction l as [|x l IH]; intros t T; cbn [length] in T; [lia|]. destruct t; [reflexivity|]. cbn [firstn nth app]. f_equal. apply IH. lia. Qed.
Lemma after_step ws s t : (t < length ws)%nat -> after ws s (S t) = step1 (Z.of_nat t) (nth t ws 0) (after ws s t).
Proof. intros T. unfold after. rewrite (firstn_snoc ws t 0 T), rounds_snoc. f_equal. unfold zlen. rewrite firstn_length. lia. Qed.
Lemma after_ok ws s t : state_ok s -> (t <= length ws)%nat -> state_ok (after ws s t).
Proof. intros S0. induction t as [|t IH]; intros T; [exact S0|]. rewrite after_step by lia. apply step1_ok, IH. lia. Qed.
Lemma rounds_work ws s : length ws = 80%nat -> state_ok s ->
  works (fun t => nth t ws 0) (fun t => s_a (after ws s t)) (fun t => s_b (after ws s t)) (fun t => s_c (after ws s t)) (fun t => s_d (after ws s t)) (fun t => s_e (after ws s t)).
Proof.
  intros L S0 t T. destruct (after_ok ws s t S0 ltac:(lia)) as (A & B & C & D & E). exists (rotl 5 (s_a (after ws s t))), (sha1_f (Z.of_nat t) (s_b (after ws s t)) (s_c (after ws s t)) (s_d (after ws s t))).
  rewrite !after_step by lia. unfold step1. cbn [s_a s_b s_c s_d s_e]. split; [apply rotl_turned; [lia|auto]|]. split; [apply f_word; auto|]. rewrite k_constant.
  split; [reflexivity|]. split; [reflexivity|]. split; [apply rotl_turned; [lia|auto]|]. auto.
Qed.
Definition five (s : sha1_state) : list Z := [s_a s; s_b s; s_c s; s_d s; s_e s].
Lemma block_ok s b : state_ok (sha1_block s b).
Proof. unfold sha1_block, state_ok. cbv zeta. cbn [s_a s_b s_c s_d s_e]. rewrite !u32_mod. auto 6 using word_mod. Qed.
Lemma block_does p i s b : state_ok s -> bytes_ok b -> length b = 64%nat -> (forall j, (j < 64)%nat -> nth j b 0 = nth (64 * i + j) p 0) ->
  block_takes p i (five s) (five (sha1_block s b)).
Proof.
  intros S0 B L H. pose proof (sched_length b L) as SL. do 6 eexists. split; [exact (sched_ok p i b B L H)|]. split; [exact (rounds_work (sched b) s SL S0)|].
  assert (E : after (sched b) s 80 = rounds 0 (sched b) s) by (unfold after; rewrite <- SL, firstn_all; reflexivity).
  split; [reflexivity|]. cbv beta. rewrite E. change (after (sched b) s 0) with s. unfold five, sha1_block, sched. cbv zeta. cbn [s_a s_b s_c s_d s_e]. rewrite !u32_mod. reflexivity.
Qed.

(** ** Blocks *)
Lemma blocks_snoc n : forall s m, sha1_blocks (S n) s m = sha1_block (sha1_blocks n s m) (firstn 64 (skipn (64 * n) m)).
Proof.
  induction n as [|n IH]; intros s m; [reflexivity|]. change (sha1_blocks (S (S n)) s m) with (sha1_blocks (S n) (sha1_block s (firstn 64 m)) (skipn 64 m)). rewrite IH.
  change (sha1_blocks (S n) s m) with (sha1_blocks n (sha1_block s (firstn 64 m)) (skipn 64 m)). f_equal. f_equal.
  replace (64 * S n)%nat with (64 + 64 * n)%nat by lia. clear. revert m. generalize (64 * n)%nat as k. generalize 64%nat as j.
  induction j as [|j IH]; intros k m; [reflexivity|]. destruct m as [|x m]; [cbn [skipn Nat.add]; apply skipn_nil|]. cbn [skipn Nat.add]. apply IH.
Qed.
Definition start5 : sha1_state := H5 0x67452301 0xefcdab89 0x98badcfe 0x10325476 0xc3d2e1f0.
Lemma blocks_ok p n : state_ok (sha1_blocks n start5 p).
Proof. destruct n; [unfold start5, state_ok, word32; cbn; lia|]. rewrite blocks_snoc. apply block_ok. Qed.
Lemma blocks_hashed p n : bytes_ok p -> (64 * n <= length p)%nat -> hashed p n (five (sha1_blocks n start5 p)).
Proof.
  intros B. induction n as [|n IH]; intros L; [constructor|]. econstructor; [apply IH; lia|]. rewrite blocks_snoc. apply block_does.
  - apply blocks_ok.
  - apply bytes_ok_firstn, bytes_ok_skipn, B.
  - rewrite firstn_length, skipn_length. lia.
  - intros j J. rewrite nth_first by lia. rewrite nth_skip. reflexivity.
Qed.
Lemma word_of_bytes4 n : word32 n -> exists a b c d, be_bytes 4 n = [a; b; c; d] /\ number [a; b; c; d] = n.
Proof.
  intros W. assert (L : length (be_bytes 4 n) = 4%nat) by apply be_bytes_len. pose proof (be_value_bytes 4 n) as V. change (256 ^ Z.of_nat 4) with (2 ^ 32) in V. specialize (V W).
  destruct (be_bytes 4 n) as [|a [|b [|c [|d [|]]]]]; try discriminate. exists a, b, c, d. split; [reflexivity|]. rewrite number_value. exact V.
Qed.
Lemma pad_padded m : bytes_ok m -> 8 * zlen m < 2 ^ 64 -> padded m (sha1_pad m) /\ bytes_ok (sha1_pad m).
Proof.
  intros B S0. pose proof (zlen_nonneg m) as N. unfold sha1_pad. split.
  - exists (Z.to_nat ((55 - zlen m) mod 64)), (be_bytes 8 (8 * zlen m)). split; [reflexivity|]. split; [lia|]. split; [apply be_bytes_ok|]. split; [apply be_bytes_len|].
    split; [rewrite number_value; apply be_value_bytes; change (256 ^ Z.of_nat 8) with (2 ^ 64); lia|].
    unfold zlen. rewrite !app_length, repeat_length, be_bytes_len. fold (zlen m). cbn [length]. unfold zlen in *. lia.
  - rewrite !bytes_ok_app. split; [exact B|]. split; [repeat constructor; unfold is_byte; lia|]. split; [apply Forall_forall; intros x X; apply repeat_spec in X; subst; unfold is_byte; lia|apply be_bytes_ok].
Qed.
Lemma sha1_digest m : bytes_ok m -> 8 * zlen m < 2 ^ 64 -> digest m (sha1 m).
Proof.
  intros B S0. destruct (pad_padded m B S0) as (P & PB). set (p := sha1_pad m) in *. set (n := Z.to_nat (zlen p / 64)). pose proof (zlen_nonneg p) as Q.
  assert (E : zlen p = 64 * Z.of_nat n). { destruct P as (_ & _ & _ & _ & _ & _ & _ & D). unfold n. lia. }
  exists p, n, (five (sha1_blocks n start5 p)). split; [exact P|]. split; [exact E|]. split; [apply blocks_hashed; [exact PB|unfold zlen in E; lia]|].
  split; [apply sha1_bytes|]. split; [apply sha1_len|]. intros k K. unfold sha1. fold p. cbv zeta. fold n. change (H5 0x67452301 0xefcdab89 0x98badcfe 0x10325476 0xc3d2e1f0) with start5.
  destruct (blocks_ok p n) as (A1 & A2 & A3 & A4 & A5). set (s := sha1_blocks n start5 p) in *.
  destruct (word_of_bytes4 _ A1) as (x1 & x2 & x3 & x4 & -> & V1). destruct (word_of_bytes4 _ A2) as (y1 & y2 & y3 & y4 & -> & V2). destruct (word_of_bytes4 _ A3) as (z1 & z2 & z3 & z4 & -> & V3).
  destruct (word_of_bytes4 _ A4) as (u1 & u2 & u3 & u4 & -> & V4). destruct (word_of_bytes4 _ A5) as (v1 & v2 & v3 & v4 & -> & V5).
  cbn [app]. unfold five. destruct k as [|[|[|[|[|]]]]]; [exact V1|exact V2|exact V3|exact V4|exact V5|lia].
Qed.
Lemma sha1_exact m d : bytes_ok m -> 8 * zlen m < 2 ^ 64 -> digest m d <-> d = sha1 m.
Proof. intros B S0. split; [intros D; apply (digest_same m); auto using sha1_digest|]. intros ->. apply sha1_digest; auto. Qed.
