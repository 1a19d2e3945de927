(** The buffer over memory is the buffer. *)
From Verif Require Import Base LibBase Bits Env Registry Message Codec Memory ProofMemory ProofMemory2.

Definition bwf (m : memory) (b : mbuf) : Prop := (bf_arr b < mm_next m)%nat /\ (bf_off b <= bf_end b <= length (mm_at m (bf_arr b)))%nat.
Definition content (m : memory) (b : mbuf) : bytes := view m (bf_bytes m b).
Lemma bytes_swf m b : bwf m b -> swf m (bf_bytes m b).
Proof. intros (A & B). unfold swf, bf_bytes. cbn [sl_arr sl_off sl_len sl_cap]. lia. Qed.
Lemma content_length m b : bwf m b -> length (content m b) = (bf_end b - bf_off b)%nat.
Proof. intros W. unfold content. rewrite (view_length _ _ (bytes_swf m b W)). reflexivity. Qed.
Lemma content_def m b : content m b = firstn (bf_end b - bf_off b) (skipn (bf_off b) (mm_at m (bf_arr b))).
Proof. reflexivity. Qed.
Lemma next_ok m b n : bwf m b -> bwf m (bf_next b n) /\ content m (bf_next b n) = skipn n (content m b).
Proof.
  intros (A & B). unfold bwf, bf_next. cbn [bf_arr bf_off bf_end]. split; [lia|]. rewrite !content_def. cbn [bf_arr bf_off bf_end]. rewrite skipn_firstn_comm, skip_skip.
  destruct (Nat.le_gt_cases n (bf_end b - bf_off b)) as [L|L].
  - rewrite Nat.min_l by exact L. f_equal; [lia|]. f_equal. lia.
  - rewrite Nat.min_r by lia. replace (bf_end b - (bf_off b + (bf_end b - bf_off b)))%nat with 0%nat by lia. replace (bf_end b - bf_off b - n)%nat with 0%nat by lia. reflexivity.
Qed.
Lemma grown_content m m' b : grown m m' -> bwf m b -> content m' b = content m b /\ bwf m' b.
Proof. intros (G1 & G2) (A & B). unfold bwf. rewrite !content_def, (G2 _ A). split; [reflexivity|]. split; [lia|exact B]. Qed.
(** Only the array of the buffer changes, and what is new. *)
Definition moved (P : nat -> Prop) (m m' : memory) : Prop := (mm_next m <= mm_next m')%nat /\ forall a, (a < mm_next m)%nat -> (~ P a -> mm_at m' a = mm_at m a) /\ length (mm_at m' a) = length (mm_at m a).
Lemma moved_blit (P : nat -> Prop) m a i bs : P a -> (i + length bs <= length (mm_at m a))%nat -> moved P m (blit m a i bs).
Proof. intros Pa L. split; [cbn [blit mm_next]; lia|]. intros a' _. split; [|apply blit_length; exact L]. intros N. apply at_blit_other. intros ->. exact (N Pa). Qed.
Lemma moved_grown P m m' : grown m m' -> moved P m m'.
Proof. intros (A & B). split; [exact A|]. intros a L. rewrite (B a L). auto. Qed.
Lemma moved_trans P m1 m2 m3 : moved P m1 m2 -> moved P m2 m3 -> moved P m1 m3.
Proof. intros (A & B) (C & D). split; [lia|]. intros a L. destruct (B a L) as [B1 B2]. destruct (D a ltac:(lia)) as [D1 D2]. split; [intros N; rewrite (D1 N); apply B1; exact N|congruence]. Qed.
Lemma moved_weaken (P Q : nat -> Prop) m m' : (forall a, (a < mm_next m)%nat -> P a -> Q a) -> moved P m m' -> moved Q m m'.
Proof. intros I (A & B). split; [exact A|]. intros a L. destruct (B a L) as [B1 B2]. split; [|exact B2]. intros N. apply B1. intros Pa. apply N, I; assumption. Qed.
Lemma moved_view P m m' s : moved P m m' -> (sl_arr s < mm_next m)%nat -> ~ P (sl_arr s) -> view m' s = view m s.
Proof. intros (_ & B) L N. unfold view. rewrite (proj1 (B _ L) N). reflexivity. Qed.
Lemma moved_swf P m m' s : moved P m m' -> swf m s -> swf m' s.
Proof. intros (A & B) (X & Y & Z). unfold swf. rewrite (proj2 (B _ X)). split; [lia|]. auto. Qed.

Lemma put_behind m b p : bwf m b -> swf m p -> sl_arr p <> bf_arr b -> (bf_end b + sl_len p <= length (mm_at m (bf_arr b)))%nat ->
  let m' := blit m (bf_arr b) (bf_end b) (view m p) in let b' := Bf (bf_arr b) (bf_off b) (bf_end b + sl_len p) in
  content m' b' = content m b ++ view m p /\ bwf m' b' /\ moved (fun a => a = bf_arr b) m m'.
Proof.
  intros (A & B) W N L. cbv zeta. pose proof (view_length m p W) as Lp. assert (F : (bf_end b + length (view m p) <= length (mm_at m (bf_arr b)))%nat) by lia.
  split; [|split; [unfold bwf; cbn [bf_arr bf_off bf_end]; rewrite blit_length by exact F; cbn [blit mm_next]; lia|apply moved_blit; [reflexivity|exact F]]].
  rewrite !content_def. cbn [bf_arr bf_off bf_end]. rewrite at_blit. replace (bf_end b + sl_len p - bf_off b)%nat with (bf_end b - bf_off b + length (view m p))%nat by lia. apply window. lia.
Qed.
Lemma write_ok m b p g m' b' : bwf m b -> swf m p -> sl_arr p <> bf_arr b -> bf_write m b p g = (m', b') ->
  content m' b' = content m b ++ view m p /\ bwf m' b' /\ moved (fun a => a = bf_arr b) m m' /\ (bf_arr b' = bf_arr b \/ (mm_next m <= bf_arr b')%nat).
Proof.
  intros W Wp N E. unfold bf_write in E. cbv zeta in E. pose proof (view_length m p Wp) as Lp. destruct (Nat.leb_spec (bf_end b + sl_len p) (length (mm_at m (bf_arr b)))) as [L|L].
  { injection E as <- <-. destruct (put_behind m b p W Wp N L) as (X & Y & Z). auto. }
  set (b1 := if (bf_end b - bf_off b =? 0)%nat then Bf (bf_arr b) 0 0 else b) in *.
  assert (B1 : bf_arr b1 = bf_arr b /\ content m b1 = content m b /\ bwf m b1).
  { unfold b1. destruct (Nat.eqb_spec (bf_end b - bf_off b) 0) as [Q|Q]; [|auto]. destruct W as (W1 & W2). split; [reflexivity|]. split; [|unfold bwf; cbn [bf_arr bf_off bf_end]; lia]. rewrite !content_def. cbn [bf_arr bf_off bf_end]. rewrite Q. reflexivity. }
  destruct B1 as (A1 & C1 & W1). rewrite <- C1. rewrite <- A1 in *. destruct (Nat.leb_spec (bf_end b1 + sl_len p) (length (mm_at m (bf_arr b1)))) as [L1|L1].
  { injection E as <- <-. destruct (put_behind m b1 p W1 Wp N L1) as (X & Y & Z). auto. }
  fold (content m b1) in E. set (d := content m b1) in *. pose proof (content_length m b1 W1) as Ld. fold d in Ld.
  assert (Fr : forall x, (alloc m (d ++ view m p ++ repeat 0 x), Bf (mm_next m) 0 (length d + sl_len p)) = (m', b') -> content m' b' = d ++ view m p /\ bwf m' b' /\ moved (fun a => a = bf_arr b1) m m' /\ (bf_arr b' = bf_arr b1 \/ (mm_next m <= bf_arr b')%nat)).
  { intros x X. injection X as <- <-. split; [|split; [|split; [apply moved_grown, grown_alloc|right; cbn [bf_arr]; lia]]].
    - rewrite content_def. cbn [bf_arr bf_off bf_end]. rewrite at_alloc. cbn [skipn]. rewrite Nat.sub_0_r, app_assoc. rewrite <- Lp, <- app_length, firstn_app, Nat.sub_diag. cbn [firstn]. rewrite app_nil_r. apply firstn_all.
    - unfold bwf. cbn [bf_arr bf_off bf_end]. rewrite at_alloc, !app_length, repeat_length. cbn [alloc mm_next]. lia. }
  destruct g as [x|]; [exact (Fr x E)|]. destruct (Nat.leb_spec (length d + sl_len p) (length (mm_at m (bf_arr b1)))) as [L2|L2]; [|exact (Fr 0%nat E)].
  injection E as <- <-. set (m1 := blit m (bf_arr b1) 0 d). set (b2 := Bf (bf_arr b1) 0 (length d)).
  assert (F1 : (0 + length d <= length (mm_at m (bf_arr b1)))%nat) by (clearbody d b1; clear - L2; lia). assert (W2 : bwf m1 b2) by (unfold bwf, b2; cbn [bf_arr bf_off bf_end]; unfold m1; rewrite blit_length by exact F1; clearbody d b1; cbn [blit mm_next]; destruct W1; lia).
  assert (C2 : content m1 b2 = d). { rewrite content_def. unfold b2, m1. cbn [bf_arr bf_off bf_end]. rewrite at_blit. cbn [firstn app skipn]. rewrite Nat.sub_0_r, firstn_app, Nat.sub_diag. cbn [firstn]. rewrite app_nil_r. apply firstn_all. }
  assert (Wp1 : swf m1 p) by (apply swf_blit; [exact F1|exact Wp]). destruct (put_behind m1 b2 p W2 Wp1 N) as (X & Y & Z); [unfold b2, m1; cbn [bf_arr bf_end]; rewrite blit_length by exact F1; exact L2|].
  unfold b2 in X, Y, Z at 1. cbn [bf_arr bf_off bf_end] in X, Y, Z. fold b2 in X. rewrite C2 in X. split; [rewrite X; f_equal; apply view_blit; exact N|]. split; [exact Y|]. split; [|left; reflexivity].
  apply (moved_trans _ m m1); [apply moved_blit; [reflexivity|exact F1]|exact Z].
Qed.

Lemma try_ok env key m b : bwf m b -> exists v m' b', m_try env key m b = (fst (read_from_buffer env key (content m b)), v, m', b') /\ content m' b' = snd (read_from_buffer env key (content m b)) /\
  grown m m' /\ bf_arr b' = bf_arr b /\ bwf m' b' /\ (forall x, fst (read_from_buffer env key (content m b)) = ScanMsg x -> exists w, v = Some w /\ handed env m m' x w).
Proof.
  intros W. unfold m_try. cbv zeta. fold (content m b). unfold read_from_buffer. destruct (content m b) as [|x t] eqn:C.
  { exists None, m, b. cbn [fst snd]. split; [reflexivity|]. split; [exact C|]. split; [apply grown_refl|]. split; [reflexivity|]. split; [exact W|discriminate]. }
  destruct (negb (x =? prefix_id)).
  { destruct (next_ok m b (find_prefix (x :: t)) W) as [X Y]. eexists. eexists. eexists. split; [reflexivity|]. cbn [fst snd]. rewrite Y, C. split; [reflexivity|]. split; [apply grown_refl|]. split; [reflexivity|]. split; [exact X|discriminate]. }
  pose proof (content_length m b W) as L. rewrite C in L. cbn [sl_len bf_bytes]. rewrite <- L. destruct (Nat.eqb_spec (S (find_prefix t)) (length (x :: t))) as [Q|Q].
  { eexists. eexists. eexists. split; [reflexivity|]. cbn [fst snd]. rewrite C. split; [reflexivity|]. split; [apply grown_refl|]. split; [reflexivity|]. split; [exact W|discriminate]. }
  assert (Fp : (find_prefix t <= length t)%nat) by (clear; induction t as [|y t IH]; cbn [find_prefix length]; [lia|destruct (y =? prefix_id); lia]). cbn [length] in *.
  assert (V : view m (sub (bf_bytes m b) 0 (S (S (find_prefix t)))) = firstn (S (S (find_prefix t))) (x :: t)).
  { rewrite view_sub by (cbn [bf_bytes sl_len]; lia). fold (content m b). rewrite C. cbn [skipn]. rewrite Nat.sub_0_r. reflexivity. }
  assert (Ws : swf m (sub (bf_bytes m b) 0 (S (S (find_prefix t))))) by (apply swf_sub; [cbn [bf_bytes sl_len]; lia|apply bytes_swf; exact W]).
  destruct (decode_ok env key m _ Ws) as (m' & G & D). rewrite V in D. destruct (grown_content m m' b G W) as [C' W']. destruct (next_ok m' b (S (S (find_prefix t))) W') as [X Y].
  destruct (msg_decode env key (firstn (S (S (find_prefix t))) (x :: t))) as [y|e|].
  - destruct D as (v & D & H). rewrite D. eexists. eexists. eexists. split; [reflexivity|]. cbn [fst snd]. rewrite Y, C', C. split; [reflexivity|]. split; [exact G|]. split; [reflexivity|]. split; [exact X|]. intros z Z. injection Z as <-. eauto.
  - rewrite D. eexists. eexists. eexists. split; [reflexivity|]. cbn [fst snd]. rewrite Y, C', C. split; [reflexivity|]. split; [exact G|]. split; [reflexivity|]. split; [exact X|discriminate].
  - rewrite D. eexists. eexists. eexists. split; [reflexivity|]. cbn [fst snd]. rewrite C', C. split; [reflexivity|]. split; [exact G|]. split; [reflexivity|]. split; [exact W'|discriminate].
Qed.
