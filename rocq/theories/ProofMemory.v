(** Windows into arrays. *)
From Verif Require Import Base LibBase Bits Env Registry Message Codec Memory.

Definition swf (m : memory) (s : slice) : Prop := (sl_arr s < mm_next m)%nat /\ (sl_len s <= sl_cap s)%nat /\ (sl_off s + sl_cap s <= length (mm_at m (sl_arr s)))%nat.
Lemma view_length m s : swf m s -> length (view m s) = sl_len s.
Proof. intros (_ & L & C). unfold view. rewrite firstn_length, skipn_length. lia. Qed.
Lemma view_blit m a i bs s : sl_arr s <> a -> view (blit m a i bs) s = view m s.
Proof. intros N. unfold view, blit. cbn [mm_at]. destruct (Nat.eqb_spec (sl_arr s) a); [congruence|reflexivity]. Qed.
Lemma view_alloc m x s : (sl_arr s < mm_next m)%nat -> view (alloc m x) s = view m s.
Proof. intros N. unfold view, alloc. cbn [mm_at]. destruct (Nat.eqb_spec (sl_arr s) (mm_next m)); [lia|reflexivity]. Qed.
Lemma at_alloc m x : mm_at (alloc m x) (mm_next m) = x.
Proof. cbn [alloc mm_at]. rewrite Nat.eqb_refl. reflexivity. Qed.
Lemma at_blit m a i bs : mm_at (blit m a i bs) a = firstn i (mm_at m a) ++ bs ++ skipn (i + length bs) (mm_at m a).
Proof. cbn [blit mm_at]. rewrite Nat.eqb_refl. reflexivity. Qed.
Lemma at_blit_other m a i bs a' : a' <> a -> mm_at (blit m a i bs) a' = mm_at m a'.
Proof. intros N. cbn [blit mm_at]. destruct (Nat.eqb_spec a' a); [congruence|reflexivity]. Qed.
Lemma blit_length m a i bs a' : (i + length bs <= length (mm_at m a))%nat -> length (mm_at (blit m a i bs) a') = length (mm_at m a').
Proof.
  intros L. destruct (Nat.eq_dec a' a) as [->|N]; [|rewrite at_blit_other; auto]. rewrite at_blit, !app_length, firstn_length, skipn_length. lia.
Qed.
Lemma swf_blit m a i bs s : (i + length bs <= length (mm_at m a))%nat -> swf m s -> swf (blit m a i bs) s.
Proof. intros L (A & B & C). unfold swf. rewrite blit_length by exact L. auto. Qed.
(** a window that ends where something was put *)
Lemma window (x bs t : bytes) off i : (off <= i <= length x)%nat -> firstn (i - off + length bs) (skipn off (firstn i x ++ bs ++ t)) = firstn (i - off) (skipn off x) ++ bs.
Proof.
  intros L. rewrite skipn_app. replace (off - length (firstn i x))%nat with 0%nat by (rewrite firstn_length; lia). cbn [skipn]. rewrite skipn_firstn_comm.
  assert (Q : length (firstn (i - off) (skipn off x)) = (i - off)%nat) by (rewrite firstn_length, skipn_length; lia).
  rewrite <- Q at 1. rewrite firstn_app_2. f_equal. rewrite firstn_app, Nat.sub_diag. cbn [firstn]. rewrite app_nil_r. apply firstn_all.
Qed.
Definition same_except (a : nat) (m m' : memory) : Prop := mm_next m' = mm_next m /\ (forall a', a' <> a -> mm_at m' a' = mm_at m a') /\ length (mm_at m' a) = length (mm_at m a).
Lemma same_refl a m : same_except a m m.
Proof. split; auto. Qed.
Lemma same_trans a m1 m2 m3 : same_except a m1 m2 -> same_except a m2 m3 -> same_except a m1 m3.
Proof. intros (A & B & C) (D & E & F). split; [congruence|]. split; [|congruence]. intros a' N. rewrite (E a' N). apply B. exact N. Qed.
Lemma same_blit m a i bs : (i + length bs <= length (mm_at m a))%nat -> same_except a m (blit m a i bs).
Proof. intros L. split; [reflexivity|]. split; [intros a' N; apply at_blit_other; exact N|apply blit_length; exact L]. Qed.
Lemma append_ok m s b : swf m s -> (sl_len s < sl_cap s)%nat -> let '(m', s') := append1 m s b in view m' s' = view m s ++ [b] /\ swf m' s' /\ same_except (sl_arr s) m m' /\ sl_arr s' = sl_arr s /\ sl_off s' = sl_off s /\ sl_len s' = S (sl_len s) /\ sl_cap s' = sl_cap s.
Proof.
  intros (A & B & C) L. unfold append1. destruct (Nat.ltb_spec (sl_len s) (sl_cap s)); [|lia]. cbn [sl_arr sl_off sl_len sl_cap].
  assert (F : (sl_off s + sl_len s + length [b] <= length (mm_at m (sl_arr s)))%nat) by (cbn [length]; lia).
  split; [|split; [unfold swf; cbn [sl_arr sl_off sl_len sl_cap]; rewrite blit_length by exact F; cbn [blit mm_next]; lia|split; [apply same_blit; exact F|auto]]].
  unfold view. cbn [sl_arr sl_off sl_len]. rewrite at_blit. pose proof (window (mm_at m (sl_arr s)) [b] (skipn (sl_off s + sl_len s + length [b]) (mm_at m (sl_arr s))) (sl_off s) (sl_off s + sl_len s) ltac:(lia)) as W.
  replace (sl_off s + sl_len s - sl_off s)%nat with (sl_len s) in W by lia. cbn [length] in W. rewrite Nat.add_1_r in W. exact W.
Qed.

Lemma skipn_nth {A} (l : list A) : forall i x, nth_error l i = Some x -> skipn i l = x :: skipn (S i) l.
Proof. induction l as [|y l IH]; intros [|i] x E; try discriminate; [injection E as ->; reflexivity|]. cbn [skipn]. rewrite (IH i x E). destruct l; reflexivity. Qed.
(** ** The unescape loop *)
Lemma unescape_ok : forall fuel m src i dst cs, swf m src -> swf m dst -> sl_arr src <> sl_arr dst -> (i <= sl_len src)%nat -> (sl_len src < fuel + i)%nat -> (sl_len dst + sl_len src <= sl_cap dst + i)%nat ->
  exists m', same_except (sl_arr dst) m m' /\
  match unescape (skipn i (view m src)) cs (rev (view m dst)) with
  | Ok (cs', l) => exists dst', m_unescape fuel m src i dst cs = (m', Ok (dst', cs')) /\ view m' dst' = l /\ swf m' dst' /\ sl_arr dst' = sl_arr dst
  | Err e => m_unescape fuel m src i dst cs = (m', Err e)
  | Panic => False
  end.
Proof.
  induction fuel as [|f IH]; intros m src i dst cs Ws Wd N Li F C.
  - lia.
  - cbn [m_unescape]. destruct (nth_error (view m src) i) as [b|] eqn:B.
    + assert (L : (i < sl_len src)%nat) by (rewrite <- (view_length m src Ws); apply nth_error_Some; congruence).
      rewrite (skipn_nth _ _ _ B).
      assert (G : forall x k cs', (k > 0)%nat -> (i + k <= sl_len src)%nat -> exists m', same_except (sl_arr dst) m m' /\
        match unescape (skipn (i + k) (view m src)) cs' (x :: rev (view m dst)) with
        | Ok (cs2, l) => exists dst', (let '(m1, dst1) := append1 m dst x in m_unescape f m1 src (i + k) dst1 cs') = (m', Ok (dst', cs2)) /\ view m' dst' = l /\ swf m' dst' /\ sl_arr dst' = sl_arr dst
        | Err e => (let '(m1, dst1) := append1 m dst x in m_unescape f m1 src (i + k) dst1 cs') = (m', Err e)
        | Panic => False
        end).
      { intros x k cs' K Lk. pose proof (append_ok m dst x Wd ltac:(lia)) as Ap. destruct (append1 m dst x) as [m1 dst1]. destruct Ap as (V & W1 & Sm & A1 & _ & L1 & C1).
        assert (Ws1 : swf m1 src) by (destruct Ws as (P & Q & R), Sm as (S1 & S2 & S3); unfold swf; rewrite S1, (S2 (sl_arr src) N); auto).
        assert (Vs : view m1 src = view m src) by (unfold view; destruct Sm as (_ & S2 & _); rewrite (S2 (sl_arr src) N); reflexivity).
        destruct (IH m1 src (i + k)%nat dst1 cs' Ws1 W1 ltac:(congruence) ltac:(lia) ltac:(lia) ltac:(lia)) as (m' & Sm' & H). rewrite Vs, V, rev_app_distr in H. cbn [rev app] in H. rewrite A1 in *.
        exists m'. split; [exact (same_trans _ _ _ _ Sm Sm')|exact H]. }
      cbn [unescape]. destruct (negb (b =? escape_byte)).
      * specialize (G b 1%nat (Z.lxor cs b) ltac:(lia) ltac:(lia)). rewrite Nat.add_1_r in G. exact G.
      * destruct (nth_error (view m src) (S i)) as [c|] eqn:Cn.
        -- assert (L2 : (S i < sl_len src)%nat) by (rewrite <- (view_length m src Ws); apply nth_error_Some; congruence). rewrite (skipn_nth _ _ _ Cn).
           destruct (c =? escape_suffix1); [|destruct (c =? escape_suffix2)].
           ++ specialize (G escape_byte 2%nat (Z.lxor cs escape_byte) ltac:(lia) ltac:(lia)). replace (i + 2)%nat with (S (S i)) in G by lia. exact G.
           ++ specialize (G prefix_id 2%nat (Z.lxor cs prefix_id) ltac:(lia) ltac:(lia)). replace (i + 2)%nat with (S (S i)) in G by lia. exact G.
           ++ exists m. split; [apply same_refl|reflexivity].
        -- rewrite skipn_all2 by (apply nth_error_None; exact Cn). exists m. split; [apply same_refl|reflexivity].
    + rewrite skipn_all2 by (apply nth_error_None; exact B). cbn [unescape]. rewrite rev_involutive. exists m. split; [apply same_refl|]. exists dst. auto.
Qed.
