(** Decode over memory is Decode; it writes to new arrays only. *)
From Verif Require Import Base LibBase Bits Env Registry Message Codec Memory ProofMemory.

Lemma skip_skip {A} (l : list A) : forall a b, skipn a (skipn b l) = skipn (a + b) l.
Proof. induction l as [|x l IH]; intros a b; [rewrite !skipn_nil; reflexivity|]. destruct b; [rewrite Nat.add_0_r; reflexivity|]. rewrite Nat.add_succ_r. cbn [skipn]. apply IH. Qed.
Lemma view_sub m s a b : (a <= b <= sl_len s)%nat -> view m (sub s a b) = firstn (b - a) (skipn a (view m s)).
Proof. intros L. unfold view, sub. cbn [sl_arr sl_off sl_len]. rewrite skipn_firstn_comm, firstn_firstn, skip_skip. f_equal; [lia|]. f_equal. lia. Qed.
Lemma swf_sub m s a b : (a <= b <= sl_len s)%nat -> swf m s -> swf m (sub s a b).
Proof. intros L (A & B & C). unfold swf, sub. cbn [sl_arr sl_off sl_len sl_cap]. lia. Qed.
Definition grown (m m' : memory) : Prop := (mm_next m <= mm_next m')%nat /\ forall a, (a < mm_next m)%nat -> mm_at m' a = mm_at m a.
Lemma grown_refl m : grown m m.
Proof. split; auto. Qed.
Lemma grown_trans m1 m2 m3 : grown m1 m2 -> grown m2 m3 -> grown m1 m3.
Proof. intros (A & B) (C & D). split; [lia|]. intros a L. rewrite D by lia. apply B. exact L. Qed.
Lemma grown_alloc m x : grown m (alloc m x).
Proof. split; [cbn [alloc mm_next]; lia|]. intros a L. cbn [alloc mm_at]. destruct (Nat.eqb_spec a (mm_next m)); [lia|reflexivity]. Qed.
Lemma grown_view m m' s : grown m m' -> (sl_arr s < mm_next m)%nat -> view m' s = view m s.
Proof. intros (_ & G) L. unfold view. rewrite (G _ L). reflexivity. Qed.
Lemma grown_swf m m' s : grown m m' -> swf m s -> swf m' s.
Proof. intros (G1 & G2) (A & B & C). unfold swf. rewrite (G2 _ A). split; [lia|]. auto. Qed.

Lemma index_nat l n : index l n = Panic \/ exists b, index l n = Ok b /\ 0 <= n < zlen l.
Proof.
  unfold index. destruct (n <? 0) eqn:A; cbn [orb]; [auto|]. destruct (zlen l <=? n) eqn:B; [auto|]. right. destruct (nth_error l (Z.to_nat n)) eqn:E; [eexists; split; [reflexivity|lia]|].
  exfalso. apply nth_error_None in E. unfold zlen in *. lia.
Qed.
Lemma upto_nat l n : (n <= length l)%nat -> upto l (Z.of_nat n) = Ok (firstn n l).
Proof. intros L. unfold upto, zlen. destruct (Z.ltb_spec (Z.of_nat n) 0); [lia|]. destruct (Z.ltb_spec (Z.of_nat (length l)) (Z.of_nat n)); [lia|]. cbn [orb]. rewrite Nat2Z.id. reflexivity. Qed.
Lemma from_nat l n : (n <= length l)%nat -> from l (Z.of_nat n) = Ok (skipn n l).
Proof. intros L. unfold from, zlen. destruct (Z.ltb_spec (Z.of_nat n) 0); [lia|]. destruct (Z.ltb_spec (Z.of_nat (length l)) (Z.of_nat n)); [lia|]. cbn [orb]. rewrite Nat2Z.id. reflexivity. Qed.
Definition relates (m : memory) (s : slice) (a : res (bytes * Z)) (b : res (slice * Z)) : Prop :=
  match a with
  | Ok (d, x) => exists s', b = Ok (s', x) /\ view m s' = d /\ swf m s' /\ sl_arr s' = sl_arr s
  | Err e => b = Err e
  | Panic => b = Panic
  end.
Lemma split_ok m s : swf m s -> relates m s (split_checksum (view m s)) (m_split m s).
Proof.
  intros W. unfold split_checksum, m_split. cbv zeta. pose proof (view_length m s W) as L. unfold zlen. rewrite L.
  destruct (index_nat (view m s) (Z.of_nat (sl_len s) - 1)) as [->|(sum & -> & _)]; [reflexivity|]. cbn [bind].
  destruct (index_nat (view m s) (Z.of_nat (sl_len s) - 2)) as [->|(prev & -> & P)]; [reflexivity|]. cbn [bind].
  assert (U : forall k x, (k <= sl_len s)%nat -> relates m s (do d <- upto (view m s) (Z.of_nat (sl_len s) - Z.of_nat k) ; Ok (d, x)) (Ok (sub s 0 (sl_len s - k), x))).
  { intros k x K. replace (Z.of_nat (sl_len s) - Z.of_nat k) with (Z.of_nat (sl_len s - k)) by lia. rewrite upto_nat by (rewrite L; lia). cbn [bind relates]. eexists. split; [reflexivity|].
    rewrite view_sub by lia. cbn [skipn]. rewrite Nat.sub_0_r. split; [reflexivity|]. split; [apply swf_sub; [lia|exact W]|reflexivity]. }
  destruct (negb (prev =? escape_byte)); [apply (U 1%nat); lia|]. destruct (sum =? escape_suffix1); [apply (U 2%nat); lia|]. destruct (sum =? escape_suffix2); [apply (U 2%nat); lia|reflexivity].
Qed.
Definition front (data : bytes) : res (bytes * Z) :=
  do first <- index data 0 ; do last <- index data (zlen data - 1) ;
  if negb (first =? prefix_id) || negb (last =? prefix_id) then Err ErrInvalidMessage
  else do d0 <- upto data (zlen data - 1) ; do d1 <- from d0 1 ; if zlen d1 =? 0 then Err ErrInvalidMessage else split_checksum d1.
Definition m_front (m : memory) (s : slice) : res (slice * Z) :=
  do first <- index (view m s) 0 ; do last <- index (view m s) (Z.of_nat (sl_len s) - 1) ;
  if negb (first =? prefix_id) || negb (last =? prefix_id) then Err ErrInvalidMessage
  else let s1 := sub s 1 (sl_len s - 1) in if (sl_len s1 =? 0)%nat then Err ErrInvalidMessage else m_split m s1.
Lemma front_ok m s : swf m s -> (2 <= sl_len s)%nat -> relates m s (front (view m s)) (m_front m s).
Proof.
  intros W G. unfold front, m_front. pose proof (view_length m s W) as L. unfold zlen at 1 2. rewrite L.
  destruct (index_nat (view m s) 0) as [->|(a & -> & _)]; [reflexivity|]. cbn [bind]. destruct (index_nat (view m s) (Z.of_nat (sl_len s) - 1)) as [->|(b & -> & _)]; [reflexivity|]. cbn [bind].
  destruct (negb (a =? prefix_id) || negb (b =? prefix_id)); [reflexivity|]. replace (Z.of_nat (sl_len s) - 1) with (Z.of_nat (sl_len s - 1)) by lia. rewrite upto_nat by (rewrite L; lia). cbn [bind].
  change 1 with (Z.of_nat 1) at 1. rewrite from_nat by (rewrite firstn_length, L; lia). cbn [bind]. cbv zeta.
  assert (V : view m (sub s 1 (sl_len s - 1)) = skipn 1 (firstn (sl_len s - 1) (view m s))) by (rewrite view_sub by lia; rewrite skipn_firstn_comm; reflexivity).
  assert (Ws : swf m (sub s 1 (sl_len s - 1))) by (apply swf_sub; [lia|exact W]). rewrite <- V. unfold zlen at 1. rewrite (view_length _ _ Ws).
  destruct (Nat.eqb_spec (sl_len (sub s 1 (sl_len s - 1))) 0) as [Q|Q]; destruct (Z.eqb_spec (Z.of_nat (sl_len (sub s 1 (sl_len s - 1)))) 0); try lia; [reflexivity|].
  pose proof (split_ok m _ Ws) as H. exact H.
Qed.
Lemma unframe_front d : unframe d = if zlen d <? 2 then Err ErrInvalidMessage else
  do (d2, sum) <- front d ; do (cs, buf) <- unescape d2 0 [] ; if (zlen buf =? 0) || negb (cs =? sum) then Err ErrInvalidCheckSum else Ok buf.
Proof.
  unfold unframe, front. destruct (zlen d <? 2); [reflexivity|]. destruct (index d 0); cbn [bind]; try reflexivity. destruct (index d (zlen d - 1)); cbn [bind]; try reflexivity.
  destruct (_ || _); cbn [bind]; try reflexivity. destruct (upto d (zlen d - 1)) as [x| |]; cbn [bind]; try reflexivity. destruct (from x 1) as [y| |]; cbn [bind]; try reflexivity. destruct (zlen y =? 0); reflexivity.
Qed.

(** The message was read from these bytes. *)
Definition read_from (env : Env) (x : message) (d : bytes) : Prop := forall e, m_body x = BEnt e -> exists n, decode env (h_id (m_hdr x)) d = Ok (e, n).
Definition handed (env : Env) (m m' : memory) (x : message) (v : slice) : Prop := (mm_next m <= sl_arr v)%nat /\ swf m' v /\ read_from env x (view m' v).
Lemma decode_ok env key m s : swf m s -> exists m', grown m m' /\
  match msg_decode env key (view m s) with
  | Ok x => exists v, m_decode env key m s = (m', Ok (x, v)) /\ handed env m m' x v
  | Err e => m_decode env key m s = (m', Err e)
  | Panic => m_decode env key m s = (m', Panic)
  end.
Proof.
  intros W. unfold msg_decode. rewrite unframe_front. pose proof (view_length m s W) as L. unfold m_decode. cbv zeta. unfold zlen at 1. rewrite L.
  destruct (Nat.ltb_spec (sl_len s) 2) as [S2|S2]; destruct (Z.ltb_spec (Z.of_nat (sl_len s)) 2); try lia; [exists m; split; [apply grown_refl|reflexivity]|].
  fold (m_front m s). pose proof (front_ok m s W S2) as F. change (do first <- index (view m s) 0 ; do last <- index (view m s) (Z.of_nat (sl_len s) - 1) ;
    if negb (first =? prefix_id) || negb (last =? prefix_id) then Err ErrInvalidMessage
    else if (sl_len (sub s 1 (sl_len s - 1)) =? 0)%nat then Err ErrInvalidMessage else m_split m (sub s 1 (sl_len s - 1))) with (m_front m s).
  destruct (front (view m s)) as [[d2 sum]|e|]; cbn [relates] in F; [|rewrite F; exists m; split; [apply grown_refl|reflexivity]|rewrite F; exists m; split; [apply grown_refl|reflexivity]].
  destruct F as (s2 & F & V2 & W2 & A2). rewrite F. cbn [bind]. clear F. set (m1 := alloc m (repeat 0 (sl_len s2))). set (dst := Sl (mm_next m) 0 0 (sl_len s2)).
  assert (G1 : grown m m1) by apply grown_alloc. destruct W2 as (W2a & W2b & W2c).
  assert (Wd : swf m1 dst) by (unfold swf, dst; cbn [sl_arr sl_off sl_len sl_cap]; unfold m1 at 2; rewrite at_alloc, repeat_length; cbn [m1 alloc mm_next]; lia).
  assert (Ws1 : swf m1 s2) by (apply (grown_swf m); [exact G1|split; auto]).
  destruct (unescape_ok (S (sl_len s2)) m1 s2 0 dst 0 Ws1 Wd) as (m2 & Sm & U); [unfold dst; cbn [sl_arr]; lia|lia|lia|unfold dst; cbn [sl_len sl_cap]; lia|].
  rewrite (grown_view m m1 s2 G1 W2a), V2 in U. cbn [skipn] in U. replace (rev (view m1 dst)) with (@nil Z) in U by (unfold view, dst; cbn [sl_len firstn]; reflexivity).
  assert (G2 : grown m m2). { destruct Sm as (S1 & S3 & _). destruct G1 as (X & Y). split; [rewrite S1; exact X|]. intros a La. rewrite S3 by (unfold dst; cbn [sl_arr]; lia). apply Y. exact La. }
  destruct (unescape d2 0 []) as [[cs buf]|e|]; [|rewrite U; exists m2; split; [exact G2|reflexivity]|destruct U]. destruct U as (bs & U & Vb & Wb & Ab). rewrite U. cbn [bind]. clear U.
  pose proof (view_length m2 bs Wb) as Lb. rewrite Vb in Lb. unfold zlen at 1. rewrite Lb.
  replace (Z.of_nat (sl_len bs) =? 0) with (sl_len bs =? 0)%nat by (destruct (Nat.eqb_spec (sl_len bs) 0), (Z.eqb_spec (Z.of_nat (sl_len bs)) 0); try reflexivity; lia).
  destruct ((sl_len bs =? 0)%nat || negb (cs =? sum)); [exists m2; split; [exact G2|reflexivity]|]. cbn [bind]. unfold zlen at 1. rewrite Lb.
  destruct (Z.of_nat (sl_len bs) <? header_size); [exists m2; split; [exact G2|reflexivity]|]. rewrite Vb.
  destruct (hdr_decode buf) as [h|e|]; cbn [bind]; [|exists m2; split; [exact G2|reflexivity]|exists m2; split; [exact G2|reflexivity]].
  set (n := if is_enable_packet (h_prop h) then header_size + 4 else header_size). assert (N0 : 0 <= n) by (unfold n, header_size; destruct (is_enable_packet (h_prop h)); lia).
  destruct (Z.ltb_spec (Z.of_nat (sl_len bs)) n) as [Ln|Ln].
  { replace (from buf n) with (@Panic bytes) by (unfold from, zlen; destruct (Z.ltb_spec n 0); [lia|]; destruct (Z.ltb_spec (Z.of_nat (length buf)) n); [reflexivity|lia]). cbn [bind]. exists m2. split; [exact G2|reflexivity]. }
  assert (Hn : from buf n = Ok (skipn (Z.to_nat n) buf)) by (rewrite <- (from_nat buf (Z.to_nat n)) by lia; rewrite (Z2Nat.id n N0); reflexivity). rewrite Hn. cbn [bind]. set (rs := sub bs (Z.to_nat n) (sl_len bs)).
  assert (Vr : view m2 rs = skipn (Z.to_nat n) buf). { unfold rs. rewrite view_sub by lia. rewrite Vb. apply firstn_all2. rewrite skipn_length. lia. }
  assert (Wr : swf m2 rs) by (apply swf_sub; [lia|exact Wb]). pose proof (view_length m2 rs Wr) as Lr. rewrite Vr in Lr. rewrite <- Vr. unfold decode_body. unfold zlen. rewrite (view_length m2 rs Wr).
  assert (Fr : (mm_next m <= sl_arr rs)%nat) by (unfold rs, sub; cbn [sl_arr]; rewrite Ab; unfold dst; cbn [sl_arr]; lia).
  destruct (negb (u16 (Z.of_nat (sl_len rs)) =? get_body_size (h_prop h))).
  { cbn [bind]. exists m2. split; [exact G2|]. exists rs. split; [reflexivity|]. split; [exact Fr|]. split; [exact Wr|]. intros e0 X. discriminate X. }
  assert (K : forall m3 pl, grown m m3 -> (mm_next m <= sl_arr pl)%nat -> swf m3 pl -> exists m', grown m m' /\
    match (do b <- match decode env (h_id h) (view m3 pl) with Ok (e, _) => Ok (BEnt e) | Err _ => Ok BNil | Panic => Panic end ; Ok (Message h b)) with
    | Ok x => exists v, match decode env (h_id h) (view m3 pl) with Ok (e, _) => (m3, Ok (Message h (BEnt e), pl)) | Err _ => (m3, Ok (Message h BNil, pl)) | Panic => (m3, Panic) end = (m', Ok (x, v)) /\ handed env m m' x v
    | Err e => match decode env (h_id h) (view m3 pl) with Ok (e, _) => (m3, Ok (Message h (BEnt e), pl)) | Err _ => (m3, Ok (Message h BNil, pl)) | Panic => (m3, Panic) end = (m', Err e)
    | Panic => match decode env (h_id h) (view m3 pl) with Ok (e, _) => (m3, Ok (Message h (BEnt e), pl)) | Err _ => (m3, Ok (Message h BNil, pl)) | Panic => (m3, Panic) end = (m', Panic)
    end).
  { intros m3 pl G3 F3 W3. exists m3. split; [exact G3|]. destruct (decode env (h_id h) (view m3 pl)) as [[e k]|e|] eqn:De; cbn [bind]; [| |reflexivity].
    - exists pl. split; [reflexivity|]. split; [exact F3|]. split; [exact W3|]. intros e0 X. cbn [m_body] in X. injection X as <-. exists k. exact De.
    - exists pl. split; [reflexivity|]. split; [exact F3|]. split; [exact W3|]. intros e0 X. discriminate X. }
  destruct (is_enable_encrypt (h_prop h)).
  - destruct key as [priv|]; [|cbn [bind]; exists m2; split; [exact G2|reflexivity]]. destruct (decrypt_oaep env priv (view m2 rs)) as [p|e|]; cbn [bind]; [|exists m2; split; [exact G2|reflexivity]|exists m2; split; [exact G2|reflexivity]].
    pose proof (K (alloc m2 p) (Sl (mm_next m2) 0 (length p) (length p))) as Kp.
    replace (view (alloc m2 p) (Sl (mm_next m2) 0 (length p) (length p))) with p in * by (unfold view; cbn [sl_len sl_off sl_arr skipn]; rewrite at_alloc; symmetry; apply firstn_all).
    apply Kp; [exact (grown_trans _ _ _ G2 (grown_alloc m2 p))|cbn [sl_arr]; destruct G2; lia|]. unfold swf. cbn [sl_arr sl_len sl_cap sl_off]. rewrite at_alloc. cbn [alloc mm_next]. lia.
  - cbn [bind]. exact (K m2 rs G2 Fr Wr).
Qed.
