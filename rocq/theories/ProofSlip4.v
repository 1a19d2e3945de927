(** One byte of a stream of messages changed on the way; lemmas behind C169. *)
From Verif Require Import Base LibBase Bits LibBits ProofBits Bcd LibBcd Env Registry Message Codec SpecFrame ProofFrame ProofHeader SpecMsg ProofMsg SpecStream ProofStream ProofStream2 SpecSlip ProofSlip ProofSlip2 ProofSlip3.

Lemma reads_prefix u Q : reads u Q -> forall t P, reads (u ++ t) P -> exists R, P = Q ++ R /\ reads t R.
Proof.
  induction 1 as [|w q H IH|w q H IH|b w q B H IH]; intros t P R0; cbn [app] in *.
  - exists P. auto.
  - inversion R0 as [|w0 p0 R1|w0 p0 R1|b0 w0 p0 B0 R1]; subst; try congruence. destruct (IH _ _ R1) as (R & -> & RT). exists R. auto.
  - inversion R0 as [|w0 p0 R1|w0 p0 R1|b0 w0 p0 B0 R1]; subst; try congruence. destruct (IH _ _ R1) as (R & -> & RT). exists R. auto.
  - inversion R0 as [|w0 p0 R1|w0 p0 R1|b0 w0 p0 B0 R1]; subst; try congruence. destruct (IH _ _ R1) as (R & -> & RT). exists R. auto.
Qed.
Lemma reads_some t R : reads t R -> t <> [] -> R <> [].
Proof. destruct 1; congruence. Qed.

(** A frame whose payload begins like that of the message but has another length *)
Lemma start_decode env key data' q i1 i2 c d R'' k : carries data' q -> q = i1 :: i2 :: c :: d :: R'' -> 0 <= d < 256 ->
  k = (if Z.testbit (be16 c d) 13 then 16 else 12) -> (k <= zlen q -> (zlen q - k) mod 65536 <> be16 c d mod 1024) ->
  (exists x, msg_decode env key data' = Err x) \/ exists h, msg_decode env key data' = Ok (Message h BNil).
Proof.
  intros CR -> D -> NE. rewrite (decode_frame env key data' _ CR).
  destruct (hdr_decode (i1 :: i2 :: c :: d :: R'')) as [h|x|] eqn:HD; cbn [bind]; [|left; eauto|exfalso; eapply header_nopanic; eauto].
  right. exists h.
  assert (HP : h_prop h = be16 c d).
  { rewrite header_inv in HD. do 8 (destruct R'' as [|? R'']; [discriminate|]). destruct (parse_uint _); try discriminate. cbn [bind] in HD.
    destruct (Z.testbit (be16 c d) 13); [do 4 (destruct R'' as [|? R'']; [discriminate|])|]; injection HD as <-; reflexivity. }
  pose proof (header_len _ h HD) as L. rewrite HP in L. specialize (NE L).
  unfold decode_body. rewrite (after_header_len h _ (if Z.testbit (be16 c d) 13 then 16 else 12)), get_body_size_mod, HP; [|rewrite HP; reflexivity|exact L].
  destruct (Z.eqb_spec (u16 (zlen (i1 :: i2 :: c :: d :: R'') - (if Z.testbit (be16 c d) 13 then 16 else 12))) (be16 c d mod 1024)) as [E|_]; [exfalso; apply NE; exact E|reflexivity].
Qed.
Lemma short_decode env key data' q : carries data' q -> (length q < 4)%nat -> exists x, msg_decode env key data' = Err x.
Proof.
  intros CR L. rewrite (decode_frame env key data' _ CR), header_inv. destruct q as [|? [|? [|? [|? q]]]]; cbn [length] in L; try lia; eexists; reflexivity.
Qed.
Lemma escaped_len a b : escaped a b -> zlen a <= zlen b.
Proof. induction 1; zl; lia. Qed.

(** The three kinds of damage, frame by frame. [w] is what stands between the delimiters. *)
Section Frame.
Context (env : Env) (key : option Z) (env' : Env) (key' : option Z) (data : bytes) (r : message) (w : bytes).
Context (SH : shipped env key env' key' data r) (DW : data = [126] ++ w ++ [126]).

Lemma ship_facts : exists i1 i2 c d R (bdy : bytes), let p := i1 :: i2 :: c :: d :: R in frame p (xor_all p) data /\ escaped (p ++ [xor_all p]) w /\
    0 <= d < 256 /\ be16 c d mod 1024 = zlen bdy /\ zlen bdy < 65536 /\ zlen R + 4 = (if Z.testbit (be16 c d) 13 then 16 else 12) + zlen bdy.
Proof.
  destruct SH as (rnd & m & e & m' & B & P & L & E & _).
  destruct (encoded_start env key rnd m e data m' B P E) as (i1 & i2 & c & d & R & bdy & F & _ & _ & _ & _ & D & SZ & LN).
  exists i1, i2, c, d, R, bdy. intros p. split; [exact F|]. destruct (frame_wire p data F) as (w' & DW' & EW). rewrite DW in DW'. apply interior in DW'. subst w'.
  split; [exact EW|]. split; [exact D|]. assert (LB : zlen bdy < 65536).
  { apply escaped_len in EW. revert EW L. rewrite DW. unfold p. cbn [app]. zl. change (zlen (@nil Z)) with 0. intros. destruct (Z.testbit (be16 c d) 13); lia. }
  split; [|auto]. pose proof (zlen_nonneg bdy). rewrite SZ. apply Z.mod_small. lia.
Qed.
Lemma ship_wire : ~ In 126 w /\ w <> [] /\ (2 <= length w)%nat /\ zlen w <= 64998.
Proof.
  destruct ship_facts as (i1 & i2 & c & d & R & bdy & F & E & _). split; [eapply escaped_no_delim; eauto|].
  assert (L : (2 <= length w)%nat). { apply escaped_len in E. revert E. cbn [app]. zl. unfold zlen. pose proof (Nat2Z.is_nonneg (length R)). lia. }
  split; [intros ->; cbn [length] in L; lia|]. split; [exact L|].
  destruct SH as (_ & _ & _ & _ & _ & _ & Z0 & _). rewrite DW in Z0. revert Z0. zl. change (zlen (@nil Z)) with 0. lia.
Qed.
Lemma ship_clear : msg_decode env' key' (around w) = Ok r.
Proof. destruct SH as (_ & _ & _ & _ & _ & _ & _ & _ & H). unfold around. rewrite <- DW. exact H. Qed.

Definition harmed (f : bytes) : Prop :=
  (forall m, msg_decode env' key' (around f) = Ok m -> m = r \/ m_body m = BNil).
Lemma harmed_of f : (exists x, msg_decode env' key' (around f) = Err x) \/ (exists h, msg_decode env' key' (around f) = Ok (Message h BNil)) -> harmed f.
Proof. intros [(x & E)|(h & E)] m H; rewrite E in H; [discriminate|]. injection H as <-. right. reflexivity. Qed.

Lemma harm_inside u x y v : w = u ++ x :: v -> x <> y -> y <> 126 -> harmed (u ++ y :: v).
Proof.
  intros W N Y. apply harmed_of. destruct SH as (rnd & m & e & m' & B & P & L & E & _).
  apply (no_wrong_body env key rnd m e data m' (around (u ++ y :: v)) B P E).
  exists u, x, y, v. split; [rewrite DW, W, <- app_assoc; reflexivity|]. split; [unfold around; rewrite <- app_assoc; reflexivity|auto].
Qed.
Lemma harm_cut u x v : w = u ++ x :: v -> harmed u.
Proof.
  intros W m H. destruct (unframe (around u)) as [q|e|] eqn:U. 2,3: unfold msg_decode in H; rewrite U in H; discriminate.
  apply unframe_carries in U. destruct ship_facts as (i1 & i2 & c & d & R & bdy & F & E & D & SZ & LB & LN). set (p := i1 :: i2 :: c :: d :: R) in *.
  assert (HQ : q = p \/ exists T, p = q ++ T /\ T <> []).
  { rewrite W in E. pose proof (escaped_reads _ _ E) as RP. assert (G : forall T, p ++ [xor_all p] = q ++ T -> (2 <= length T)%nat -> exists T', p = q ++ T' /\ T' <> []).
    { intros T X LT. destruct (last_case T) as [->|(T' & t & ->)]; [cbn [length] in LT; lia|]. rewrite app_assoc in X. apply app_inj_tail in X as [X _]. exists T'. split; [exact X|].
      intros ->. cbn [app length] in LT. lia. }
    destruct (carries_whole _ _ U) as [RU|(w0 & -> & RU & X)].
    - destruct (reads_prefix _ _ RU _ _ RP) as (T & PT & RT). right. apply (G (xor_all q :: T)); [rewrite PT, <- app_assoc; reflexivity|].
      pose proof (reads_some _ _ RT). destruct T; [exfalso; apply H0; congruence|cbn [length]; lia].
    - rewrite <- app_assoc in RP. cbn [app] in RP. destruct (reads_prefix _ _ RU _ _ RP) as (T & PT & RT). inversion RT as [|w1 p1 R1|w1 p1 R1|b1 w1 p1 B1 R1]; subst; try congruence.
      + destruct p1 as [|t p1]; [left|right; apply (G _ PT); cbn [length]; lia]. apply app_inj_tail in PT as [PT _]. symmetry. exact PT.
      + destruct p1 as [|t p1]; [left|right; apply (G _ PT); cbn [length]; lia]. apply app_inj_tail in PT as [PT _]. symmetry. exact PT. }
  destruct HQ as [->|(T & PT & NT)].
  - left. assert (CD : carries data p) by (apply frame_carries; [discriminate|exact F]). pose proof ship_clear as SC. unfold around in SC. rewrite <- DW, (decode_frame _ _ _ _ CD) in SC.
    rewrite (decode_frame _ _ _ _ U) in H. congruence.
  - assert (LT : zlen q < zlen p). { rewrite PT. zl. destruct T; [congruence|]. zl. pose proof (zlen_nonneg T). lia. }
    destruct (Nat.lt_ge_cases (length q) 4) as [LQ|LQ]; [destruct (short_decode env' key' _ _ U LQ) as (x0 & X); congruence|].
    destruct q as [|q1 [|q2 [|q3 [|q4 q]]]]; cbn [length] in LQ; try lia. unfold p in PT. cbn [app] in PT. injection PT as <- <- <- <- PT.
    refine (harmed_of u _ m H). refine (start_decode _ _ _ _ _ _ _ _ _ _ U eq_refl D eq_refl _).
    intros LE. rewrite SZ. unfold p in LT. revert LT LE. rewrite !zlen_cons. intros. rewrite Z.mod_small by lia. lia.
Qed.
Lemma harm_merged y : y <> 126 -> harmed (w ++ [y]).
Proof.
  intros Y m H. destruct (unframe (around (w ++ [y]))) as [q|e|] eqn:U. 2,3: unfold msg_decode in H; rewrite U in H; discriminate.
  apply unframe_carries in U. destruct ship_facts as (i1 & i2 & c & d & R & bdy & F & E & D & SZ & LB & LN). set (p := i1 :: i2 :: c :: d :: R) in *.
  assert (HQ : q = p ++ [xor_all p]).
  { pose proof (escaped_reads _ _ E) as RP. destruct (carries_whole _ _ U) as [RU|(w0 & X & RU & _)].
    - destruct (reads_prefix _ _ RP _ _ RU) as (T & QT & RT). inversion RT as [|w1 p1 R1|w1 p1 R1|b1 w1 p1 B1 R1]; subst. inversion R1; subst. apply app_inj_tail in QT as [QT _]. exact QT.
    - apply app_inj_tail in X as [<- _]. eapply reads_fun; eauto. }
  unfold p in HQ at 1. cbn [app] in HQ. refine (harmed_of (w ++ [y]) _ m H). refine (start_decode _ _ _ _ _ _ _ _ _ _ U HQ D eq_refl _).
  intros LE. rewrite SZ. rewrite HQ in *. revert LE. rewrite !zlen_cons. zl. change (zlen (@nil Z)) with 0. intros. clear - LE LN LB. pose proof (zlen_nonneg bdy). lia.
Qed.
End Frame.
