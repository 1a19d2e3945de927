(** Proofs about GB18030 and UTF-8. *)
From Verif Require Import Base LibBase Env SpecEntity Gb SpecGb.

Ltac gbif := repeat match goal with |- context [if ?b then _ else _] => destruct b eqn:?; try lia end.
Lemma decode_utf8 r t : scalar r -> decode_rune (utf8 r ++ t) = (r, length (utf8 r)).
Proof.
  unfold scalar, utf8. intros H.
  destruct (r <? 128) eqn:E1; [cbn; rewrite E1; auto|].
  destruct (r <? 2048) eqn:E2.
  { cbn [app decode_rune length]. unfold cont. gbif. f_equal; lia. }
  destruct (r <? 65536) eqn:E3.
  { cbn [app decode_rune length]. unfold cont.
    replace (224 + r / 4096 <? 128) with false by lia. replace (224 + r / 4096 <? 194) with false by lia.
    replace (224 + r / 4096 <? 224) with false by lia. replace (224 + r / 4096 <? 240) with true by lia.
    match goal with |- (if ?b then _ else _) = _ => replace b with true end.
    { f_equal; lia. }
    symmetry. rewrite !Bool.andb_true_iff. destruct (224 + r / 4096 =? 224) eqn:F1, (224 + r / 4096 =? 237) eqn:F2; lia. }
  cbn [app decode_rune length]. unfold cont.
  replace (240 + r / 262144 <? 128) with false by lia. replace (240 + r / 262144 <? 194) with false by lia.
  replace (240 + r / 262144 <? 224) with false by lia. replace (240 + r / 262144 <? 240) with false by lia.
  replace (240 + r / 262144 <? 245) with true by lia.
  match goal with |- (if ?b then _ else _) = _ => replace b with true end.
  { f_equal; lia. }
  symmetry. rewrite !Bool.andb_true_iff. destruct (240 + r / 262144 =? 240) eqn:F1, (240 + r / 262144 =? 244) eqn:F2; lia.
Qed.
Lemma encode_utf8 r : scalar r -> encode_rune r = utf8 r.
Proof.
  unfold scalar, encode_rune, utf8, three_bytes. intros H. replace (r <? 0) with false by lia.
  destruct (r <? 128) eqn:E1; auto. destruct (r <? 2048) eqn:E2; auto.
  replace ((1114111 <? r) || (55296 <=? r) && (r <=? 57343)) with false by lia. auto.
Qed.
Lemma scalar_error : scalar 0xfffd. Proof. unfold scalar. lia. Qed.
Lemma encode_any r : exists r', scalar r' /\ encode_rune r = utf8 r'.
Proof.
  destruct (r <? 0) eqn:E0. { exists 0xfffd. split; [apply scalar_error|]. unfold encode_rune. rewrite E0. reflexivity. }
  destruct ((1114111 <? r) || (55296 <=? r) && (r <=? 57343)) eqn:E1.
  - exists 0xfffd. split; [apply scalar_error|]. unfold encode_rune. rewrite E0, E1.
    replace (r <? 128) with false by lia. replace (r <? 2048) with false by lia. reflexivity.
  - exists r. assert (scalar r) by (unfold scalar; lia). split; auto. apply encode_utf8; auto.
Qed.
Lemma utf8_some r : utf8 r <> [].
Proof. unfold utf8. gbif; discriminate. Qed.
Lemma utf8_bytes r : scalar r -> bytes_ok (utf8 r).
Proof. unfold scalar, utf8. intros. gbif; repeat (constructor; [unfold is_byte; lia|]); constructor. Qed.
Lemma utf8_nul r : scalar r -> (In 0 (utf8 r) <-> r = 0).
Proof. unfold scalar, utf8. intros. gbif; cbn [In]; lia. Qed.

(** one character *)
Lemma quad_size n : length (quad n) = 4%nat. Proof. reflexivity. Qed.
Lemma rune_size T r : zlen (gb_rune T r) = code_size T r.
Proof. unfold gb_rune, code_size. gbif; auto. destruct (tb_code T r); auto. Qed.
Lemma size_pos T r : 1 <= code_size T r <= 4.
Proof. unfold code_size. gbif. destruct (tb_code T r); lia. Qed.
Lemma quad_eq n : 0 <= n < 1587600 -> quad n = [n / 12600 + 0x81; n / 1260 mod 10 + 0x30; n / 10 mod 126 + 0x81; n mod 10 + 0x30].
Proof. intros. unfold quad, u8. repeat (f_equal; [apply Z.mod_small; lia|]). f_equal. apply Z.mod_small; lia. Qed.
Lemma step_quad T n t : 0 <= n < 39420 \/ 189000 <= n < 189000 + 0x100000 ->
  gb_step T (quad n ++ t) = (if n <? 39420 then tb_four T n else n - 189000 + 0x10000, 4%nat).
Proof.
  intros H. rewrite quad_eq by lia. cbn [app gb_step].
  replace (n / 12600 + 129 <? 128) with false by lia. replace (n / 12600 + 129 =? 128) with false by lia.
  replace (n / 12600 + 129 <? 255) with true by lia.
  match goal with |- (if ?b then _ else _) = _ => replace b with false by lia end.
  match goal with |- (if ?b then _ else _) = _ => replace b with true by lia end.
  match goal with |- (if ?b then _ else _) = _ => replace b with false by lia end. cbv zeta.
  match goal with |- context [if ?x <? 39420 then _ else _] => replace x with n by lia end.
  destruct (n <? 39420) eqn:E; auto.
  match goal with |- (if ?b then _ else _) = _ => replace b with true by lia end. auto.
Qed.
Lemma step_rune T r t : table_ok T -> scalar r -> gb_step T (gb_rune T r ++ t) = (r, length (gb_rune T r)).
Proof.
  intros HT H. unfold gb_rune. destruct (r <? 128) eqn:E1. { cbn. rewrite E1. auto. }
  destruct (r <? 65536) eqn:E2.
  - specialize (HT r ltac:(lia) H). destruct (tb_code T r) as [|a b|n] eqn:E.
    + cbn. rewrite HT. auto.
    + destruct HT as (La & Lb & <-). unfold lead, trail in *. cbn [app gb_step length].
      replace (a <? 128) with false by lia. replace (a =? 128) with false by lia. replace (a <? 255) with true by lia.
      match goal with |- (if ?b then _ else _) = _ => replace b with true by lia end. auto.
    + destruct HT as (Ln & <-). rewrite step_quad by lia. replace (n <? 39420) with true by lia. auto.
  - unfold scalar in H. rewrite step_quad by lia. replace (r + 189000 - 65536 <? 39420) with false by lia. f_equal. lia.
Qed.
Lemma rune_some T r : gb_rune T r <> [].
Proof. unfold gb_rune. gbif; try discriminate. destruct (tb_code T r); discriminate. Qed.
Lemma rune_bytes T r : table_ok T -> scalar r -> bytes_ok (gb_rune T r).
Proof.
  intros HT H. assert (Q : forall n, bytes_ok (quad n)) by (intros; unfold quad; repeat (constructor; [unfold is_byte, u8; lia|]); constructor).
  unfold gb_rune. unfold scalar in H. gbif; auto. { repeat constructor; unfold is_byte; lia. }
  specialize (HT r ltac:(lia) H). destruct (tb_code T r); auto. { repeat constructor; unfold is_byte; lia. }
  unfold lead, trail in HT. repeat (constructor; [unfold is_byte; lia|]). constructor.
Qed.

(** texts *)
Definition code (T : gbtab) (rs : list Z) : bytes := concat (map (gb_rune T) rs).
Lemma skipn_app_len {A} (a b : list A) : skipn (length a) (a ++ b) = b.
Proof. rewrite skipn_app, skipn_all, Nat.sub_diag. auto. Qed.
Lemma enc_text T rs : Forall scalar rs -> forall n, (length (text rs) <= n)%nat -> enc_run T n (text rs) = code T rs.
Proof.
  induction 1 as [|r rs H Hs IH]; intros n L. { destruct n; auto. }
  unfold text, code in *. cbn [map concat] in *. pose proof (utf8_some r). rewrite app_length in L.
  destruct n as [|n]; [destruct (utf8 r); [congruence|cbn in L; lia]|]. cbn [enc_run].
  destruct (utf8 r ++ concat (map utf8 rs)) eqn:E; [destruct (utf8 r); [congruence|discriminate]|]. rewrite <- E.
  rewrite decode_utf8 by auto. rewrite skipn_app_len. f_equal. apply IH.
  destruct (utf8 r); [congruence|cbn in L; lia].
Qed.
Lemma dec_code T : table_ok T -> forall rs, Forall scalar rs -> forall n t, (length (code T rs ++ t) <= n)%nat ->
  dec_run T n (code T rs ++ t) = text rs ++ dec_run T (n - length rs) t.
Proof.
  intros HT. induction 1 as [|r rs H Hs IH]; intros n t L. { cbn. f_equal. lia. }
  unfold text, code in *. cbn [map concat] in *. pose proof (rune_some T r). rewrite <- !app_assoc, !app_length in *.
  destruct n as [|n]; [destruct (gb_rune T r); [congruence|cbn in L; lia]|]. cbn [dec_run].
  destruct (gb_rune T r ++ concat (map (gb_rune T) rs) ++ t) eqn:E; [destruct (gb_rune T r); [congruence|discriminate]|]. rewrite <- E.
  rewrite step_rune by auto. rewrite skipn_app_len, encode_utf8 by auto. f_equal. cbn [length Nat.sub]. apply IH.
  rewrite app_length. destruct (gb_rune T r); [congruence|cbn in L; lia].
Qed.
Lemma dec_zeros T k n : (k <= n)%nat -> dec_run T n (repeat 0 k) = repeat 0 k.
Proof. revert n. induction k; intros n L; [destruct n; auto|]. destruct n; [lia|]. cbn. f_equal. apply IHk. lia. Qed.
Lemma code_count T rs : (length rs <= length (code T rs))%nat.
Proof.
  unfold code. induction rs as [|r rs IH]; auto. cbn [map concat length]. rewrite app_length.
  pose proof (rune_some T r). destruct (gb_rune T r); [congruence|cbn; lia].
Qed.
Lemma code_size_text T rs : zlen (code T rs) = text_size T rs.
Proof. unfold code, text_size. induction rs as [|r rs IH]; auto. cbn [map concat fold_right]. rewrite zlen_app, IH, rune_size. auto. Qed.
Lemma dec_text T n d : exists rs, Forall scalar rs /\ dec_run T n d = text rs.
Proof.
  revert d. induction n; intros d. { exists []. auto. }
  destruct d as [|x d]. { exists []. auto. }
  cbn [dec_run]. destruct (gb_step T (x :: d)) as [r k]. destruct (encode_any r) as (r' & H & ->).
  destruct (IHn (skipn k (x :: d))) as (rs & Hr & ->). exists (r' :: rs). auto.
Qed.
Lemma text_nul rs : Forall scalar rs -> (no_nul (text rs) <-> plain rs).
Proof.
  unfold no_nul, plain. intros H. rewrite Forall_forall with (l := text rs). split.
  - intros N. induction H as [|r rs Hr Hs IH]; constructor.
    + split; auto. intros ->. apply (N 0); [|auto]. unfold text. cbn. auto.
    + apply IH. intros x I. apply N. unfold text in *. cbn [map concat]. apply in_or_app. auto.
  - intros P x I ->. unfold text in I. apply in_concat in I as (l & I & J). apply in_map_iff in I as (r & <- & I).
    rewrite Forall_forall in P, H. specialize (P r I). apply utf8_nul in J; tauto.
Qed.
Lemma plain_scalar rs : plain rs -> Forall scalar rs.
Proof. apply Forall_impl. tauto. Qed.

Lemma gb_text env T s : table_ok T -> (text_ok (gb_env env T) s <-> exists rs, plain rs /\ s = text rs).
Proof.
  intros HT. split.
  - intros (d & _ & _ & N & _ & D). specialize (D 0%nat). cbn [repeat] in D. rewrite !app_nil_r in D. cbn [gb_env gb_dec] in D.
    injection D as D. destruct (dec_text T (length d) d) as (rs & Hs & E). rewrite E in D. exists rs. subst s. split; auto. apply text_nul; auto.
  - intros (rs & P & ->). pose proof (plain_scalar rs P) as Hs. exists (code T rs). cbn [gb_env gb_enc gb_dec].
    split; [rewrite enc_text; auto|]. split.
    { unfold code. clear P. induction Hs; cbn; [constructor|]. apply bytes_ok_app. split; auto. apply rune_bytes; auto. }
    split; [apply text_nul; auto|]. split.
    { intros E. destruct rs; auto. pose proof (code_count T (z :: rs)). rewrite E in H. cbn in H. lia. }
    intros k. f_equal. rewrite dec_code; auto. f_equal. apply dec_zeros. rewrite app_length, repeat_length. pose proof (code_count T rs). lia.
Qed.
Lemma gb_size env T rs : Forall scalar rs -> zlen (fst (gb_enc (gb_env env T) (text rs))) = text_size T rs /\ zlen rs <= text_size T rs <= 4 * zlen rs.
Proof.
  intros H. cbn [gb_env gb_enc fst]. rewrite enc_text, code_size_text by auto. split; auto. clear H. unfold text_size.
  induction rs; cbn [map fold_right]; [cbn; lia|]. rewrite zlen_cons. pose proof (size_pos T a). lia.
Qed.
Lemma gb_never env T s : exists d, w_str (gb_env env T) s = Ok d.
Proof. unfold w_str. cbn. eauto. Qed.
Lemma gb_never_read env T d : exists s rs, text_of (gb_env env T) d = Ok s /\ plain rs /\ s = text rs.
Proof.
  unfold text_of. cbn. destruct (dec_text T (length d) d) as (rs & H & ->).
  enough (exists rs', plain rs' /\ cstr (text rs) = text rs') as (rs' & P & E) by (exists (text rs'), rs'; rewrite E; auto).
  unfold text, plain. induction H as [|r rs Hr Hs (rs' & P & E)]. { exists []. auto. }
  destruct (Z.eq_dec r 0) as [->|N]. { exists []. auto. }
  exists (r :: rs'). split; auto. cbn [map concat]. rewrite <- E.
  assert (U : no_nul (utf8 r)) by (apply Forall_forall; intros x I ->; apply utf8_nul in I; auto).
  clear - U. induction U; auto. cbn [app cstr]. replace (x =? 0) with false by lia.
  f_equal. auto.
Qed.
Lemma quad_number n : 0 <= n < 1587600 -> exists a b c d, quad n = [a; b; c; d] /\ number4 a b c d = n /\ lead a /\ 48 <= b <= 57 /\ lead c /\ 48 <= d <= 57.
Proof.
  intros H. rewrite quad_eq by auto. exists (n / 12600 + 0x81), (n / 1260 mod 10 + 0x30), (n / 10 mod 126 + 0x81), (n mod 10 + 0x30). split; auto. unfold number4, lead. split; [|lia].
  replace (n / 12600 + 129 - 129) with (n / 12600) by lia. replace (n / 1260 mod 10 + 48 - 48) with (n / 1260 mod 10) by lia. replace (n / 10 mod 126 + 129 - 129) with (n / 10 mod 126) by lia. replace (n mod 10 + 48 - 48) with (n mod 10) by lia.
  replace (n / 12600) with (n / 1260 / 10) by (rewrite Z.div_div by lia; reflexivity). replace (n / 1260) with (n / 10 / 126) by (rewrite Z.div_div by lia; reflexivity). generalize (n / 10) (Z.div_mod n 10 ltac:(lia)). intros x A. generalize (x / 126) (Z.div_mod x 126 ltac:(lia)). intros y B. pose proof (Z.div_mod y 10 ltac:(lia)). lia.
Qed.
Lemma rune_code T r : table_ok T -> scalar r -> has_code T r (gb_rune T r).
Proof.
  intros HT H. unfold gb_rune. unfold scalar in H. destruct (r <? 128) eqn:E1; [constructor; lia|]. destruct (r <? 65536) eqn:E2.
  - specialize (HT r ltac:(lia) H). destruct (tb_code T r) as [|a b|n] eqn:C; [apply code_one|apply code_two|]; auto; try lia. destruct (quad_number n ltac:(lia)) as (a & b & c & d & -> & N & X). apply code_four; try tauto; [lia|]. rewrite C, N. reflexivity.
  - destruct (quad_number (r + 189000 - 65536) ltac:(lia)) as (a & b & c & d & -> & N & X). apply code_high; try tauto; lia.
Qed.
Lemma gb_codes env T rs : table_ok T -> Forall scalar rs -> exists ds, Forall2 (has_code T) rs ds /\ gb_enc (gb_env env T) (text rs) = (concat ds, false).
Proof.
  intros HT H. exists (map (gb_rune T) rs). split; [|cbn [gb_env gb_enc]; rewrite enc_text by auto; reflexivity]. induction H; constructor; auto using rune_code.
Qed.
Lemma decode_any s : bytes_ok s -> s <> [] ->
  (exists r, scalar r /\ s = utf8 r ++ skipn (length (utf8 r)) s /\ decode_rune s = (r, length (utf8 r))) \/ decode_rune s = (0xfffd, 1%nat).
Proof.
  intros B N. destruct s as [|a t]; [contradiction|]. cbn [decode_rune]. unfold bytes_ok in B. inversion B as [|? ? Ba Bt]; subst. unfold is_byte in Ba. unfold cont.
  destruct (a <? 128) eqn:E1. { left. exists a. unfold scalar, utf8. rewrite E1. split; [lia|]. split; reflexivity. }
  destruct (a <? 194) eqn:E2; [auto|]. destruct (a <? 224) eqn:E3.
  { destruct t as [|b t]; [auto|]. inversion Bt; subst. unfold is_byte in *. destruct ((128 <=? b) && (b <=? 191)) eqn:E; [|auto]. left. exists ((a - 192) * 64 + (b - 128)).
    assert (U : utf8 ((a - 192) * 64 + (b - 128)) = [a; b]). { unfold utf8. replace (_ <? 128) with false by lia. replace (_ <? 2048) with true by lia. f_equal; [|f_equal]; lia. }
    rewrite U. split; [unfold scalar; lia|]. split; reflexivity. }
  destruct (a <? 240) eqn:E4.
  { destruct t as [|b [|c t]]; [auto..|]. inversion Bt as [|? ? Bb Bt2]; subst. inversion Bt2; subst. unfold is_byte in *. destruct (_ && _ && _) eqn:E; [|auto]. left. exists (((a - 224) * 64 + (b - 128)) * 64 + (c - 128)).
    assert (Q : ((a =? 224) = true -> 160 <= b) /\ ((a =? 237) = true -> b <= 159) /\ 128 <= b <= 191 /\ 128 <= c <= 191) by (destruct (a =? 224), (a =? 237); lia).
    assert (U : utf8 (((a - 224) * 64 + (b - 128)) * 64 + (c - 128)) = [a; b; c]).
    { unfold utf8. replace (_ <? 128) with false by lia. replace (_ <? 2048) with false by lia. replace (_ <? 65536) with true by lia. f_equal; [|f_equal; [|f_equal]]; lia. }
    rewrite U. split; [unfold scalar; lia|]. split; reflexivity. }
  destruct (a <? 245) eqn:E5; [|auto]. destruct t as [|b [|c [|d t]]]; [auto..|]. inversion Bt as [|? ? Bb Bt2]; subst. inversion Bt2 as [|? ? Bc Bt3]; subst. inversion Bt3; subst. unfold is_byte in *.
  destruct (_ && _ && _ && _) eqn:E; [|auto]. left. exists ((((a - 240) * 64 + (b - 128)) * 64 + (c - 128)) * 64 + (d - 128)).
  assert (Q : ((a =? 240) = true -> 144 <= b) /\ ((a =? 244) = true -> b <= 143) /\ 128 <= b <= 191 /\ 128 <= c <= 191 /\ 128 <= d <= 191) by (destruct (a =? 240), (a =? 244); lia).
  assert (U : utf8 ((((a - 240) * 64 + (b - 128)) * 64 + (c - 128)) * 64 + (d - 128)) = [a; b; c; d]).
  { unfold utf8. replace (_ <? 128) with false by lia. replace (_ <? 2048) with false by lia. replace (_ <? 65536) with false by lia. f_equal; [|f_equal; [|f_equal; [|f_equal]]]; lia. }
  rewrite U. split; [unfold scalar; lia|]. split; reflexivity.
Qed.
Lemma decode_bad s : decode_rune s = (0xfffd, 1%nat) -> forall r t, scalar r -> s <> utf8 r ++ t.
Proof. intros D r t H ->. rewrite decode_utf8 in D by auto. injection D as -> L. discriminate L. Qed.
Lemma enc_any T : forall n s, bytes_ok s -> (length s <= n)%nat -> exists rs, reads s rs /\ Forall scalar rs /\ enc_run T n s = code T rs.
Proof.
  induction n as [n IH] using (well_founded_induction Wf_nat.lt_wf). intros s B L. destruct s as [|a t]. { exists []. split; [constructor|]. split; [constructor|]. destruct n; reflexivity. }
  destruct n as [|n]; [cbn in L; lia|]. destruct (decode_any (a :: t) B ltac:(discriminate)) as [(r & H & E & D)|D].
  - assert (B2 : bytes_ok (skipn (length (utf8 r)) (a :: t))) by (unfold bytes_ok in *; rewrite E in B; apply Forall_app in B; apply B).
    assert (L2 : (length (skipn (length (utf8 r)) (a :: t)) <= n)%nat). { rewrite skipn_length. pose proof (utf8_some r). destruct (utf8 r); [contradiction|]. cbn [length] in *. lia. }
    destruct (IH n ltac:(lia) _ B2 L2) as (rs & R & S & C). exists (r :: rs). split; [rewrite E; constructor; auto|]. split; [constructor; auto|]. cbn [enc_run]. rewrite D. change (code T (r :: rs)) with (gb_rune T r ++ code T rs). f_equal. exact C.
  - assert (B2 : bytes_ok t) by (inversion B; auto). destruct (IH n ltac:(lia) t B2 ltac:(cbn in L; lia)) as (rs & R & S & C). exists (0xfffd :: rs). split; [constructor; auto; apply decode_bad; exact D|]. split; [constructor; auto; apply scalar_error|].
    cbn [enc_run]. rewrite D. change (code T (0xfffd :: rs)) with (gb_rune T 0xfffd ++ code T rs). f_equal. exact C.
Qed.
Lemma gb_any env T s : table_ok T -> bytes_ok s -> exists rs ds, reads s rs /\ Forall2 (has_code T) rs ds /\ gb_enc (gb_env env T) s = (concat ds, false).
Proof.
  intros HT B. destruct (enc_any T (length s) s B (le_n _)) as (rs & R & S & C). destruct (gb_codes env T rs HT S) as (ds & F & G). exists rs, ds. split; auto. split; auto.
  cbn [gb_env gb_enc] in *. rewrite C. rewrite enc_text in G by auto. exact G.
Qed.
Lemma reads_text rs : Forall scalar rs -> reads (text rs) rs.
Proof. induction 1; constructor; auto. Qed.
Lemma utf8_prefix r t r' t' : scalar r -> scalar r' -> utf8 r ++ t = utf8 r' ++ t' -> r = r' /\ t = t'.
Proof. intros H H' E. pose proof (decode_utf8 r t H) as D. rewrite E, decode_utf8 in D by auto. injection D as -> _. split; auto. apply app_inv_head in E. auto. Qed.
Lemma reads_one s rs : reads s rs -> forall rs', reads s rs' -> rs = rs'.
Proof.
  induction 1 as [|r s rs H R IH|b s rs N R IH]; intros rs' R'.
  - inversion R'; subst; auto. pose proof (utf8_some r). destruct (utf8 r); [contradiction|discriminate].
  - remember (utf8 r ++ s) as l eqn:E. destruct R' as [|r' s' rs' H' R'|b s' rs' N R'].
    + pose proof (utf8_some r). destruct (utf8 r); [contradiction|discriminate].
    + symmetry in E. apply utf8_prefix in E as [-> ->]; auto. f_equal. auto.
    + exfalso. exact (N r s H E).
  - remember (b :: s) as l eqn:E. destruct R' as [|r' s' rs' H' R'|b' s' rs' N' R']; [discriminate|exfalso; exact (N r' s' H' eq_refl)|]. injection E as -> ->. f_equal. auto.
Qed.
Lemma step_begins T s r k : begins T s r k -> gb_step T s = (r, k).
Proof.
  unfold lead, trail. intros [a t H|t|a b t H H1|a b c d t H H1 H2 H3 H4|a b c d t H H1 H2 H3 H4]; cbn [gb_step].
  - replace (a <? 128) with true by lia. reflexivity.
  - reflexivity.
  - unfold lead, trail in *. replace (a <? 128) with false by lia. replace (a =? 128) with false by lia. replace (a <? 255) with true by lia. replace (_ || _) with true by lia. reflexivity.
  - unfold lead in *. replace (a <? 128) with false by lia. replace (a =? 128) with false by lia. replace (a <? 255) with true by lia. replace ((64 <=? b) && (b <? 127) || _) with false by lia. replace ((48 <=? b) && _) with true by lia.
    replace (_ || _ || _ || _) with false by lia. unfold number4 in *. replace (_ <? 39420) with true by lia. reflexivity.
  - unfold lead in *. replace (a <? 128) with false by lia. replace (a =? 128) with false by lia. replace (a <? 255) with true by lia. replace ((64 <=? b) && (b <? 127) || _) with false by lia. replace ((48 <=? b) && _) with true by lia.
    replace (_ || _ || _ || _) with false by lia. unfold number4 in *. replace (_ <? 39420) with false by lia. replace (_ && _) with true by lia. f_equal. lia.
Qed.
Lemma step_any T s : bytes_ok s -> s <> [] -> (exists r k, begins T s r k /\ gb_step T s = (r, k)) \/ ((forall r k, ~ begins T s r k) /\ gb_step T s = (0xfffd, 1%nat)).
Proof.
  intros B N. destruct (gb_step T s) as [r0 k0] eqn:ST.
  assert (BAD : (forall r k, ~ begins T s r k) \/ exists r k, begins T s r k).
  { destruct s as [|a t]; [contradiction|]. unfold bytes_ok in B. inversion B as [|? ? Ba Bt]; subst. unfold is_byte in Ba. destruct (a <? 128) eqn:E1; [right; eexists; eexists; apply begins_ascii; lia|].
    destruct (a =? 128) eqn:E2. { right. assert (a = 128) as -> by lia. eexists. eexists. apply begins_80. }
    destruct (a <? 255) eqn:E3. 2:{ left. intros r k H. inversion H; subst; unfold lead in *; lia. }
    destruct t as [|b t]. { left. intros r k H. inversion H; subst; lia. } inversion Bt as [|? ? Bb Bt2]; subst. unfold is_byte in Bb.
    destruct ((64 <=? b) && (b <? 127) || (128 <=? b) && (b <? 255)) eqn:E4; [right; eexists; eexists; apply begins_two; unfold lead, trail; lia|].
    destruct ((48 <=? b) && (b <? 64)) eqn:E5. 2:{ left. intros r k H. inversion H; subst; unfold lead, trail in *; lia. }
    destruct t as [|c [|d t]]; [left; intros r k H; inversion H; subst; unfold lead, trail in *; lia..|].
    destruct ((129 <=? c) && (c <=? 254) && (48 <=? d) && (d <=? 57)) eqn:E6. 2:{ left. intros r k H. inversion H; subst; unfold lead, trail in *; lia. }
    destruct (number4 a b c d <? 39420) eqn:E7; [right; eexists; eexists; apply begins_four; unfold lead; lia|].
    destruct ((189000 <=? number4 a b c d) && (number4 a b c d <? 189000 + 1048576)) eqn:E8; [right; eexists; eexists; apply begins_high; unfold lead; lia|].
    left. intros r k H. inversion H; subst; unfold lead, trail in *; lia. }
  destruct BAD as [BAD|(r & k & H)]; [|left; exists r, k; pose proof (step_begins _ _ _ _ H); split; auto; congruence]. right. split; auto. rewrite <- ST.
  destruct s as [|a t]; [contradiction|]. unfold bytes_ok in B. inversion B as [|? ? Ba Bt]; subst. unfold is_byte in Ba. cbn [gb_step]. destruct (a <? 128) eqn:E1; [exfalso; eapply BAD; apply begins_ascii; lia|].
  destruct (a =? 128) eqn:E2. { exfalso. assert (a = 128) as -> by lia. eapply BAD. apply begins_80. } destruct (a <? 255) eqn:E3; [|reflexivity]. destruct t as [|b t]; [reflexivity|].
  destruct ((64 <=? b) && (b <? 127) || (128 <=? b) && (b <? 255)) eqn:E4; [exfalso; eapply BAD; apply begins_two; unfold lead, trail; lia|].
  destruct ((48 <=? b) && (b <? 64)) eqn:E5; [|reflexivity]. destruct t as [|c [|d t]]; try reflexivity. destruct (_ || _ || _ || _) eqn:E6; [reflexivity|]. change ((((a - 129) * 10 + (b - 48)) * 126 + (c - 129)) * 10 + (d - 48)) with (number4 a b c d).
  destruct (number4 a b c d <? 39420) eqn:E7; [exfalso; eapply BAD; apply begins_four; unfold lead; lia|].
  destruct ((189000 <=? number4 a b c d) && _) eqn:E8; [exfalso; eapply BAD; apply begins_high; unfold lead; lia|reflexivity].
Qed.
Lemma begins_some T s r k : begins T s r k -> (1 <= k <= length s)%nat.
Proof. destruct 1; cbn [length]; lia. Qed.
Lemma encode_no r : ~ scalar r -> encode_rune r = utf8 0xfffd.
Proof.
  unfold scalar. intros H. unfold encode_rune. destruct (r <? 0) eqn:E0; [reflexivity|]. replace (r <? 128) with false by lia. replace (r <? 2048) with false by lia. replace (_ || _) with true by lia. reflexivity.
Qed.
Lemma scalar_or r : scalar r \/ ~ scalar r. Proof. unfold scalar. lia. Qed.
Lemma dec_any T : forall n s, bytes_ok s -> (length s <= n)%nat -> exists rs, hears T s rs /\ dec_run T n s = text rs.
Proof.
  induction n as [n IH] using (well_founded_induction Wf_nat.lt_wf). intros s B L. destruct s as [|a t]. { exists []. split; [constructor|]. destruct n; reflexivity. }
  destruct n as [|n]; [cbn in L; lia|]. destruct (step_any T (a :: t) B ltac:(discriminate)) as [(r & k & H & D)|(N & D)].
  - pose proof (begins_some _ _ _ _ H) as K. assert (B2 : bytes_ok (skipn k (a :: t))) by (unfold bytes_ok in *; rewrite <- (firstn_skipn k) in B; apply Forall_app in B; apply B).
    destruct (IH n ltac:(lia) (skipn k (a :: t)) B2 ltac:(rewrite skipn_length; lia)) as (rs & R & C). destruct (scalar_or r) as [S|S]; [exists (r :: rs)|exists (0xfffd :: rs)].
    + split; [eapply hears_code; eauto|]. cbn [dec_run]. rewrite D, C, encode_utf8 by auto. reflexivity.
    + split; [eapply hears_none; eauto|]. cbn [dec_run]. rewrite D, C, encode_no by auto. reflexivity.
  - assert (B2 : bytes_ok t) by (inversion B; auto). destruct (IH n ltac:(lia) t B2 ltac:(cbn in L; lia)) as (rs & R & C). exists (0xfffd :: rs). split; [constructor; auto|]. cbn [dec_run]. rewrite D. change (skipn 1 (a :: t)) with t. rewrite C. reflexivity.
Qed.
Lemma gb_hears env T d : bytes_ok d -> exists rs, hears T d rs /\ gb_dec (gb_env env T) d = (text rs, false).
Proof. intros B. destruct (dec_any T (length d) d B (le_n _)) as (rs & R & C). exists rs. split; auto. cbn [gb_env gb_dec]. rewrite C. reflexivity. Qed.
Lemma hears_one T d rs : hears T d rs -> forall rs', hears T d rs' -> rs = rs'.
Proof.
  induction 1 as [|s r k rs H S R IH|s r k rs H S R IH|b s rs N R IH]; intros rs' R'.
  - inversion R' as [|? ? ? ? H| ? ? ? ? H|]; subst; auto; apply begins_some in H; cbn [length] in H; lia.
  - destruct R' as [|s r' k' rs' H' S' R'|s r' k' rs' H' S' R'|b s rs' N' R']; [apply begins_some in H; cbn [length] in H; lia| | |exfalso; eapply N'; eauto]; apply step_begins in H, H'; rewrite H in H'; injection H' as <- <-; [f_equal; auto|contradiction].
  - destruct R' as [|s r' k' rs' H' S' R'|s r' k' rs' H' S' R'|b s rs' N' R']; [apply begins_some in H; cbn [length] in H; lia| | |exfalso; eapply N'; eauto]; apply step_begins in H, H'; rewrite H in H'; injection H' as <- <-; [contradiction|f_equal; auto].
  - remember (b :: s) as l eqn:E. destruct R' as [|l r' k' rs' H' S' R'|l r' k' rs' H' S' R'|b' s' rs' N' R']; [discriminate|exfalso; eapply N; eauto..|]. injection E as -> ->. f_equal. auto.
Qed.
