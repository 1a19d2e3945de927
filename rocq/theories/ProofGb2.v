(** Texts cut off at the end of a field. *)
From Verif Require Import Base LibBase Bits LibBits Bcd LibBcd GoTime LibCalendar LibTime Decimal Env SpecGeo LibDec
  EntTerm EntPlat Registry SpecEntity LibEntity ProofRound ProofRound2 Gb SpecGb ProofGb.

Lemma quad_lead n : 0 <= n < 39420 \/ 189000 <= n < 189000 + 0x100000 ->
  exists a b c d, quad n = [a; b; c; d] /\ lead a /\ 48 <= b <= 57 /\ lead c /\ 48 <= d <= 57.
Proof. intros. rewrite quad_eq by lia. do 4 eexists. split; [reflexivity|]. unfold lead. lia. Qed.
Lemma lead_alone T a : lead a -> forall n, dec_run T (S n) [a] = [239; 191; 189].
Proof.
  unfold lead. intros. cbn. replace (a <? 128) with false by lia. replace (a =? 128) with false by lia. replace (a <? 255) with true by lia.
  cbn. destruct n; auto.
Qed.
Lemma lead_two T a b : lead a -> 48 <= b <= 57 -> forall n, dec_run T (S (S n)) [a; b] = text [0xfffd; b].
Proof.
  unfold lead. intros. cbn. replace (a <? 128) with false by lia. replace (a =? 128) with false by lia. replace (a <? 255) with true by lia.
  match goal with |- context [if ?x || ?y then _ else _] => replace (x || y) with false by lia end.
  match goal with |- context [if ?x then (rune_error, 1%nat) else (rune_error, 1%nat)] => destruct x end;
  cbn; replace (b <? 128) with true by lia; unfold encode_rune; replace (b <? 0) with false by lia; replace (b <? 128) with true by lia;
  unfold utf8; replace (b <? 128) with true by lia; destruct n; auto.
Qed.
Lemma lead_three T a b c : lead a -> 48 <= b <= 57 -> lead c -> forall n, dec_run T (S (S (S n))) [a; b; c] = text [0xfffd; b; 0xfffd].
Proof.
  intros. change (dec_run T (S (S (S n))) [a; b; c]) with (let '(r, k) := gb_step T [a; b; c] in encode_rune r ++ dec_run T (S (S n)) (skipn k [a; b; c])).
  assert (G : gb_step T [a; b; c] = (0xfffd, 1%nat)).
  { unfold lead in *. cbn. replace (a <? 128) with false by lia. replace (a =? 128) with false by lia. replace (a <? 255) with true by lia.
    match goal with |- context [if ?x || ?y then _ else _] => replace (x || y) with false by lia end.
    match goal with |- context [if ?x then (rune_error, 1%nat) else (rune_error, 1%nat)] => destruct x end; auto. }
  rewrite G. cbn [skipn].
  change (dec_run T (S (S n)) [b; c]) with (let '(r, k) := gb_step T [b; c] in encode_rune r ++ dec_run T (S n) (skipn k [b; c])).
  cbn [gb_step]. replace (b <? 128) with true by lia. cbn [skipn]. rewrite lead_alone by auto.
  rewrite !encode_utf8 by (unfold scalar; lia). reflexivity.
Qed.
Lemma cut_rune T r : table_ok T -> scalar r -> forall k n, (k < length (gb_rune T r))%nat -> (k <= n)%nat ->
  exists rest, remains rest /\ (rest = [] <-> k = 0%nat) /\ dec_run T n (firstn k (gb_rune T r)) = text rest.
Proof.
  intros HT H k n L N. destruct k as [|k]. { exists []. split; [constructor|]. split; [tauto|]. destruct n; auto. }
  assert (Q : forall q, 0 <= q < 39420 \/ 189000 <= q < 189000 + 0x100000 -> (S k < 4)%nat -> exists rest, remains rest /\ (rest = [] <-> S k = 0%nat) /\ dec_run T n (firstn (S k) (quad q)) = text rest).
  { intros q Hq Lq. destruct (quad_lead q Hq) as (a & b & c & d & -> & A & B & C & D).
    destruct k as [|[|[|k]]]; [| | |lia].
    - exists [0xfffd]. split; [constructor|]. split; [split; discriminate|]. destruct n; [lia|]. apply lead_alone; auto.
    - exists [0xfffd; b]. split; [constructor; auto|]. split; [split; discriminate|]. destruct n as [|[|n]]; try lia. apply lead_two; auto.
    - exists [0xfffd; b; 0xfffd]. split; [constructor; auto|]. split; [split; discriminate|]. destruct n as [|[|[|n]]]; try lia. apply lead_three; auto. }
  unfold gb_rune in *. unfold scalar in H.
  destruct (r <? 128) eqn:E1; [cbn in L; lia|]. destruct (r <? 65536) eqn:E2; [|apply Q; [lia|exact L]].
  specialize (HT r ltac:(lia) H). destruct (tb_code T r) as [|a b|q]; [cbn in L; lia| |apply Q; [lia|exact L]].
  destruct HT as (A & _). cbn in L. destruct k; [|lia]. exists [0xfffd]. split; [constructor|]. split; [split; discriminate|].
  destruct n; [lia|]. apply lead_alone; auto.
Qed.
Lemma split_code T rs n : (n < length (code T rs))%nat -> exists i r k,
  nth_error rs i = Some r /\ (k < length (gb_rune T r))%nat /\ firstn n (code T rs) = code T (firstn i rs) ++ firstn k (gb_rune T r) /\
  n = (length (code T (firstn i rs)) + k)%nat /\ code T (firstn (S i) rs) = code T (firstn i rs) ++ gb_rune T r.
Proof.
  revert n. induction rs as [|x rs IH]; intros n L; [cbn in L; lia|]. unfold code in *. cbn [map concat] in *. rewrite app_length in L.
  destruct (Nat.lt_ge_cases n (length (gb_rune T x))) as [G|G].
  - exists 0%nat, x, n. split; auto. split; auto. split.
    { rewrite firstn_app. replace (n - length (gb_rune T x))%nat with 0%nat by lia. cbn. rewrite app_nil_r. auto. }
    split; auto. cbn. rewrite app_nil_r. auto.
  - destruct (IH (n - length (gb_rune T x))%nat ltac:(lia)) as (i & r & k & E1 & E2 & E3 & E4 & E5).
    exists (S i), r, k. split; auto. split; auto. split.
    { rewrite firstn_app. rewrite firstn_all2 by lia. rewrite E3. cbn [firstn map concat]. rewrite app_assoc. auto. }
    split; [cbn [firstn map concat]; rewrite app_length; lia|]. cbn [firstn map concat] in *. rewrite E5, app_assoc. auto.
Qed.
Lemma plain_firstn i rs : plain rs -> plain (firstn i rs).
Proof. intros. rewrite <- (firstn_skipn i rs) in H. unfold plain in *. apply Forall_app in H. tauto. Qed.
Lemma text_app a b : text (a ++ b) = text a ++ text b.
Proof. unfold text. rewrite map_app, concat_app. auto. Qed.
Lemma remains_plain rest : remains rest -> plain rest.
Proof. intros []; repeat constructor; unfold scalar; lia. Qed.

Lemma cut_text env T rs n : table_ok T -> plain rs -> Z.of_nat n < text_size T rs ->
  exists i rest, text_of (gb_env env T) (firstn n (code T rs)) = Ok (text (firstn i rs ++ rest)) /\ remains rest /\
    text_size T (firstn i rs) <= Z.of_nat n < text_size T (firstn (S i) rs) /\ (rest = [] <-> text_size T (firstn i rs) = Z.of_nat n).
Proof.
  intros HT P L. rewrite <- code_size_text in L. unfold zlen in L.
  destruct (split_code T rs n ltac:(lia)) as (i & r & k & E1 & E2 & E3 & E4 & E5).
  assert (Sr : scalar r) by (apply nth_error_In in E1; unfold plain in P; rewrite Forall_forall in P; apply P; auto).
  pose proof (plain_firstn i rs P) as Pi.
  pose proof (code_count T (firstn i rs)).
  destruct (cut_rune T r HT Sr k (length (code T (firstn i rs) ++ firstn k (gb_rune T r)) - length (firstn i rs)) E2) as (rest & R & Z & D).
  { rewrite app_length, firstn_length. lia. }
  exists i, rest. split; [|split; [auto|]].
  - unfold text_of. cbn [gb_env gb_dec]. rewrite E3. rewrite dec_code; auto using plain_scalar.
    rewrite D, <- text_app.
    assert (A : plain (firstn i rs ++ rest)) by (unfold plain; apply Forall_app; split; [exact Pi|apply remains_plain; auto]).
    assert (N : no_nul (text (firstn i rs ++ rest))) by (apply text_nul; auto using plain_scalar).
    pose proof (cstr_pad _ 0 N) as C. cbn [repeat] in C. rewrite app_nil_r in C. rewrite C. auto.
  - rewrite <- !code_size_text, E5. unfold zlen. rewrite app_length. split; [lia|]. rewrite Z. lia.
Qed.
Lemma cut_0702 env0 T x rs : table_ok T -> let env := gb_env env0 T in wf env (E0702 (with_number x [])) -> a0702_number x = text rs -> plain rs -> 20 < text_size T rs ->
  exists d i rest, encode env (E0702 x) = Ok d /\ decode env 0x0702 d = Ok (sent env (E0702 (with_number x (text (firstn i rs ++ rest)))), zlen d) /\ remains rest /\
    text_size T (firstn i rs) <= 20 < text_size T (firstn (S i) rs) /\ (rest = [] <-> text_size T (firstn i rs) = 20).
Proof.
  intros HT env W U P L. destruct W as (H1 & H2 & H3 & Hn & _ & Hc & (Hz & Hm & Hy)).
  destruct (text_in_w env _ _ Hn) as (n & En & Ln & _ & _ & Rn & _).
  destruct (text_in_w env _ _ Hc) as (c & Ec & Lc & _ & _ & Rc & _).
  cbn [with_number a0702_state a0702_time a0702_ic a0702_name a0702_company a0702_expiry] in *.
  assert (Eu : w_str env (a0702_number x) = Ok (code T rs)) by (unfold w_str; cbn; rewrite U, enc_text; auto using plain_scalar).
  destruct (cut_text env0 T rs 20 HT P L) as (i & rest & Ru & R & B & Z).
  assert (F : w_fixed (code T rs) 20 = firstn 20 (code T rs)).
  { unfold w_fixed. rewrite <- code_size_text in L. unfold zlen in L. destruct (Nat.leb_spec 20 (length (code T rs))); [auto|lia]. }
  cbn [encode]. unfold enc_0702. rewrite En, Eu, Ec. cbn [bind].
  eexists _, i, rest. split; [reflexivity|]. split; [|auto].
  set (ex := string_to_bcd_n _ 4). assert (Lx : zlen ex = 4) by (unfold ex, zlen; rewrite string_to_bcd_n_length; auto).
  match goal with |- decode _ _ ?d = _ => change (decode env 0x0702 d) with (omap E0702 (dec_0702 env d)) end.
  unfold dec_0702. cbn [concat].
  replace (zlen _ <? 34) with false by (symmetry; apply Z.ltb_ge; sizes; lia).
  rewrite !(u8_len _ 255) by lia.
  erewrite run_count_ok.
  2:{ do 4 rstep. erewrite rbind_ok by apply Rn.
      erewrite rbind_ok. 2:{ unfold r_str_n. erewrite rbind_ok by (apply r_bytes_app; rewrite zlen_w_fixed; reflexivity). rewrite F. apply rlift_ok. exact Ru. }
      rstep.
      erewrite rbind_ok by apply Rc. erewrite rbind_ok by (apply r_bytes_app; auto).
      erewrite rbind_ok.
      2:{ apply rlift_ok. unfold ex. rewrite Hz. apply date_roundtrip; auto.
          assert (A : days_from_civil 1000 1 1 = -354285) by reflexivity. assert (B' : days_from_civil 10000 1 1 = 2932897) by reflexivity.
          apply year_range; rewrite ?A, ?B'; lia. }
      reflexivity. }
  cbn [omap bind]. do 2 f_equal. cbn [sent with_number a0702_state a0702_time a0702_ic a0702_name a0702_number a0702_company a0702_expiry]. do 3 f_equal. unfold time_sent. f_equal. lia.
Qed.
