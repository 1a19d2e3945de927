(** Readers that never panic, produce values satisfying [Q], consume a prefix, and
    depend on what follows that prefix only through its length. *)
From Verif Require Import Base LibBase Bits LibBits Bcd LibBcd GoTime LibCalendar LibTime Decimal Env SpecGeo LibDec
  EntTerm EntPlat Registry SpecEntity SpecRange LibEntity.

Definition good_err (env : Env) (e : goerr) : Prop := e <> ErrTypeNotRegistered /\ (gz_total env -> e <> ErrFuel).
Definition rgood {A} (env : Env) (m : Z) (Q : A -> Prop) (p : R A) : Prop :=
  forall l, bytes_ok l -> zlen l <= m ->
  match p l with
  | Ok (a, l') => Q a /\ exists pre, l = pre ++ l' /\ forall l2, zlen l2 = zlen l' -> p (pre ++ l2) = Ok (a, l2)
  | Err e => good_err env e
  | Panic => False
  end.
Definition good {A} (env : Env) (Q : A -> Prop) (r : res A) : Prop :=
  match r with Ok a => Q a | Err e => good_err env e | Panic => False end.
Ltac gerr := split; [discriminate|intros _; discriminate].

Section G.
Context {env : Env} {m : Z}.
Lemma g_ret {A} (Q : A -> Prop) a : Q a -> rgood env m Q (rret a).
Proof. intros H l _ _. cbn. split; auto. exists []. auto. Qed.
Lemma g_bind {A B} (P : A -> Prop) (Q : B -> Prop) p (k : A -> R B) :
  rgood env m P p -> (forall a, P a -> rgood env m Q (k a)) -> rgood env m Q (rbind p k).
Proof.
  intros Hp Hk l Hl Hm. specialize (Hp l Hl Hm). unfold rbind. destruct (p l) as [[a l']|e|] eqn:E; auto.
  destruct Hp as (Ha & pre & -> & Hx). apply bytes_ok_app in Hl. destruct Hl as [Hl1 Hl2]. rewrite zlen_app in Hm.
  pose proof (zlen_nonneg pre). specialize (Hk a Ha l' Hl2 ltac:(lia)).
  destruct (k a l') as [[b l'']|e|]; auto. destruct Hk as (Hb & pre2 & -> & Hy). split; auto.
  exists (pre ++ pre2). split; [apply app_assoc|]. intros l2 H2. rewrite <- app_assoc, Hx; [apply Hy; auto|].
  rewrite !zlen_app. lia.
Qed.
Lemma g_weaken {A} (P Q : A -> Prop) p : (forall a, P a -> Q a) -> rgood env m P p -> rgood env m Q p.
Proof.
  intros H Hp l Hl Hm. specialize (Hp l Hl Hm). destruct (p l) as [[a l']|e|]; auto. destruct Hp; auto.
Qed.
Lemma g_lift {A} (Q : A -> Prop) r : good env Q r -> rgood env m Q (rlift r).
Proof.
  intros H l _ _. unfold rlift, good in *. destruct r; auto. split; auto. exists []. auto.
Qed.
Lemma g_byte : rgood env m is_byte r_byte.
Proof.
  intros l Hl _. destruct l as [|x l]; cbn; [gerr|]. inversion Hl; subst. split; auto. exists [x]. auto.
Qed.
Lemma g_u16 : rgood env m is_u16 r_u16.
Proof.
  intros l Hl _. destruct l as [|x [|y l]]; cbn; try gerr. inversion Hl; subst. inversion H2; subst.
  split. { unfold is_byte, is_u16, be16 in *. lia. } exists [x; y]. auto.
Qed.
Lemma g_u32 : rgood env m is_u32 r_u32.
Proof.
  intros l Hl _. destruct l as [|x [|y [|z [|w l]]]]; cbn; try gerr. inversion Hl; subst. inversion H2; subst. inversion H4; subst. inversion H6; subst.
  split. { unfold is_byte, is_u32, be32 in *. lia. } exists [x; y; z; w]. auto.
Qed.
Lemma g_bytes n : 0 <= n -> rgood env m (fun d => bytes_ok d /\ zlen d = n) (r_bytes n).
Proof.
  intros Hn l Hl _. unfold r_bytes at 1. destruct (Z.ltb_spec (zlen l) n); [gerr|].
  replace (n <? 0) with false by lia.
  assert (L : zlen (firstn (Z.to_nat n) l) = n) by (unfold zlen in *; rewrite firstn_length; lia).
  split. { split; [apply bytes_ok_firstn; auto|auto]. }
  exists (firstn (Z.to_nat n) l). split; [symmetry; apply firstn_skipn|]. intros. apply r_bytes_app. auto.
Qed.
Lemma g_all : rgood env m bytes_ok r_all.
Proof.
  intros l Hl _. cbn. split; auto. exists l. split; [symmetry; apply app_nil_r|].
  intros l2 H. apply zlen_0 in H. subst. unfold r_all. rewrite app_nil_r. auto.
Qed.
Lemma g_text d : good env no_nul (text_of env d).
Proof. unfold text_of. destruct (gb_dec env d) as [t []]; cbn; [gerr|apply no_nul_cstr]. Qed.
Lemma g_str_n n : 0 <= n -> rgood env m no_nul (r_str_n env n).
Proof. intros. eapply g_bind; [apply g_bytes; auto|]. intros. apply g_lift, g_text. Qed.
Lemma g_str : rgood env m no_nul (r_str env).
Proof. eapply g_bind; [apply g_all|]. intros. apply g_lift, g_text. Qed.
Lemma g_str_opt : rgood env m no_nul (r_str_opt env).
Proof.
  intros l Hl Hm. pose proof (g_str l Hl Hm) as G. unfold r_str_opt, r_len. unfold rbind at 1.
  destruct (Z.ltb_spec 0 (zlen l)) as [L|L].
  - destruct (r_str env l) as [[a l']|e|] eqn:E; auto. destruct G as (Ha & pre & -> & Hx). split; auto. exists pre. split; auto.
    intros l2 H2. unfold rbind. replace (0 <? zlen (pre ++ l2)) with true; auto. rewrite zlen_app in *. symmetry. apply Z.ltb_lt. lia.
  - cbn. split; [constructor|]. exists []. split; auto. intros l2 H2. unfold rbind. cbn [app]. rewrite H2. replace (0 <? zlen l) with false by lia. auto.
Qed.
Lemma g_list {A} (Q : A -> Prop) p n : rgood env m Q p -> rgood env m (fun l => Forall Q l /\ zlen l = Z.of_nat n) (r_list n p).
Proof.
  intros Hp. induction n; cbn [r_list].
  - apply g_ret. split; [constructor|reflexivity].
  - eapply g_bind; [exact Hp|]. intros a Ha. eapply g_bind; [exact IHn|]. intros xs [H1 H2]. apply g_ret.
    split; [constructor; auto|]. rewrite zlen_cons. lia.
Qed.
Lemma g_list8 {A} (Q : A -> Prop) p n : is_byte n -> rgood env m Q p -> rgood env m (fun l => list_ok Q l 255) (r_list (Z.to_nat n) p).
Proof.
  intros Hn Hp. eapply g_weaken; [|apply g_list; exact Hp]. intros l [H1 H2]. split; auto. unfold is_byte in Hn. lia.
Qed.
Lemma g_list16 {A} (Q : A -> Prop) p n : is_u16 n -> rgood env m Q p -> rgood env m (fun l => list_ok Q l 65535) (r_list (Z.to_nat n) p).
Proof.
  intros Hn Hp. eapply g_weaken; [|apply g_list; exact Hp]. intros l [H1 H2]. split; auto. unfold is_u16 in Hn. lia.
Qed.
Lemma g_if {A} (Q : A -> Prop) (b : bool) p q :
  (b = true -> rgood env m Q p) -> (b = false -> rgood env m Q q) -> rgood env m Q (if b then p else q).
Proof. destruct b; auto. Qed.
End G.

(** ** Times *)
Lemma num_of_inv s : forall a n, num_of a s = Some n -> exists ds, digits ds /\ s = chars ds /\ n = fold_left (fun a d => a * 10 + d) ds a.
Proof.
  induction s as [|c s IH]; cbn; intros a n H.
  - inversion H. exists []. repeat split. constructor.
  - destruct (is_digit_char c) eqn:D; [|discriminate]. destruct (IH _ _ H) as (ds & Hd & -> & ->).
    exists ((c - 48) :: ds). unfold is_digit_char in D. repeat split.
    + constructor; auto. unfold is_digit. lia.
    + cbn. f_equal. lia.
Qed.
Lemma num_of_bound s n : num_of 0 s = Some n -> 0 <= n < 10 ^ zlen s.
Proof. intros H. apply num_of_inv in H. destruct H as (ds & Hd & -> & ->). rewrite zlen_chars. apply dval_bound; auto. Qed.
Lemma num_of_first c s n : num_of 0 (c :: s) = Some n -> (c - 48) * 10 ^ zlen s <= n < (c - 47) * 10 ^ zlen s.
Proof.
  intros H. apply num_of_inv in H. destruct H as ([|d ds] & Hd & E & ->); [discriminate|]. cbn [chars map] in E. injection E as -> ->.
  change (fold_left (fun a d => a * 10 + d) (d :: ds) 0) with (dval (d :: ds)). rewrite dval_cons.
  inversion Hd; subst. pose proof (dval_bound ds H2). fold (chars ds). rewrite zlen_chars. lia.
Qed.
Lemma parse_inv tz s t : parse_datetime tz s = Ok t -> exists y mo d h mi sec,
  num_of 0 (firstn 4 s) = Some y /\ 1 <= mo <= 12 /\ 1 <= d <= days_in mo y /\ 0 <= h < 24 /\ 0 <= mi < 60 /\ 0 <= sec < 60 /\
  zlen s = 14 /\ num_of 0 (firstn 2 (skipn 8 s)) = Some h /\ num_of 0 (firstn 2 (skipn 10 s)) = Some mi /\ num_of 0 (firstn 2 (skipn 12 s)) = Some sec /\
  t = GoTime (days_from_civil y mo d * 86400 + h * 3600 + mi * 60 + sec - tz) 0 tz.
Proof.
  unfold parse_datetime. destruct (Z.eqb_spec (zlen s) 14) as [L|]; cbn [negb]; [|discriminate].
  destruct (num_of 0 (firstn 4 s)) as [y|]; [|discriminate].
  destruct (num_of 0 (firstn 2 (skipn 4 s))) as [mo|]; [|discriminate].
  destruct (num_of 0 (firstn 2 (skipn 6 s))) as [d|]; [|discriminate].
  destruct (num_of 0 (firstn 2 (skipn 8 s))) as [h|] eqn:Eh; [|discriminate].
  destruct (num_of 0 (firstn 2 (skipn 10 s))) as [mi|] eqn:Em; [|discriminate].
  destruct (num_of 0 (firstn 2 (skipn 12 s))) as [sec|] eqn:Es; [|discriminate].
  destruct (_ && _) eqn:B; [|discriminate]. intros H. injection H as <-.
  pose proof (num_of_bound _ _ Eh). pose proof (num_of_bound _ _ Em). pose proof (num_of_bound _ _ Es).
  exists y, mo, d, h, mi, sec. repeat (apply andb_prop in B; destruct B as [B ?]). repeat split; auto; lia.
Qed.
Lemma year_days y mo d Y : 1 <= mo <= 12 -> 1 <= d <= days_in mo y -> Y <= y -> days_from_civil Y 1 1 <= days_from_civil y mo d.
Proof.
  intros Hm Hd H. destruct (Z.le_gt_cases (days_from_civil Y 1 1) (days_from_civil y mo d)); auto.
  pose proof (year_upper y mo d Y Hm ltac:(lia) H0). lia.
Qed.
Lemma year_days_u y mo d Y : 1 <= mo <= 12 -> 1 <= d <= days_in mo y -> y < Y -> days_from_civil y mo d < days_from_civil Y 1 1.
Proof.
  intros Hm Hd H. destruct (Z.lt_ge_cases (days_from_civil y mo d) (days_from_civil Y 1 1)); auto.
  pose proof (year_lower y mo d Y Hm Hd H0). lia.
Qed.
Lemma parse_years tz s t lo hi : parse_datetime tz s = Ok t ->
  (forall y, num_of 0 (firstn 4 s) = Some y -> lo <= y < hi) ->
  days_from_civil lo 1 1 * 86400 <= t_sec t + tz < days_from_civil hi 1 1 * 86400 /\ t = GoTime (t_sec t) 0 tz.
Proof.
  intros H Hy. destruct (parse_inv _ _ _ H) as (y & mo & d & h & mi & sec & Ey & Hm & Hd & Hh & Hmi & Hs & _ & _ & _ & _ & ->).
  specialize (Hy y Ey). cbn [t_sec]. split; [|reflexivity].
  pose proof (year_days y mo d lo Hm Hd ltac:(lia)). pose proof (year_days_u y mo d hi Hm Hd ltac:(lia)). lia.
Qed.
Lemma dropzc_head c s t : dropzc s = c :: t -> c <> 48.
Proof. induction s as [|x s IH]; cbn; [discriminate|]. destruct (Z.eqb_spec x 48); auto. intros H. injection H as <- _. auto. Qed.
Lemma bcd_time_ok env b t : bytes_ok b -> from_bcd_time (tz_off env) b = Ok t -> dec_time env t.
Proof.
  unfold from_bcd_time. intros Hb. destruct (negb _); [discriminate|]. intros H.
  rewrite bcd_to_string_dropzc in H by auto. set (s := dropzc (bcd_unpack b)) in *.
  assert (Hs : exists c x r, s = c :: x :: r /\ c <> 48).
  { destruct (parse_inv _ _ _ H) as (_ & _ & _ & _ & _ & _ & _ & _ & _ & _ & _ & _ & L & _). zl_in L.
    destruct s as [|c [|x r]] eqn:E; cbn in L; try lia. exists c, x, r. split; auto. eapply dropzc_head. unfold s in E. exact E. }
  destruct Hs as (c & x & r & Es & Hc). rewrite Es in H.
  apply (parse_years _ _ _ 2010 2100) in H.
  - destruct H as [H1 H2]. split; [|exact H2]. unfold time_ok.
    assert (A : days_from_civil 2010 1 1 = 14610) by reflexivity. assert (B : days_from_civil 2100 1 1 = 47482) by reflexivity. lia.
  - intros y. cbn [firstn]. intros N. apply num_of_inv in N. destruct N as (ds & Hd & E & ->).
    destruct ds as [|d1 [|d2 [|d3 [|d4 [|]]]]]; try discriminate. cbn [chars map] in E. injection E as E1 E2 E3 E4.
    unfold digits in Hd. rewrite Forall_forall in Hd.
    pose proof (Hd d3 ltac:(cbn; auto)). pose proof (Hd d4 ltac:(cbn; auto)). unfold is_digit in *. cbn [fold_left]. lia.
Qed.
Lemma from_bcd_no_panic tz b : match from_bcd_time tz b with Ok _ => True | Err e => e = ErrParse \/ e = ErrInvalidBCDTime | Panic => False end.
Proof.
  unfold from_bcd_time, parse_datetime. destruct (negb _); [auto|]. destruct (negb _); [auto|].
  repeat (destruct (num_of _ _); [|auto]). destruct (_ && _); auto.
Qed.
Lemma parse_no_panic tz b : match parse_datetime tz b with Ok _ => True | Err e => e = ErrParse | Panic => False end.
Proof.
  unfold parse_datetime. destruct (negb _); [auto|].
  repeat (destruct (num_of _ _); [|auto]). destruct (_ && _); auto.
Qed.
Lemma g_time env m : rgood env m (dec_time env) (r_time env).
Proof.
  eapply g_bind; [apply g_bytes; lia|]. intros b [Hb _]. apply g_lift. unfold good.
  pose proof (from_bcd_no_panic (tz_off env) b) as N. destruct (from_bcd_time _ _) eqn:E; auto.
  - eapply bcd_time_ok; eauto.
  - destruct N as [-> | ->]; gerr.
Qed.
(** ** Coordinates *)
Lemma g_geo env m a s b w : is_u32 a -> is_u32 b -> rgood env m (fun p => hemi_ok s (fst p) /\ hemi_ok w (snd p)) (rlift (get_geo_point a s b w)).
Proof.
  intros Ha Hb. apply g_lift. unfold is_u32 in *. rewrite get_geo_point_eq by lia. cbn. unfold hemi_ok. cbn. destruct s, w; lia.
Qed.
(** ** Fixed-width text *)
Lemma fixed_cstr_ok d n : bytes_ok d -> zlen d <= n -> fixed_ok (cstr d) n.
Proof. intros H L. split; [apply bytes_ok_cstr; auto|]. split; [apply no_nul_cstr|]. pose proof (length_cstr d). unfold zlen in *. lia. Qed.

(** ** Whole decoders *)
(** outcome of a decoder: entity and count *)
Definition dgood {A} (env : Env) (Q : A -> Prop) (dec : bytes -> res (A * Z)) : Prop := forall data, bytes_ok data ->
  match dec data with
  | Ok (a, n) => Q a /\ 0 <= n <= zlen data /\
      forall data2, zlen data2 = zlen data -> firstn (Z.to_nat n) data2 = firstn (Z.to_nat n) data -> dec data2 = Ok (a, n)
  | Err e => good_err env e
  | Panic => False
  end.
Lemma firstn_split {A} (pre l' : list A) data2 : zlen data2 = zlen (pre ++ l') -> firstn (length pre) data2 = pre ->
  exists l2, data2 = pre ++ l2 /\ zlen l2 = zlen l'.
Proof.
  intros L F. exists (skipn (length pre) data2). split; [rewrite <- F at 1; symmetry; apply firstn_skipn|].
  unfold zlen in *. rewrite skipn_length. rewrite app_length in L. lia.
Qed.
Lemma run_count_split {A} (p : R A) data :
  run_count p data = match p data with Ok (a, rest) => Ok (a, zlen data - zlen rest) | Err e => Err e | Panic => Panic end.
Proof. reflexivity. Qed.
Lemma d_run_n {A} env (Q : A -> Prop) (p : nat -> R A) (g : Z -> bool) (e : goerr) :
  e <> ErrTypeNotRegistered -> e <> ErrFuel -> (forall n, rgood env (Z.of_nat n) Q (p n)) ->
  dgood env Q (fun data => if g (zlen data) then Err e else run_count (p (length data)) data).
Proof.
  intros He1 He2 Hp data Hd. destruct (g (zlen data)) eqn:G; [split; auto|].
  specialize (Hp (length data) data Hd ltac:(unfold zlen; lia)). unfold run_count. destruct (p (length data) data) as [[a l']|x|] eqn:E; auto.
  destruct Hp as (Ha & pre & -> & Hx). split; auto. pose proof (zlen_nonneg pre). pose proof (zlen_nonneg l').
  rewrite zlen_app. replace (zlen pre + zlen l' - zlen l') with (zlen pre) by lia. split; [lia|].
  intros data2 L F. rewrite zlen_to_nat, firstn_exact in F. rewrite <- zlen_app in L.
  destruct (firstn_split _ _ _ L F) as (l2 & -> & L2). rewrite L, G.
  replace (length (pre ++ l2)) with (length (pre ++ l')) by (unfold zlen in L; lia). rewrite Hx by auto.
  rewrite zlen_app, L2. do 2 f_equal. lia.
Qed.
Lemma d_run {A} env (Q : A -> Prop) (p : R A) (g : Z -> bool) (e : goerr) :
  e <> ErrTypeNotRegistered -> e <> ErrFuel -> (forall m, rgood env m Q p) ->
  dgood env Q (fun data => if g (zlen data) then Err e else run_count p data).
Proof. intros H1 H2 H. apply (d_run_n env Q (fun _ => p) g e H1 H2). intros. apply H. Qed.
(** the weaker statement for decoders whose count is too small *)
Definition dsafe {A} (env : Env) (Q : A -> Prop) (dec : bytes -> res (A * Z)) : Prop := forall data, bytes_ok data ->
  match dec data with
  | Ok (a, n) => Q a /\ 0 <= n <= zlen data
  | Err e => good_err env e
  | Panic => False
  end.
Lemma g_len0 {A} env m (Q : A -> Prop) (p q : R A) : rgood env m Q p -> rgood env m Q q ->
  rgood env m Q (rbind r_len (fun k => if k =? 0 then q else p)).
Proof.
  intros Hp Hq l Hl Hm. specialize (Hp l Hl Hm). specialize (Hq l Hl Hm). unfold rbind, r_len in *.
  destruct (zlen l =? 0) eqn:Z.
  - destruct (q l) as [[a l']|x|]; auto. destruct Hq as (Ha & pre & -> & Hx). split; auto. exists pre. split; auto.
    intros l2 H2. rewrite zlen_app, H2, <- zlen_app, Z. auto.
  - destruct (p l) as [[a l']|x|]; auto. destruct Hp as (Ha & pre & -> & Hx). split; auto. exists pre. split; auto.
    intros l2 H2. rewrite zlen_app, H2, <- zlen_app, Z. auto.
Qed.
Lemma g_until {A} env (Q : A -> Prop) (p : R A) :
  (forall m, rgood env m Q p) -> (forall l a l', p l = Ok (a, l') -> zlen l' < zlen l) ->
  forall n m, m <= Z.of_nat n -> rgood env m (Forall Q) (r_until_empty n p).
Proof.
  intros Hp Hc. induction n; intros m Hm l Hl Hlm; (destruct l as [|x l]; [cbn; split; [constructor|]; exists []; split; auto; intros l2 H2; apply zlen_0 in H2; subst; reflexivity|]).
  - rewrite zlen_cons in Hlm. pose proof (zlen_nonneg l). lia.
  - cbn [r_until_empty]. unfold rbind, rret.
    pose proof (Hp (zlen (x :: l)) (x :: l) Hl ltac:(lia)) as H1. destruct (p (x :: l)) as [[a l1]|e|] eqn:E1; auto.
    destruct H1 as (Ha & pre & E & Hx). specialize (Hc _ _ _ E1).
    assert (Hl1 : bytes_ok l1) by (rewrite E in Hl; apply bytes_ok_app in Hl; tauto).
    specialize (IHn (zlen l1) ltac:(lia) l1 Hl1 ltac:(lia)).
    destruct (r_until_empty n p l1) as [[xs l2]|e|] eqn:E2; auto. destruct IHn as (Hxs & pre2 & -> & Hy).
    split; [constructor; auto|]. exists (pre ++ pre2). split; [rewrite E; apply app_assoc|].
    intros l3 H3. rewrite <- app_assoc.
    assert (N : pre <> []). { intros ->. cbn [app] in E. rewrite E in Hc. lia. }
    destruct pre as [|y pre]; [congruence|]. cbn [app]. change (y :: pre ++ pre2 ++ l3) with ((y :: pre) ++ pre2 ++ l3).
    rewrite (Hx (pre2 ++ l3)) by (rewrite !zlen_app; lia). rewrite Hy by auto. auto.
Qed.
