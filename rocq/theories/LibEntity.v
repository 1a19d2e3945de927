(** Field-level laws used by the body round trips. *)
From Verif Require Import Base LibBase Bits LibBits Bcd LibBcd GoTime LibCalendar LibTime Decimal Env SpecGeo LibDec
  EntTerm EntPlat Registry SpecEntity.

(** ** Text *)
Lemma text_of_pad env s d k : no_nul s -> gb_dec env (d ++ repeat 0 k) = (s ++ repeat 0 k, false) ->
  text_of env (d ++ repeat 0 k) = Ok s.
Proof. intros. unfold text_of. rewrite H0. rewrite cstr_pad; auto. Qed.
Lemma text_ok_w env s : text_ok env s -> exists d,
  w_str env s = Ok d /\ zlen d = zlen (fst (gb_enc env s)) /\ bytes_ok d /\ (d = [] -> s = []) /\
  (forall r, r_str_n env (zlen d) (d ++ r) = Ok (s, r)) /\ r_str env d = Ok (s, []) /\
  (forall n r, zlen d <= Z.of_nat n -> r_str_n env (Z.of_nat n) (w_fixed d n ++ r) = Ok (s, r)).
Proof.
  intros (d & He & Hb & Hn & Hz & Hd). exists d.
  assert (T : text_of env d = Ok s).
  { specialize (Hd 0%nat). pose proof (text_of_pad env s d 0 Hn Hd). cbn in H. rewrite app_nil_r in H. auto. }
  unfold w_str. rewrite He. cbn [fst]. repeat (split; [auto; fail|]). split; [|split].
  - intros. unfold r_str_n. erewrite rbind_ok by (apply r_bytes_app; auto). unfold rlift. rewrite T. auto.
  - unfold r_str, r_all, rbind, rlift. rewrite T. auto.
  - intros. unfold r_str_n. erewrite rbind_ok by (apply r_bytes_fixed; auto).
    unfold rlift. rewrite w_fixed_pad by (unfold zlen in *; lia). rewrite (text_of_pad env s) by auto. auto.
Qed.
Lemma text_in_w env s n : text_in env s n -> exists d,
  w_str env s = Ok d /\ zlen d <= n /\ bytes_ok d /\ (d = [] -> s = []) /\
  (forall r, r_str_n env (zlen d) (d ++ r) = Ok (s, r)) /\
  (forall n r, zlen d <= Z.of_nat n -> r_str_n env (Z.of_nat n) (w_fixed d n ++ r) = Ok (s, r)).
Proof.
  intros [H Hn]. destruct (text_ok_w env s H) as (d & H1 & H2 & H3 & H4 & H5 & H6 & H7).
  exists d. split; [auto|]. split; [lia|]. auto.
Qed.
Lemma text_opt_w env s : text_opt env s -> exists d,
  w_str_opt env s = Ok d /\ bytes_ok d /\ r_str_opt env d = Ok (s, []) /\ (d = [] <-> s = []).
Proof.
  intros [->|H].
  - exists []. repeat split; auto. constructor.
  - destruct s as [|x s']. { exists []. repeat split; auto. constructor. }
    destruct (text_ok_w env _ H) as (d & H1 & H2 & H3 & H4 & H5 & H6 & H7). exists d.
    unfold w_str_opt. rewrite zlen_cons. pose proof (zlen_nonneg s'). replace (0 <? 1 + zlen s') with true by lia.
    split; auto. split; auto. split; [|split; [auto|discriminate]].
    unfold r_str_opt, r_len. unfold rbind at 1. destruct d; [discriminate (H4 eq_refl)|].
    rewrite zlen_cons. pose proof (zlen_nonneg d). replace (0 <? 1 + zlen d) with true by lia. auto.
Qed.

(** ** Hemisphere flags *)
Lemma mark_testbit v i b j : 0 <= i -> Z.testbit (mark v i b) j = (Z.testbit v j || (b && (i =? j))).
Proof.
  intros. unfold mark. destruct b; cbn [andb]; [|rewrite orb_false_r; auto].
  rewrite Z.setbit_eqb by auto. apply orb_comm.
Qed.
Lemma mark_or v i b : 0 <= i -> mark v i b = mark v i (Z.testbit v i || b).
Proof.
  intros. destruct (Z.testbit v i) eqn:E; cbn [orb]; auto. destruct b; auto.
  unfold mark. symmetry. apply Z.bits_inj. intros j. rewrite Z.setbit_eqb by auto.
  destruct (Z.eqb_spec i j); [subst; rewrite E; auto|auto].
Qed.
Lemma mark_lt v i b w : 0 <= i < w -> 0 <= v < 2 ^ w -> 0 <= mark v i b < 2 ^ w.
Proof.
  intros. destruct b; cbn [mark]; auto.
  pose proof (setb_range w v i true H0 H). unfold setb in H1. rewrite bitmask_pow in H1 by auto.
  rewrite Z.setbit_spec'. auto.
Qed.
Lemma setb_mark w v i : 0 <= i < w -> setb w v i true = Z.setbit v i.
Proof. intros. unfold setb. rewrite bitmask_pow by auto. rewrite Z.setbit_spec'. auto. Qed.
Lemma mark_mark v i b c : 0 <= i -> mark (mark v i b) i c = mark v i (b || c).
Proof.
  intros. destruct b, c; cbn [orb mark]; auto.
  apply Z.bits_inj. intros j. rewrite !Z.setbit_eqb by auto. destruct (i =? j); auto.
Qed.
Lemma mark_comm v i j b c : 0 <= i -> 0 <= j -> mark (mark v i b) j c = mark (mark v j c) i b.
Proof.
  intros. apply Z.bits_inj. intros k. rewrite !mark_testbit by auto.
  destruct (Z.testbit v k); auto. cbn [orb]. apply orb_comm.
Qed.
Lemma neg6_micro d : coord_ok d -> (micro d <? 0) = neg6 d.
Proof. intros. rewrite micro_trunc6 by auto. reflexivity. Qed.

Definition two_marks (v i j : Z) (a b : bool) : Z := mark (mark v i (Z.testbit v i || a)) j (Z.testbit v j || b).
Lemma two_marks_eq v i j a b : 0 <= i -> 0 <= j -> i <> j ->
  mark (mark v i a) j b = two_marks v i j a b.
Proof.
  intros. unfold two_marks. rewrite (mark_or v i a) by auto. rewrite (mark_or _ j b) by auto. f_equal.
  rewrite mark_testbit by auto. replace (i =? j) with false by lia. rewrite andb_false_r, orb_false_r. auto.
Qed.
Lemma two_marks_fst v i j a b : 0 <= i -> 0 <= j -> i <> j ->
  Z.testbit (two_marks v i j a b) i = (Z.testbit v i || a) /\
  Z.testbit (two_marks v i j a b) j = (Z.testbit v j || b) /\
  forall k, k <> i -> k <> j -> Z.testbit (two_marks v i j a b) k = Z.testbit v k.
Proof.
  intros. unfold two_marks. repeat rewrite mark_testbit by auto.
  rewrite !Z.eqb_refl. replace (i =? j) with false by lia. replace (j =? i) with false by lia.
  rewrite !andb_false_r, !andb_true_r, !orb_false_r. split; [|split].
  - destruct (Z.testbit v i), a; auto.
  - destruct (Z.testbit v j), b; auto.
  - intros. repeat rewrite mark_testbit by auto. replace (i =? k) with false by lia. replace (j =? k) with false by lia.
    rewrite !andb_false_r, !orb_false_r. auto.
Qed.
Lemma two_marks_lt v i j a b w : 0 <= i < w -> 0 <= j < w -> 0 <= v < 2 ^ w -> 0 <= two_marks v i j a b < 2 ^ w.
Proof. intros. unfold two_marks. auto using mark_lt. Qed.

Lemma loc_status_eq e : coord_ok (p_lat e) -> coord_ok (p_lng e) ->
  loc_status e = mark (mark (p_status e) 2 (loc_south e)) 3 (loc_west e).
Proof.
  intros. unfold loc_status. rewrite !neg6_micro by auto. rewrite !setb_mark by lia.
  change (mark (mark (p_status e) 2 (neg6 (p_lat e))) 3 (neg6 (p_lng e)) = two_marks (p_status e) 2 3 (neg6 (p_lat e)) (neg6 (p_lng e))).
  apply two_marks_eq; lia.
Qed.
Lemma loc_status_ok e : is_u32 (p_status e) -> coord_ok (p_lat e) -> coord_ok (p_lng e) ->
  is_u32 (loc_status e) /\ st_south (loc_status e) = loc_south e /\ st_west (loc_status e) = loc_west e.
Proof.
  intros. rewrite loc_status_eq by auto. unfold st_south, st_west. rewrite !getb_testbit by lia.
  pose proof (two_marks_fst (p_status e) 2 3 (neg6 (p_lat e)) (neg6 (p_lng e)) ltac:(lia) ltac:(lia) ltac:(lia)) as (A & B & _).
  split; [|auto].
  apply (two_marks_lt (p_status e) 2 3 (neg6 (p_lat e)) (neg6 (p_lng e)) 32); try lia. exact H.
Qed.
Lemma mark16_mark v i b : 0 <= i < 16 -> mark16 v i b = mark v i b.
Proof. intros. unfold mark16, mark. rewrite setb_mark by auto. auto. Qed.
Lemma at_timed_bit a : at_timed a = Z.testbit a 0.
Proof.
  unfold at_timed. change 1 with (Z.ones 1) at 1. rewrite Z.land_ones by lia. change (2 ^ 1) with 2.
  rewrite Zmod_odd, Z.bit0_odd. destruct (Z.odd a); auto.
Qed.

(** ** Automation: run a reader over written fields. *)
Lemma r_all_app l : r_all (l ++ []) = Ok (l, []).
Proof. rewrite app_nil_r. reflexivity. Qed.
Lemma rlift_ok {A} (r : res A) a l : r = Ok a -> rlift r l = Ok (a, l).
Proof. intros ->. reflexivity. Qed.
Lemma r_list_n {A} (p : R A) (w : A -> bytes) (v : A -> A) (P : A -> Prop) (xs : list A) (r : bytes) n :
  (forall x r, P x -> p (w x ++ r) = Ok (v x, r)) ->
  Forall P xs -> n = zlen xs ->
  r_list (Z.to_nat n) p (concat (map w xs) ++ r) = Ok (map v xs, r).
Proof. intros H1 H2 ->. rewrite zlen_to_nat. apply (r_list_w p w v P); auto. Qed.
Lemma r_list_ids {A} (p : R A) (w : A -> bytes) (P : A -> Prop) (xs : list A) (r : bytes) n :
  (forall x r, P x -> p (w x ++ r) = Ok (x, r)) ->
  Forall P xs -> n = zlen xs ->
  r_list (Z.to_nat n) p (concat (map w xs) ++ r) = Ok (xs, r).
Proof.
  intros H1 H2 H3. rewrite (r_list_n p w (fun x => x) P) by auto. rewrite map_id. auto.
Qed.
Lemma u8_len {A} (l : list A) n : n <= 255 -> zlen l <= n -> u8 (zlen l) = zlen l.
Proof. intros. apply u8_id. pose proof (zlen_nonneg l). unfold is_byte. lia. Qed.
Lemma u16_len {A} (l : list A) n : n <= 65535 -> zlen l <= n -> u16 (zlen l) = zlen l.
Proof. intros. apply u16_id. pose proof (zlen_nonneg l). unfold is_u16. lia. Qed.
Lemma u16_len_ok {A} (l : list A) n : n <= 65535 -> zlen l <= n -> is_u16 (zlen l).
Proof. intros. pose proof (zlen_nonneg l). unfold is_u16. lia. Qed.

(** Forget the (non-negative) lengths' structure and decide a size comparison. *)
Ltac nonneg := repeat match goal with
  | |- context[@zlen ?A ?x] => lazymatch goal with H : 0 <= @zlen A x |- _ => fail | _ => pose proof (@zlen_nonneg A x) end
  end.
Ltac sizes := cbn [concat]; zl; rewrite ?zlen_w_u16, ?zlen_w_u32, ?zlen_w_byte, ?zlen_w_fixed, ?zlen_w_time; nonneg.
Ltac chk := match goal with
  | |- context[if ?a <? ?b then _ else _] => replace (a <? b) with false by (symmetry; apply Z.ltb_ge; sizes; lia); cbv iota
  | |- context[if ?a <=? ?b then _ else _] => replace (a <=? b) with false by (symmetry; apply Z.leb_gt; sizes; lia); cbv iota
  end.
Ltac rstep := erewrite rbind_ok; [|
  match goal with
  | |- r_byte _ = _ => apply r_byte_w
  | |- r_u16 _ = _ => apply r_u16_w; assumption
  | |- r_u32 _ = _ => apply r_u32_w; assumption
  | |- r_time _ _ = _ => apply r_time_w; assumption
  | |- r_all _ = _ => apply r_all_app
  | |- r_bytes _ (w_fixed _ _ ++ _) = _ => apply r_bytes_fixed; reflexivity
  | |- r_bytes _ _ = _ => apply r_bytes_app; assumption
  | H : forall r, r_str_n _ _ (_ ++ r) = _ |- r_str_n _ _ _ = _ => apply H
  end].
Ltac flat := cbn [concat]; rewrite <- ?app_assoc.
