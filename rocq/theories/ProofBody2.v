(** Trailing bytes and over-long lists; repeated encoding; extra items; forwarding. *)
From Verif Require Import Base LibBase Bits LibBits Bcd LibBcd GoTime LibCalendar LibTime Decimal Env SpecGeo LibDec
  EntTerm EntPlat Registry SpecEntity SpecRange SpecBody LibEntity ProofRound ProofRound2 ProofRound3 LibSafe ProofSafe ProofBody.

(** ** Readers that do not look at the end of the input *)
Definition rmono {A} (p : R A) : Prop := forall l a r, p l = Ok (a, r) -> forall x, p (l ++ x) = Ok (a, r ++ x).
Lemma m_ret {A} (a : A) : rmono (rret a). Proof. intros l b r H x. injection H as <- <-. reflexivity. Qed.
Lemma m_bind {A B} (p : R A) (k : A -> R B) : rmono p -> (forall a, rmono (k a)) -> rmono (rbind p k).
Proof.
  intros Hp Hk l b r H x. unfold rbind in *. destruct (p l) as [[a l']|e|] eqn:E; try discriminate.
  rewrite (Hp _ _ _ E x). apply Hk; auto.
Qed.
Lemma m_lift {A} (v : res A) : rmono (rlift v).
Proof. intros l b r H x. unfold rlift in *. destruct v; try discriminate. injection H as <- <-. reflexivity. Qed.
Lemma m_byte : rmono r_byte.
Proof. intros [|a l] b r H x; cbn in *; try discriminate. injection H as <- <-. reflexivity. Qed.
Lemma m_u16 : rmono r_u16.
Proof. intros [|a [|b l]] v r H x; cbn in *; try discriminate. injection H as <- <-. reflexivity. Qed.
Lemma m_u32 : rmono r_u32.
Proof. intros [|a [|b [|c [|d l]]]] v r H x; cbn in *; try discriminate. injection H as <- <-. reflexivity. Qed.
Lemma m_bytes n : rmono (r_bytes n).
Proof.
  intros l v r H x. unfold r_bytes in *. destruct (Z.ltb_spec (zlen l) n); try discriminate.
  destruct (Z.ltb_spec n 0); try discriminate. injection H as <- <-.
  pose proof (zlen_nonneg x). rewrite zlen_app. replace (_ <? n) with false by lia.
  unfold zlen in *. rewrite firstn_app, skipn_app. replace (Z.to_nat n - length l)%nat with 0%nat by lia.
  cbn. rewrite app_nil_r. reflexivity.
Qed.
Lemma m_list {A} (p : R A) n : rmono p -> rmono (r_list n p).
Proof. intros H. induction n; cbn [r_list]; [apply m_ret|]. apply m_bind; auto. intros. apply m_bind; auto. intros. apply m_ret. Qed.
Lemma m_if {A} (b : bool) (p q : R A) : rmono p -> rmono q -> rmono (if b then p else q).
Proof. destruct b; auto. Qed.
Ltac mono := repeat first
  [ apply m_bind; [|intros ?] | apply m_ret | apply m_byte | apply m_u16 | apply m_u32 | apply m_bytes
  | apply m_lift | apply m_list | apply m_if
  | match goal with
    | |- rmono (let (_, _) := ?x in _) => destruct x
    | |- rmono (match ?x with (_, _) => _ end) => destruct x
    | |- rmono (?f _ _ _) => unfold f | |- rmono (?f _ _) => unfold f | |- rmono (?f _) => unfold f | |- rmono ?f => unfold f end ].

Definition dmono {A} (d : bytes -> res (A * Z)) : Prop := forall l a n, d l = Ok (a, n) -> forall x, d (l ++ x) = Ok (a, n).
Lemma d_if {A} k e (p : R A) : rmono p -> dmono (fun data => if zlen data <? k then Err e else run_count p data).
Proof.
  intros H l a n E x. cbv beta in *. pose proof (zlen_nonneg x). destruct (Z.ltb_spec (zlen l) k); try discriminate.
  rewrite zlen_app. replace (_ <? k) with false by lia. unfold run_count in *.
  destruct (p l) as [[b r]|?|] eqn:F; try discriminate. rewrite (H _ _ _ F x). injection E as <- <-.
  do 2 f_equal. rewrite !zlen_app. lia.
Qed.
Lemma d_ifle {A} k e (p : R A) : rmono p -> dmono (fun data => if zlen data <=? k then Err e else run_count p data).
Proof.
  intros H l a n E x. cbv beta in *. pose proof (zlen_nonneg x). destruct (Z.leb_spec (zlen l) k); try discriminate.
  rewrite zlen_app. replace (_ <=? k) with false by lia. unfold run_count in *.
  destruct (p l) as [[b r]|?|] eqn:F; try discriminate. rewrite (H _ _ _ F x). injection E as <- <-.
  do 2 f_equal. rewrite !zlen_app. lia.
Qed.
Lemma d_ids : dmono dec_ids.
Proof.
  intros [|c l] a n E x; unfold dec_ids in *; [discriminate|]. cbn [app].
  destruct (r_list (Z.to_nat c) r_u32 l) as [[b r]|?|] eqn:F; try discriminate.
  rewrite (m_list r_u32 _ m_u32 _ _ _ F x). replace (zlen (c :: l) - zlen r - 1) with (zlen l - zlen r) in E by (rewrite zlen_cons; lia). injection E as <- <-. do 2 f_equal. unfold bytes in *. rewrite !zlen_cons, !zlen_app. lia.
Qed.
Lemma t_omap {A} (f : A -> entity) d l a n x : dmono d -> omap f (d l) = Ok (a, n) -> omap f (d (l ++ x)) = Ok (a, n).
Proof.
  intros H E. unfold omap, bind in *. destruct (d l) as [[b k]|?|] eqn:F; try discriminate.
  rewrite (H _ _ _ F x). auto.
Qed.
Ltac dm := first [exact d_ids
  | match goal with |- dmono (?f _) => unfold f | |- dmono ?f => unfold f end; first [apply d_if; mono | apply d_ifle; mono]
  | match goal with |- dmono ?f => unfold f end; intros [|? [|? ?]] ? ? ? ?; cbn in *; try discriminate; auto; fail ].
Lemma trailing env typ l a n x : open_ended typ = false -> decode env typ l = Ok (a, n) -> decode env typ (l ++ x) = Ok (a, n).
Proof.
  intros Ht. unfold decode.
  repeat match goal with |- context[if ?t =? ?k then _ else _] =>
    destruct (Z.eqb_spec t k) as [->|_]; [try discriminate Ht; clear Ht|] end; [..|discriminate].
  all: match goal with |- omap ?f (?d _) = _ -> _ => apply (t_omap f d) end.
  all: dm.
Qed.

(** ** Lists longer than their count *)
Lemma cut8_len {A} (l : list A) : zlen (cut8 l) = zlen l mod 256.
Proof. unfold cut8, zlen. pose proof (zlen_nonneg l). unfold zlen in *. rewrite firstn_length. lia. Qed.
Lemma cut16_len {A} (l : list A) : zlen (cut16 l) = zlen l mod 65536.
Proof. unfold cut16, zlen. pose proof (zlen_nonneg l). unfold zlen in *. rewrite firstn_length. lia. Qed.
Lemma u8_cut {A} (l : list A) : u8 (zlen l) = u8 (zlen (cut8 l)).
Proof. rewrite cut8_len. unfold u8. lia. Qed.
Lemma u16_cut {A} (l : list A) : u16 (zlen l) = u16 (zlen (cut16 l)).
Proof. rewrite cut16_len. unfold u16. lia. Qed.
Lemma cat_cut {A} (w : A -> bytes) n (l : list A) :
  concat (map w l) = concat (map w (firstn n l)) ++ concat (map w (skipn n l)).
Proof. rewrite <- concat_app, <- map_app, firstn_skipn. auto. Qed.
Lemma mapM_cut {A B} (f : A -> res B) (l : list A) n ys : mapM f l = Ok ys -> mapM f (firstn n l) = Ok (firstn n ys).
Proof.
  revert n ys. induction l as [|a l IH]; intros n ys H; cbn in H.
  - injection H as <-. rewrite !firstn_nil. auto.
  - destruct (f a) eqn:E; try discriminate. cbn in H. destruct (mapM f l) eqn:F; try discriminate. injection H as <-.
    destruct n; [auto|]. cbn. rewrite E. cbn. rewrite (IH n _ eq_refl). auto.
Qed.
Lemma concat_cut {A} n (ys : list (list A)) : concat ys = concat (firstn n ys) ++ concat (skipn n ys).
Proof. rewrite <- concat_app, firstn_skipn. auto. Qed.
Lemma vs_attr e : poly_attr e = mark (mark (a8604_attr e) 6 (vs_south e)) 7 (vs_west e).
Proof. rewrite poly_attr_eq. reflexivity. Qed.
Lemma existsb_firstn {A} (f : A -> bool) n l : existsb f (firstn n l) = true -> existsb f l = true.
Proof. intros H. rewrite <- (firstn_skipn n l), existsb_app, H. auto. Qed.
Lemma cut_attr e a l : a = mark (mark (a8604_attr e) 6 (vs_south e)) 7 (vs_west e) ->
  poly_attr (T8604 (a8604_id e) a l (cut16 (a8604_vs e))) = poly_attr e.
Proof.
  intros Ha. rewrite !vs_attr. cbn [a8604_attr]. rewrite <- Ha. apply Z.bits_inj. intros j. rewrite !mark_testbit by lia.
  set (c := T8604 _ _ _ _). assert (B6 : vs_south c = true -> Z.testbit a 6 = true).
  { unfold vs_south at 1. cbn [c a8604_attr a8604_vs]. intros H. apply orb_true_iff in H as [H|H]; [auto|].
    rewrite Ha, !mark_testbit by lia. unfold vs_south. rewrite (existsb_firstn _ _ _ H). rewrite !orb_true_r. reflexivity. }
  assert (B7 : vs_west c = true -> Z.testbit a 7 = true).
  { unfold vs_west at 1. cbn [c a8604_attr a8604_vs]. intros H. apply orb_true_iff in H as [H|H]; [auto|].
    rewrite Ha, !mark_testbit by lia. unfold vs_west. rewrite (existsb_firstn _ _ _ H). rewrite !orb_true_r. reflexivity. }
  destruct (vs_south c), (vs_west c), (Z.eqb_spec 6 j), (Z.eqb_spec 7 j); cbn [andb]; rewrite ?orb_false_r; subst; try lia; rewrite ?B6, ?B7 by auto; auto.
Qed.
Lemma ok_inj {A} (a b : A) : Ok a = Ok b -> b = a. Proof. congruence. Qed.
Lemma concat_cut0 {A} n (ys : list (list A)) : concat ys ++ [] = concat (firstn n ys) ++ [] ++ concat (skipn n ys).
Proof. rewrite app_nil_r. apply concat_cut. Qed.
Lemma cat_cut0 {A} (w : A -> bytes) n (l : list A) :
  concat (map w l) ++ [] = concat (map w (firstn n l)) ++ [] ++ concat (map w (skipn n l)).
Proof. rewrite app_nil_r. apply cat_cut. Qed.
Lemma pre1 (a b c : bytes) : b = c -> a ++ b = a ++ c. Proof. intros ->. auto. Qed.
Lemma cut_prefix env e d : counted_list (entity_id e) = true -> encode env e = Ok d ->
  exists d' x, encode env (cut e) = Ok d' /\ d = d' ++ x.
Proof.
  destruct e; intros Ht H; cbn [entity_id] in Ht; try (discriminate Ht); cbn [encode cut] in *.
  all: match type of H with
    | Ok _ = Ok _ => apply ok_inj in H; subst d; eexists; eexists; (split; [reflexivity|])
    | ?f = Ok _ => let h := match f with ?h _ _ => h | ?h _ => h end in unfold h in *
    end.
  all: try match type of H with
    | bind (mapM ?f ?l) _ = _ => destruct (mapM f l) as [ys|?|] eqn:E; try discriminate; cbn [bind] in H; apply ok_inj in H; subst d;
        apply (mapM_cut f _ (Z.to_nat (zlen l mod 256))) in E; fold (cut8 l) in E
    end.
  all: unfold enc_0704, enc_0705, enc_0802, enc_0805, enc_8003, enc_ids, enc_8600, enc_8602, enc_8604, enc_8606.
  all: cbn [a0104_serial a0104_params a8103_params a8301_type a8301_events a8303_type a8303_items a8401_type a8401_contacts
    concat a0704_type a0704_items a0705_time a0705_items a0802_serial a0802_items a0805_serial a0805_result a0805_ids
    a8003_serial a8003_ids ti_ids a8600_action a8600_items a8602_action a8602_items a8604_id a8604_lim a8604_vs
    a8606_id a8606_attr a8606_start a8606_end a8606_points].
  all: try (rewrite E; cbn [bind]; eexists; eexists; (split; [reflexivity|])).
  all: try rewrite cut_attr by reflexivity.
  all: rewrite <- ?u8_cut, <- ?u16_cut, <- ?app_assoc.
  all: repeat match goal with |- ?a ++ _ = ?a ++ _ => apply (pre1 a) end.
  all: first [apply concat_cut0 | apply cat_cut0].
Qed.

Lemma empty_cut8 {A} (l : list A) : empty (cut8 l) = true -> empty l = false -> zlen l mod 256 = 0 /\ 256 <= zlen l.
Proof.
  intros H1 H2. pose proof (cut8_len l) as L. destruct (cut8 l); [|discriminate]. cbn in L.
  destruct l; [discriminate|]. pose proof (zlen_nonneg l). rewrite zlen_cons in *. lia.
Qed.
Lemma empty_cut16 {A} (l : list A) : empty (cut16 l) = true -> empty l = false -> zlen l mod 65536 = 0 /\ 65536 <= zlen l.
Proof.
  intros H1 H2. pose proof (cut16_len l) as L. destruct (cut16 l); [|discriminate]. cbn in L.
  destruct l; [discriminate|]. pose proof (zlen_nonneg l). rewrite zlen_cons in *. lia.
Qed.
Lemma concat_ge {A} (ys : list (list A)) k : 0 <= k -> Forall (fun y => k <= zlen y) ys -> k * zlen ys <= zlen (concat ys).
Proof. intros Hk. induction 1; cbn [concat]; [cbn; lia|]. rewrite zlen_app, zlen_cons. lia. Qed.
Lemma empty_nil {A} (l : list A) : empty l = true -> l = []. Proof. destruct l; [auto|discriminate]. Qed.
Lemma forall2_len {A B} (P : A -> B -> Prop) l m : Forall2 P l m -> length l = length m.
Proof. induction 1; cbn; auto. Qed.
Lemma enc_params_len l ys : mapM enc_param l = Ok ys -> 5 * zlen l <= zlen (concat ys).
Proof.
  intros H. apply mapM_inv in H. assert (L : zlen l = zlen ys) by (unfold zlen; f_equal; eapply forall2_len; eauto).
  rewrite L. apply concat_ge; [lia|]. clear L. induction H as [|x y l ys Hx H IH]; constructor; auto.
  unfold enc_param in Hx. destruct x as [p|]; [|discriminate]. apply ok_inj in Hx. subst y. sizes. lia.
Qed.
Lemma map_len_ge {A} (w : A -> bytes) k (l : list A) : 0 <= k -> (forall x, k <= zlen (w x)) -> k * zlen l <= zlen (concat (map w l)).
Proof.
  intros Hk H. assert (L : zlen l = zlen (map w l)) by (unfold zlen; rewrite map_length; auto). rewrite L.
  apply concat_ge; auto. apply Forall_forall. intros y Hy. apply in_map_iff in Hy as (x & <- & _). auto.
Qed.
Lemma overlong env e d : counted_list (entity_id e) = true -> encode env e = Ok d -> wf env (cut e) -> boundary e = false ->
  exists n, decode env (entity_id e) d = Ok (sent env (cut e), n).
Proof.
  intros Ht He Hw Hb. destruct (cut_prefix env e d Ht He) as (d' & x & Hd' & Hx).
  assert (Hid : entity_id (cut e) = entity_id e) by (destruct e; reflexivity).
  assert (Ho : open_ended (entity_id e) = false) by (destruct e; try reflexivity; discriminate Ht).
  destruct (boundary (cut e)) eqn:B.
  2:{ destruct (round_trip env (cut e) Hw B) as (d2 & E2 & D2). rewrite Hd' in E2. apply ok_inj in E2. subst d2.
      rewrite Hid in D2. exists (counted (cut e) d'). subst d. apply trailing; auto. }
  clear d' x Hd' Hx Hid Ho.
  destruct e; try (discriminate Ht); clear Ht; cbn [boundary cut] in B, Hb; try discriminate B; cbn [a0104_params a8103_params a8600_items a8602_items a8604_vs a8604_attr] in B.
  - destruct (empty_cut8 _ B Hb) as (M1 & M2). cbn [cut sent]. rewrite (empty_nil _ B).
    cbn [encode] in He. unfold enc_0104 in He. destruct (mapM enc_param (a0104_params e)) as [ys|?|] eqn:E; try discriminate. cbn [bind] in He. apply ok_inj in He. subst d.
    pose proof (enc_params_len _ _ E). destruct Hw as (Hs & _). cbn [a0104_serial] in Hs.
    change (entity_id (E0104 e)) with 260. unfold decode. cbn [Z.eqb Pos.eqb]. unfold dec_0104.
    replace (_ <=? 3) with false by (symmetry; apply Z.leb_gt; sizes; lia).
    replace (u8 (zlen (a0104_params e))) with 0 by (unfold u8; lia). eexists. unfold run_count. cbn [concat].
    erewrite rbind_ok by (apply r_u16_w; auto). erewrite rbind_ok by apply r_byte_w. reflexivity.
  - destruct (empty_cut8 _ B Hb) as (M1 & M2). cbn [cut sent]. rewrite (empty_nil _ B).
    cbn [encode] in He. unfold enc_8103 in He. destruct (mapM enc_param (a8103_params e)) as [ys|?|] eqn:E; try discriminate. cbn [bind] in He. apply ok_inj in He. subst d.
    pose proof (enc_params_len _ _ E).
    change (entity_id (E8103 e)) with 33027. unfold decode. cbn [Z.eqb Pos.eqb]. unfold dec_8103.
    replace (_ <=? 3) with false by (symmetry; apply Z.leb_gt; sizes; lia).
    replace (u8 (zlen (a8103_params e))) with 0 by (unfold u8; lia). eexists. unfold run_count. cbn [concat].
    erewrite rbind_ok by apply r_byte_w. reflexivity.
  - destruct (empty_cut8 _ B Hb) as (M1 & M2). cbn [cut sent]. rewrite (empty_nil _ B).
    cbn [encode] in He. apply ok_inj in He. subst d. unfold enc_8600.
    assert (5 * zlen (a8600_items e) <= zlen (concat (map (enc_circle env) (a8600_items e)))).
    { apply map_len_ge; [lia|]. intros. unfold enc_circle. sizes. lia. }
    change (entity_id (E8600 e)) with 34304. unfold decode. cbn [Z.eqb Pos.eqb]. unfold dec_8600.
    replace (_ <? 20) with false by (symmetry; apply Z.ltb_ge; sizes; lia).
    replace (u8 (zlen (a8600_items e))) with 0 by (unfold u8; lia). eexists. unfold run_count. cbn [concat].
    erewrite rbind_ok by apply r_byte_w. erewrite rbind_ok by apply r_byte_w. reflexivity.
  - destruct (empty_cut8 _ B Hb) as (M1 & M2). cbn [cut sent]. rewrite (empty_nil _ B).
    cbn [encode] in He. apply ok_inj in He. subst d. unfold enc_8602.
    assert (5 * zlen (a8602_items e) <= zlen (concat (map (enc_rect env) (a8602_items e)))).
    { apply map_len_ge; [lia|]. intros. unfold enc_rect. sizes. lia. }
    change (entity_id (E8602 e)) with 34306. unfold decode. cbn [Z.eqb Pos.eqb]. unfold dec_8602.
    replace (_ <? 24) with false by (symmetry; apply Z.ltb_ge; sizes; lia).
    replace (u8 (zlen (a8602_items e))) with 0 by (unfold u8; lia). eexists. unfold run_count. cbn [concat].
    erewrite rbind_ok by apply r_byte_w. erewrite rbind_ok by apply r_byte_w. reflexivity.
  - apply andb_true_iff in B as (B & B0). apply negb_true_iff in B0.
    assert (A0 : Z.testbit (a8604_attr e) 0 = false).
    { rewrite !mark_testbit in B0 by lia. rewrite !andb_false_r, !orb_false_r in B0. auto. }
    rewrite A0 in Hb. cbn [negb] in Hb. rewrite andb_true_r in Hb.
    destruct (empty_cut16 _ B Hb) as (M1 & M2). destruct Hw as (W1 & W2 & _). cbn [a8604_id a8604_attr] in W1, W2.
    cbn [encode] in He. apply ok_inj in He. subst d. unfold enc_8604. rewrite vs_attr.
    set (at' := mark (mark (a8604_attr e) 6 (vs_south e)) 7 (vs_west e)) in *.
    rewrite at_timed_bit, B0.
    assert (8 * zlen (a8604_vs e) <= zlen (concat (map (enc_vertex env) (a8604_vs e)))).
    { apply map_len_ge; [lia|]. intros. unfold enc_vertex. sizes. lia. }
    change (entity_id (E8604 e)) with 34308. unfold decode. cbn [Z.eqb Pos.eqb]. unfold dec_8604.
    replace (_ <? 16) with false by (symmetry; apply Z.ltb_ge; sizes; lia).
    replace (u16 (zlen (a8604_vs e))) with 0 by (unfold u16; lia). eexists. unfold run_count. cbn [concat].
    erewrite rbind_ok by (apply r_u32_w; auto). erewrite rbind_ok by (apply r_u16_w; auto).
    rewrite at_timed_bit, B0. cbn [r_limits_if]. erewrite rbind_ok by reflexivity. cbn [app].
    erewrite rbind_ok by (apply r_u16_w; unfold is_u16; lia). cbn [Z.to_nat r_list]. erewrite rbind_ok by reflexivity.
    unfold rret. cbn [omap bind cut sent]. do 2 f_equal. fold at'.
    unfold sent_8604. cbn [a8604_id a8604_attr a8604_lim a8604_vs]. rewrite (empty_nil _ B). unfold vs_south at 1, vs_west at 1. cbn [a8604_attr a8604_vs existsb map].
    rewrite !orb_false_r. unfold sent_limits. rewrite B0. do 2 f_equal.
    apply Z.bits_inj. intros j. rewrite !mark_testbit by lia.
    destruct (Z.eqb_spec 6 j), (Z.eqb_spec 7 j); subst; rewrite ?andb_true_r, ?andb_false_r, ?orb_false_r, ?orb_diag; auto; discriminate.
Qed.

(** ** Encoding twice *)
Lemma setb_twice w v i : setb w (setb w v i true) i true = setb w v i true.
Proof. unfold setb. rewrite <- Z.lor_assoc, Z.lor_diag. auto. Qed.
Lemma setb_comm w v i j : setb w (setb w v i true) j true = setb w (setb w v j true) i true.
Proof. unfold setb. rewrite <- !Z.lor_assoc. f_equal. apply Z.lor_comm. Qed.
Lemma mark16_twice v i b : mark16 (mark16 v i b) i b = mark16 v i b.
Proof. destruct b; cbn [mark16]; auto. apply setb_twice. Qed.
Lemma mark16_comm v i j a b : mark16 (mark16 v i a) j b = mark16 (mark16 v j b) i a.
Proof. destruct a, b; cbn [mark16]; auto. apply setb_comm. Qed.
Lemma loc_status_upd e : loc_status (upd_0200 e) = loc_status e.
Proof.
  unfold upd_0200. unfold loc_status at 1. cbn [p_status p_lat p_lng]. unfold loc_status.
  destruct (micro (p_lat e) <? 0), (micro (p_lng e) <? 0); auto; unfold setb; apply Z.bits_inj; intros j; rewrite ?Z.lor_spec;
    destruct (Z.testbit (p_status e) j), (Z.testbit (bitmask 32 2) j), (Z.testbit (bitmask 32 3) j); reflexivity.
Qed.
Lemma enc_0200_upd env e : enc_0200 env (upd_0200 e) = enc_0200 env e.
Proof. unfold enc_0200, enc_0200_fixed. rewrite loc_status_upd. reflexivity. Qed.
Lemma circle_attr_upd c : circle_attr (upd_circle c) = circle_attr c.
Proof.
  unfold upd_circle. unfold circle_attr at 1. cbn [ci_attr ci_lat ci_lng]. unfold circle_attr.
  rewrite (mark16_comm _ 7 6), mark16_twice, mark16_twice. auto.
Qed.
Lemma rect_attr_upd c : rect_attr (upd_rect c) = rect_attr c.
Proof.
  unfold upd_rect. unfold rect_attr at 1. cbn [re_attr re_llat re_llng re_rlat re_rlng]. unfold rect_attr.
  set (a := micro (re_llat c) <? 0). set (b := micro (re_llng c) <? 0). set (d := micro (re_rlat c) <? 0). set (f := micro (re_rlng c) <? 0).
  destruct a, b, d, f; cbn [mark16]; unfold setb; apply Z.bits_inj; intros j; rewrite ?Z.lor_spec;
    destruct (Z.testbit (re_attr c) j), (Z.testbit (bitmask 16 6) j), (Z.testbit (bitmask 16 7) j); reflexivity.
Qed.
Lemma poly_attr_upd e : poly_attr (upd_8604 e) = poly_attr e.
Proof.
  unfold upd_8604. rewrite !vs_attr. cbn [a8604_attr]. set (a := mark (mark (a8604_attr e) 6 (vs_south e)) 7 (vs_west e)). unfold vs_south at 1, vs_west at 1. cbn [a8604_attr a8604_vs].
  apply Z.bits_inj. intros j. rewrite !mark_testbit by lia.
  assert (A6 : Z.testbit a 6 = vs_south e).
  { unfold a. rewrite !mark_testbit by lia. cbn [Z.eqb Pos.eqb]. rewrite andb_true_r, andb_false_r, orb_false_r. unfold vs_south. destruct (Z.testbit _ 6); auto. }
  assert (A7 : Z.testbit a 7 = vs_west e).
  { unfold a. rewrite !mark_testbit by lia. cbn [Z.eqb Pos.eqb]. rewrite andb_true_r, andb_false_r, orb_false_r. unfold vs_west. destruct (Z.testbit _ 7); auto. }
  rewrite A6, A7. destruct (Z.eqb_spec 6 j) as [<-|]; [|destruct (Z.eqb_spec 7 j) as [<-|]].
  - rewrite A6. unfold vs_south. destruct (Z.testbit (a8604_attr e) 6), (existsb _ (a8604_vs e)); cbn [orb andb]; rewrite ?andb_false_r; auto.
  - rewrite A7. unfold vs_west. destruct (Z.testbit (a8604_attr e) 7), (existsb _ (a8604_vs e)); cbn [orb andb]; rewrite ?andb_false_r; auto.
  - rewrite !andb_false_r, !orb_false_r. auto.
Qed.
(** The only body that does not repeat: a multimedia upload whose packet has data. *)
Lemma repeatable env e d : encode env e = Ok d ->
  encode env (encoded e) =
  match e with
  | E0801 x => Ok (enc_0800 (a0801_head x) ++ enc_0200 env (bare (a0801_loc x)))
  | _ => Ok d
  end.
Proof.
  intros H. destruct e; cbn [encoded]; auto; cbn [encode] in *; try (apply ok_inj in H; subst d).
  - rewrite enc_0200_upd. auto.
  - unfold enc_0201, upd_0201. cbn [a0201_serial a0201_loc]. rewrite enc_0200_upd. auto.
  - unfold enc_0201, upd_0201. cbn [a0201_serial a0201_loc]. rewrite enc_0200_upd. auto.
  - unfold enc_0705, upd_0705. cbn [a0705_items a0705_time]. replace (clamp_0705 (clamp_0705 _)) with (clamp_0705 (a0705_time e)); auto.
    unfold clamp_0705. destruct (Z.ltb_spec (24 * ns_hour) (a0705_time e)); auto.
    replace (_ <? _) with false by lia. auto.
  - unfold enc_0801, upd_0801. cbn [a0801_head a0801_loc a0801_packet].
    change (with_extras (upd_0200 (with_extras (a0801_loc e) [])) []) with (upd_0200 (with_extras (a0801_loc e) [])).
    rewrite enc_0200_upd. cbn [concat]. rewrite app_nil_r. destruct (a0801_packet e); cbn [rdr_fail rdr_data]; rewrite ?app_nil_r; auto.
  - unfold enc_8600, upd_8600. cbn [a8600_action a8600_items]. rewrite map_map. unfold zlen. rewrite map_length.
    do 4 f_equal. do 2 f_equal. apply map_ext. intros c. unfold enc_circle. rewrite circle_attr_upd. reflexivity.
  - unfold enc_8602, upd_8602. cbn [a8602_action a8602_items]. rewrite map_map. unfold zlen. rewrite map_length.
    do 4 f_equal. do 2 f_equal. apply map_ext. intros c. unfold enc_rect. rewrite rect_attr_upd. reflexivity.
  - unfold enc_8604. rewrite poly_attr_upd. reflexivity.
Qed.
