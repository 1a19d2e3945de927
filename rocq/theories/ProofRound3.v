(** Areas and routes; the round trip of all bodies. *)
From Verif Require Import Base LibBase Bits LibBits Bcd LibBcd GoTime LibCalendar LibTime Decimal Env SpecGeo LibDec
  EntTerm EntPlat Registry SpecEntity LibEntity ProofRound ProofRound2.

(** ** The optional block *)
Lemma r_limits_w env attr l r : wf_limits_if env attr l ->
  r_limits_if env (Z.testbit attr 0) ((if Z.testbit attr 0 then enc_limits env l else []) ++ r) =
  Ok (sent_limits env attr l, r).
Proof.
  unfold wf_limits_if, sent_limits, r_limits_if. destruct (Z.testbit attr 0); [|reflexivity].
  intros H. destruct (H eq_refl) as (? & ? & ? & ?). unfold r_limits, enc_limits. flat. do 4 rstep. reflexivity.
Qed.
Lemma len_limits env attr l : 0 <= zlen (if Z.testbit attr 0 then enc_limits env l else []).
Proof. apply zlen_nonneg. Qed.

(** ** Attributes with the two hemisphere bits *)
Section Attr.
  Context (v : Z) (a b : bool) (Hv : is_u16 v).
  Let w := two_marks v 6 7 a b.
  Lemma attr_u16 : is_u16 w.
  Proof. apply (two_marks_lt v 6 7 a b 16); try lia. exact Hv. Qed.
  Lemma attr_south : at_south w = (Z.testbit v 6 || a).
  Proof. unfold at_south. rewrite getb_testbit by lia. apply two_marks_fst; lia. Qed.
  Lemma attr_west : at_west w = (Z.testbit v 7 || b).
  Proof. unfold at_west. rewrite getb_testbit by lia. apply two_marks_fst; lia. Qed.
  Lemma attr_timed : at_timed w = Z.testbit v 0.
  Proof. rewrite at_timed_bit. apply two_marks_fst; lia. Qed.
End Attr.

(** ** 0x8600 *)
Lemma circle_attr_eq c : coord_ok (ci_lat c) -> coord_ok (ci_lng c) ->
  circle_attr c = two_marks (ci_attr c) 6 7 (neg6 (ci_lat c)) (neg6 (ci_lng c)).
Proof.
  intros. unfold circle_attr. rewrite !mark16_mark, !neg6_micro by (auto; lia). apply two_marks_eq; lia.
Qed.
Lemma abs_u32_u32 env d : coord_ok d -> is_u32 (abs_u32 env (micro d)).
Proof. intros. rewrite abs_u32_ok by auto. apply coord_u32; auto. Qed.
Lemma r_circle_w env c r : wf_circle env c -> r_circle env (enc_circle env c ++ r) = Ok (sent_circle env c, r).
Proof.
  intros (H1 & H2 & H3 & H4 & H5 & H6 & H7 & H8).
  unfold r_circle, enc_circle. rewrite circle_attr_eq by auto.
  pose proof (attr_u16 _ (neg6 (ci_lat c)) (neg6 (ci_lng c)) H2). pose proof (abs_u32_u32 env _ H3). pose proof (abs_u32_u32 env _ H4).
  flat. do 4 rstep. rewrite attr_south, attr_west, attr_timed by auto. fold (ci_south c) (ci_west c).
  erewrite rbind_ok by (apply rlift_ok, geo_sent; auto). cbv beta iota. rstep.
  rewrite app_nil_l. erewrite rbind_ok by (apply r_limits_w; auto). reflexivity.
Qed.
Lemma len_circle env c : wf_circle env c -> 18 <= zlen (enc_circle env c).
Proof. intros. unfold enc_circle. sizes. lia. Qed.
Lemma rt_8600 env e : wf env (E8600 e) -> boundary (E8600 e) = false ->
  dec_8600 env (enc_8600 env e) = Ok (T8600 (a8600_action e) (map (sent_circle env) (a8600_items e)), zlen (enc_8600 env e)).
Proof.
  intros (? & Hn & Hl) Hne. apply nonempty_len in Hne. unfold dec_8600, enc_8600. cbn [concat].
  pose proof (concat_len (enc_circle env) _ 18 _ ltac:(lia) (len_circle env) Hl).
  chk. rc. rewrite (u8_len _ 255) by lia. do 2 rstep.
  erewrite rbind_ok by (eapply r_list_n; [intros; apply r_circle_w; eassumption|exact Hl|auto]). fin.
Qed.

(** ** 0x8602 *)
Lemma rect_attr_eq c : coord_ok (re_llat c) -> coord_ok (re_llng c) -> coord_ok (re_rlat c) -> coord_ok (re_rlng c) ->
  rect_attr c = two_marks (re_attr c) 6 7 (neg6 (re_llat c) || neg6 (re_rlat c)) (neg6 (re_llng c) || neg6 (re_rlng c)).
Proof.
  intros. unfold rect_attr. rewrite !mark16_mark, !neg6_micro by (auto; lia).
  rewrite (mark_comm _ 7 6) by lia. rewrite !mark_mark by lia. apply two_marks_eq; lia.
Qed.
Lemma r_rect_w env c r : wf_rect env c -> r_rect env (enc_rect env c ++ r) = Ok (sent_rect env c, r).
Proof.
  intros (H1 & H2 & H3 & H4 & H5 & H6 & H7 & H8 & H9 & H10 & H11).
  unfold r_rect, enc_rect. rewrite rect_attr_eq by auto.
  pose proof (attr_u16 _ (neg6 (re_llat c) || neg6 (re_rlat c)) (neg6 (re_llng c) || neg6 (re_rlng c)) H2).
  pose proof (abs_u32_u32 env _ H3). pose proof (abs_u32_u32 env _ H4). pose proof (abs_u32_u32 env _ H5). pose proof (abs_u32_u32 env _ H6).
  flat. do 6 rstep. rewrite attr_south, attr_west, attr_timed by auto. rewrite !orb_assoc. fold (re_south c) (re_west c).
  erewrite rbind_ok by (apply rlift_ok, geo_sent; auto). cbv beta iota.
  erewrite rbind_ok by (apply rlift_ok, geo_sent; auto). cbv beta iota.
  rewrite app_nil_l. erewrite rbind_ok by (apply r_limits_w; auto).
  unfold rret, sent_rect, two_marks. rewrite !orb_assoc. reflexivity.
Qed.
Lemma len_rect env c : wf_rect env c -> 22 <= zlen (enc_rect env c).
Proof. intros. unfold enc_rect. sizes. lia. Qed.
Lemma rt_8602 env e : wf env (E8602 e) -> boundary (E8602 e) = false ->
  dec_8602 env (enc_8602 env e) = Ok (T8602 (a8602_action e) (map (sent_rect env) (a8602_items e)), zlen (enc_8602 env e)).
Proof.
  intros (? & Hn & Hl) Hne. apply nonempty_len in Hne. unfold dec_8602, enc_8602. cbn [concat].
  pose proof (concat_len (enc_rect env) _ 22 _ ltac:(lia) (len_rect env) Hl).
  chk. rc. rewrite (u8_len _ 255) by lia. do 2 rstep.
  erewrite rbind_ok by (eapply r_list_n; [intros; apply r_rect_w; eassumption|exact Hl|auto]). fin.
Qed.

(** ** 0x8604 *)
Lemma poly_fold vs : forall a, fold_left poly_attr1 vs a =
  mark (mark a 6 (existsb (fun v => dcoef (vx_lat v) <? 0) vs)) 7 (existsb (fun v => dcoef (vx_lng v) <? 0) vs).
Proof.
  induction vs as [|v vs IH]; intros a; [reflexivity|]. cbn [fold_left existsb]. rewrite IH. unfold poly_attr1.
  rewrite !mark16_mark by lia. rewrite !dlt_zero. rewrite (mark_comm _ 7 6) by lia. rewrite !mark_mark by lia. reflexivity.
Qed.
Lemma poly_attr_eq e : poly_attr e = two_marks (a8604_attr e) 6 7
  (existsb (fun v => dcoef (vx_lat v) <? 0) (a8604_vs e)) (existsb (fun v => dcoef (vx_lng v) <? 0) (a8604_vs e)).
Proof. unfold poly_attr. rewrite poly_fold. apply two_marks_eq; lia. Qed.
Lemma rt_8604 env e : wf_8604 env e -> boundary (E8604 e) = false -> dec_8604 env (enc_8604 env e) = Ok (sent_8604 env e, zlen (enc_8604 env e)).
Proof.
  intros (H1 & H2 & H3 & H4 & H5) Hne. unfold dec_8604, enc_8604. rewrite poly_attr_eq.
  pose proof (attr_u16 _ (existsb (fun v => dcoef (vx_lat v) <? 0) (a8604_vs e)) (existsb (fun v => dcoef (vx_lng v) <? 0) (a8604_vs e)) H2).
  assert (L : forall v, wf_vertex (vs_south e) (vs_west e) v -> 8 <= zlen (enc_vertex env v)) by (intros; unfold enc_vertex; sizes; lia).
  pose proof (concat_len (enc_vertex env) _ 8 _ ltac:(lia) L H5).
  rewrite attr_timed by auto. cbn [concat]. pose proof (len_limits env (a8604_attr e) (a8604_lim e)).
  assert (Hs : 16 <= 8 + 8 * zlen (a8604_vs e) + zlen (if Z.testbit (a8604_attr e) 0 then enc_limits env (a8604_lim e) else [])).
  { cbn [boundary] in Hne. apply andb_false_iff in Hne. destruct Hne as [Hne|Hne].
    - apply nonempty_len in Hne. lia.
    - apply negb_false_iff in Hne. rewrite Hne. unfold enc_limits. pose proof (zlen_nonneg (a8604_vs e)). sizes. lia. }
  match goal with |- context[if ?a <? 16 then _ else _] => assert (Hl16 : 16 <= a) by (zl; rewrite ?zlen_w_u16, ?zlen_w_u32; unfold bytes in *; lia) end.
  match goal with |- context[if ?a <? 16 then _ else _] => replace (a <? 16) with false by lia end. cbv iota.
  rc. rewrite (u16_len _ 65535) by lia. pose proof (u16_len_ok (a8604_vs e) 65535 ltac:(lia) ltac:(lia)).
  do 2 rstep. rewrite attr_timed by auto. erewrite rbind_ok by (apply r_limits_w; auto). rstep.
  erewrite rbind_ok.
  2:{ eapply r_list_n; [|exact H5|auto]. intros v r (V1 & V2 & V3 & V4). unfold r_vertex, enc_vertex.
      pose proof (abs_u32_u32 env _ V1). pose proof (abs_u32_u32 env _ V2). rewrite <- app_assoc. do 2 rstep.
      rewrite attr_south, attr_west by auto. fold (vs_south e) (vs_west e).
      erewrite rbind_ok by (apply rlift_ok, geo_sent; auto). reflexivity. }
  fin.
Qed.

(** ** 0x8606 *)
Lemma setb_put w v i b : 0 <= v < 2 ^ w -> 0 <= i < w -> setb w v i b = put_bit v i b.
Proof.
  intros. apply Z.bits_inj'. intros j Hj. rewrite setb_testbit by auto. unfold put_bit.
  destruct b; [rewrite Z.setbit_eqb by lia|rewrite Z.clearbit_eqb by lia]; rewrite (Z.eqb_sym j i); destruct (i =? j), (Z.testbit v j); auto.
Qed.
Lemma put_testbit v i b j : 0 <= i -> Z.testbit (put_bit v i b) j = if i =? j then b else Z.testbit v j.
Proof.
  intros. unfold put_bit. destruct b; [rewrite Z.setbit_eqb by lia|rewrite Z.clearbit_eqb by lia]; destruct (i =? j), (Z.testbit v j); auto.
Qed.
Lemma put_lt w v i b : 0 <= v < 2 ^ w -> 0 <= i < w -> 0 <= put_bit v i b < 2 ^ w.
Proof. intros. rewrite <- (setb_put w) by auto. apply setb_range; auto. Qed.
Lemma both_present a b P Q : wf_pair a b P Q -> is_some (both a b) = present a.
Proof. destruct a, b; cbn; tauto. Qed.
Lemma point_attr_eq p : wf_point p -> point_attr p =
  put_bit (put_bit (two_marks (pt_attr p) 2 3 (neg6 (pt_lat p)) (neg6 (pt_lng p))) 0 (present (pt_long p))) 1 (present (pt_speed p)).
Proof.
  intros (H1 & H2 & H3 & H4 & H5 & H6 & H7 & H8 & H9 & H10).
  unfold point_attr. cbv zeta. erewrite !both_present by eauto. rewrite !neg6_micro by auto.
  rewrite !(setb_mark 8) by lia.
  change (if neg6 (pt_lng p) then Z.setbit (if neg6 (pt_lat p) then Z.setbit (pt_attr p) 2 else pt_attr p) 3
          else if neg6 (pt_lat p) then Z.setbit (pt_attr p) 2 else pt_attr p)
    with (mark (mark (pt_attr p) 2 (neg6 (pt_lat p))) 3 (neg6 (pt_lng p))).
  rewrite two_marks_eq by lia.
  pose proof (two_marks_lt (pt_attr p) 2 3 (neg6 (pt_lat p)) (neg6 (pt_lng p)) 8 ltac:(lia) ltac:(lia) H8).
  rewrite (setb_put 8 _ 0) by (auto; lia). rewrite (setb_put 8 _ 1); [auto|apply put_lt; auto; lia|lia].
Qed.
Lemma r_two16_w a b r : wf_pair a b is_u16 is_u16 ->
  r_two16 (present a) (match both a b with Some (x, y) => w_u16 x ++ w_u16 y | None => [] end ++ r) = Ok ((a, b), r).
Proof.
  destruct a, b; cbn [wf_pair both present r_two16]; try tauto; try reflexivity.
  intros [? ?]. rewrite <- app_assoc. do 2 rstep. reflexivity.
Qed.
Lemma r_speed_w a b r : wf_pair a b is_u16 is_byte ->
  r_speed (present a) (match both a b with Some (x, y) => w_u16 x ++ w_byte y | None => [] end ++ r) = Ok ((a, b), r).
Proof.
  destruct a, b; cbn [wf_pair both present r_speed]; try tauto; try reflexivity.
  intros [? ?]. rewrite <- app_assoc. do 2 rstep. reflexivity.
Qed.
Lemma r_point_w env p r : wf_point p -> r_point (enc_point env p ++ r) = Ok (sent_point p, r).
Proof.
  intros H. pose proof H as (H1 & H2 & H3 & H4 & H5 & H6 & H7 & H8 & H9 & H10).
  unfold r_point, enc_point. rewrite point_attr_eq by auto.
  pose proof (abs_u32_u32 env _ H3). pose proof (abs_u32_u32 env _ H4).
  flat. do 6 rstep. rewrite !getb_testbit by lia. rewrite !put_testbit by lia. cbn [Z.eqb Pos.eqb].
  pose proof (two_marks_fst (pt_attr p) 2 3 (neg6 (pt_lat p)) (neg6 (pt_lng p)) ltac:(lia) ltac:(lia) ltac:(lia)) as (B2 & B3 & _).
  rewrite B2, B3. fold (pt_south p) (pt_west p).
  erewrite rbind_ok by (apply rlift_ok, geo_sent; auto). cbv beta iota.
  erewrite rbind_ok by (apply r_two16_w; auto). cbv beta iota. rewrite app_nil_l.
  erewrite rbind_ok by (apply r_speed_w; auto). cbv beta iota. reflexivity.
Qed.
Lemma rt_8606 env e : wf env (E8606 e) ->
  dec_8606 env (enc_8606 env e) = Ok (T8606 (a8606_id e) (a8606_attr e) (time_sent env (a8606_start e)) (time_sent env (a8606_end e))
                            (map sent_point (a8606_points e)), zlen (enc_8606 env e)).
Proof.
  intros (? & ? & ? & ? & Hn & Hl). unfold dec_8606, enc_8606. cbn [concat]. chk. rc.
  rewrite (u16_len _ 65535) by lia. pose proof (u16_len_ok _ 65535 ltac:(lia) Hn). do 5 rstep.
  erewrite rbind_ok by (eapply r_list_n; [intros; apply r_point_w; eassumption|exact Hl|auto]). fin.
Qed.

(** ** All of them *)
Lemma omap_ok {A B} (f : A -> B) r a n : r = Ok (a, n) -> omap f r = Ok (f a, n).
Proof. intros ->. reflexivity. Qed.
Lemma round_trip env e : wf env e -> boundary e = false ->
  exists d, encode env e = Ok d /\ decode env (entity_id e) d = Ok (sent env e, counted e d).
Proof.
  intros H Hne. destruct e;
  match goal with |- context[decode _ (entity_id ?e) _] =>
    let k := eval cbv in (entity_id e) in change (entity_id e) with k end;
  match goal with |- context[encode env ?e] => let x := eval cbn [encode] in (encode env e) in change (encode env e) with x end;
  unfold decode; cbn [Z.eqb Pos.eqb sent counted]; cbn [wf] in H.
  - (* 0001 *) eexists. split; [reflexivity|]. apply omap_ok. first [apply (rt_0001 env)|apply rt_0001]; exact H.
  - (* 0002 *) eexists. split; reflexivity.
  - (* 0003 *) eexists. split; reflexivity.
  - (* 0100 *) destruct (rt_0100 env e H) as (d & E & D). exists d. split; [exact E|]. apply omap_ok. exact D.
  - (* 0102 *) destruct (rt_0102 env e H Hne) as (d & E & D). exists d. split; [exact E|]. apply omap_ok. exact D.
  - (* 0104 *) destruct (rt_0104 e (proj2 H) (proj1 H) Hne) as (d & E & D). exists d. split; [exact E|]. apply omap_ok. exact D.
  - (* 0107 *) eexists. split; [reflexivity|]. apply omap_ok. first [apply (rt_0107 env)|apply rt_0107]; exact H.
  - (* 0108 *) eexists. split; [reflexivity|]. apply omap_ok. apply rt_0108.
  - (* 0200 *) eexists. split; [reflexivity|]. apply omap_ok. first [apply (rt_0200 env)|apply rt_0200]; exact H.
  - (* 0201 *) eexists. split; [reflexivity|]. apply omap_ok. eapply rt_0201; apply H.
  - (* 0301 *) eexists. split; [reflexivity|]. apply omap_ok. apply rt_0301.
  - (* 0302 *) eexists. split; [reflexivity|]. apply omap_ok. eapply rt_0302; apply H.
  - (* 0303 *) eexists. split; [reflexivity|]. apply omap_ok. apply rt_0303.
  - (* 0500 *) eexists. split; [reflexivity|]. apply omap_ok. eapply rt_0201; apply H.
  - (* 0700 *) eexists. split; [reflexivity|]. apply omap_ok. eapply rt_0700; apply H.
  - (* 0701 *) eexists. split; [reflexivity|]. apply omap_ok. eapply rt_0701; apply H.
  - (* 0702 *) destruct (rt_0702 env e H) as (d & E & D). exists d. split; [exact E|exact D].
  - (* 0704 *) eexists. split; [reflexivity|]. apply omap_ok. first [apply (rt_0704 env)|apply rt_0704]; exact H.
  - (* 0705 *) eexists. split; [reflexivity|]. apply omap_ok. first [apply (rt_0705 env)|apply rt_0705]; exact H.
  - (* 0800 *) eexists. split; [reflexivity|]. apply omap_ok. first [apply (rt_0800 env)|apply rt_0800]; exact H.
  - (* 0801 *) destruct (rt_0801 env e H) as (d & E & D). exists d. split; [exact E|exact D].
  - (* 0802 *) eexists. split; [reflexivity|]. apply omap_ok. first [apply (rt_0802 env)|apply rt_0802]; exact H.
  - (* 0805 *) eexists. split; [reflexivity|]. apply omap_ok. first [apply (rt_0805 env)|apply rt_0805]; exact H.
  - (* 0900 *) eexists. split; [reflexivity|]. apply omap_ok. apply rt_data.
  - (* 0901 *) eexists. split; [reflexivity|]. apply omap_ok. first [apply (rt_0901 env)|apply rt_0901]; exact H.
  - (* 0A00 *) destruct (rt_0a00 e H) as (d & E & D). exists d. split; [exact E|]. apply omap_ok. exact D.
  - (* 8001 *) eexists. split; [reflexivity|]. apply omap_ok. first [apply (rt_8001 env)|apply rt_8001]; exact H.
  - (* 8003 *) eexists. split; [reflexivity|]. apply omap_ok. first [apply (rt_8003 env)|apply rt_8003]; exact H.
  - (* 8100 *) destruct (rt_8100 env e H) as (d & E & D). exists d. split; [exact E|]. apply omap_ok. exact D.
  - (* 8103 *) destruct (rt_8103 e H Hne) as (d & E & D). exists d. split; [exact E|]. apply omap_ok. exact D.
  - (* 8104 *) eexists. split; reflexivity.
  - (* 8105 *) destruct (rt_text env e (proj2 H)) as (d & E & D). exists d. split; [exact E|]. apply omap_ok. exact D.
  - (* 8106 *) eexists. split; [reflexivity|]. apply omap_ok. first [apply (rt_ids env)|apply rt_ids]; exact H.
  - (* 8107 *) eexists. split; reflexivity.
  - (* 8108 *) destruct (rt_8108 env e H) as (d & E & D). exists d. split; [exact E|]. apply omap_ok. exact D.
  - (* 8201 *) eexists. split; reflexivity.
  - (* 8202 *) eexists. split; [reflexivity|]. apply omap_ok. eapply rt_8202; apply H.
  - (* 8203 *) eexists. split; [reflexivity|]. apply omap_ok. eapply rt_8202; apply H.
  - (* 8300 *) destruct (rt_text env e (proj2 H)) as (d & E & D). exists d. split; [exact E|]. apply omap_ok. exact D.
  - (* 8301 *) destruct (rt_8301 env e H) as (d & E & D). exists d. split; [exact E|]. apply omap_ok. exact D.
  - (* 8302 *) destruct (rt_8302 env e H) as (d & E & D). exists d. split; [exact E|]. apply omap_ok. exact D.
  - (* 8303 *) destruct (rt_8303 env e H) as (d & E & D). exists d. split; [exact E|]. apply omap_ok. exact D.
  - (* 8304 *) destruct (rt_8304 env e H) as (d & E & D). exists d. split; [exact E|]. apply omap_ok. exact D.
  - (* 8400 *) eexists. split; [reflexivity|]. apply omap_ok. eapply rt_8400; apply H.
  - (* 8401 *) destruct (rt_8401 env e H) as (d & E & D). exists d. split; [exact E|]. apply omap_ok. exact D.
  - (* 8500 *) eexists. split; [reflexivity|]. apply omap_ok. apply rt_8500.
  - (* 8600 *) eexists. split; [reflexivity|]. apply omap_ok. apply rt_8600; [exact H|exact Hne].
  - (* 8601 *) eexists. split; [reflexivity|]. apply omap_ok. first [apply (rt_ids env)|apply rt_ids]; exact H.
  - (* 8602 *) eexists. split; [reflexivity|]. apply omap_ok. apply rt_8602; [exact H|exact Hne].
  - (* 8603 *) eexists. split; [reflexivity|]. apply omap_ok. first [apply (rt_ids env)|apply rt_ids]; exact H.
  - (* 8604 *) eexists. split; [reflexivity|]. apply omap_ok. apply rt_8604; [exact H|exact Hne].
  - (* 8605 *) eexists. split; [reflexivity|]. apply omap_ok. first [apply (rt_ids env)|apply rt_ids]; exact H.
  - (* 8606 *) eexists. split; [reflexivity|]. apply omap_ok. first [apply (rt_8606 env)|apply rt_8606]; exact H.
  - (* 8607 *) eexists. split; [reflexivity|]. apply omap_ok. first [apply (rt_8607 env)|apply rt_8607]; exact H.
  - (* 8700 *) eexists. split; [reflexivity|]. apply omap_ok. apply rt_data.
  - (* 8701 *) eexists. split; [reflexivity|]. apply omap_ok. apply rt_data.
  - (* 8702 *) eexists. split; reflexivity.
  - (* 8800 *) eexists. split; [reflexivity|]. apply omap_ok. first [apply (rt_8800 env)|apply rt_8800]; exact H.
  - (* 8801 *) eexists. split; [reflexivity|]. apply omap_ok. first [apply (rt_8801 env)|apply rt_8801]; exact H.
  - (* 8802 *) eexists. split; [reflexivity|]. apply omap_ok. first [apply (rt_8802 env)|apply rt_8802]; exact H.
  - (* 8803 *) eexists. split; [reflexivity|]. apply omap_ok. eapply rt_8803; apply H.
  - (* 8804 *) eexists. split; [reflexivity|]. apply omap_ok. first [apply (rt_8804 env)|apply rt_8804]; exact H.
  - (* 8805 *) eexists. split; [reflexivity|]. apply omap_ok. first [apply (rt_8805 env)|apply rt_8805]; exact H.
  - (* 8900 *) eexists. split; [reflexivity|]. apply omap_ok. apply rt_data.
  - (* 8A00 *) destruct (rt_0a00 e H) as (d & E & D). exists d. split; [exact E|]. apply omap_ok. exact D.
Qed.

(** ** The boundary cases *)
Lemma boundary_fails env e : wf env e -> boundary e = true ->
  exists d, encode env e = Ok d /\ decode env (entity_id e) d = Err PErrInvalidBody.
Proof.
  intros H Hb. destruct e; try discriminate Hb; cbn [boundary] in Hb.
  - destruct e as [[|]]; [|discriminate Hb]. exists []. split; reflexivity.
  - destruct e as [s [|]]; [|discriminate Hb]. eexists. split; reflexivity.
  - destruct e as [[|]]; [|discriminate Hb]. eexists. split; reflexivity.
  - destruct e as [a [|]]; [|discriminate Hb]. eexists. split; reflexivity.
  - destruct e as [a [|]]; [|discriminate Hb]. eexists. split; reflexivity.
  - apply andb_prop in Hb. destruct Hb as [Hb Ht]. apply negb_true_iff in Ht. destruct e as [i a l [|]]; [|discriminate Hb]. cbn [a8604_attr] in Ht.
    eexists. split; [reflexivity|]. change (decode env (entity_id ?e) ?d) with (omap E8604 (dec_8604 env d)).
    unfold enc_8604. rewrite poly_attr_eq. cbn [a8604_vs a8604_attr a8604_id a8604_lim existsb].
    rewrite attr_timed, Ht. reflexivity.
Qed.
