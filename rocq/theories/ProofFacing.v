(** What is read of a body that several send loops encoded at the same moment. *)
From Verif Require Import Base LibBase Bits LibBits Decimal LibDec Env EntTerm EntPlat Registry Race.
From Verif Require Import SpecGeo SpecEntity SpecRace SpecFacing LibEntity ProofRound3 ProofBody4 ProofRace ProofRace2 ProofRace3 ProofRace4.
From Verif Require Import Message SpecFrame SpecMsg SpecWire ProofMsg ProofMsg2 ProofWire3 ProofSealed.
Import SpecRace.

(** ** Coordinates *)
Lemma trunc6_neg d c : trunc6 (Dec (- c) (dexp d)) = - trunc6 (Dec c (dexp d)).
Proof. unfold trunc6. cbn [dcoef dexp]. destruct (Z.leb_spec 0 (dexp d + 6)); [lia|]. apply Z.quot_opp_l. apply Z.pow_nonzero; lia. Qed.
Lemma trunc6_side b d : trunc6 (side b d) = if b then - Z.abs (trunc6 d) else Z.abs (trunc6 d).
Proof.
  assert (A : trunc6 (Dec (Z.abs (dcoef d)) (dexp d)) = Z.abs (trunc6 d)).
  { destruct d as [c x]. cbn [dcoef dexp]. destruct (Z.abs_spec c) as [[H E]|[H E]]; rewrite E.
    - rewrite Z.abs_eq; auto. apply trunc6_sign. exact H.
    - pose proof (trunc6_neg (Dec c x) c) as N. cbn [dexp] in N. rewrite N, Z.abs_neq; auto. apply trunc6_sign. cbn [dcoef]. lia. }
  unfold side. destruct b; [|exact A]. rewrite trunc6_neg, A. reflexivity.
Qed.
Lemma side_ok b d : coord_ok d -> coord_ok (side b d).
Proof. unfold coord_ok. rewrite trunc6_side. destruct b; lia. Qed.
Lemma side_sign b c d : (b = true -> c = true) -> (c = true -> b = true) -> sign_ok c (side b d).
Proof. intros H K. unfold sign_ok. rewrite trunc6_side. destruct b, c; try lia; try discriminate (H eq_refl); discriminate (K eq_refl). Qed.
Lemma side_neg b d : neg6 (side b d) = true -> b = true.
Proof. unfold neg6. rewrite trunc6_side. destruct b; lia. Qed.
Lemma side_abs env b d : coord_ok d -> abs_u32 env (micro (side b d)) = abs_u32 env (micro d).
Proof. intros H. rewrite !abs_u32_ok by (auto; apply side_ok; auto). rewrite trunc6_side. destruct b; lia. Qed.
Lemma side_micro b d : coord_ok d -> (micro (side b d) <? 0) = true -> b = true.
Proof. intros H. rewrite neg6_micro by (apply side_ok; auto). apply side_neg. Qed.
Lemma flag_or (v : Z) i b d : b = Z.testbit v i -> Z.testbit v i || neg6 (side b d) = Z.testbit v i.
Proof. intros ->. destruct (neg6 (side (Z.testbit v i) d)) eqn:N; [apply side_neg in N; rewrite N; reflexivity|apply orb_false_r]. Qed.

(** ** Words *)
Lemma setbit_id v i : 0 <= i -> Z.testbit v i = true -> Z.setbit v i = v.
Proof.
  intros Hi H. apply Z.bits_inj'. intros n Hn. destruct (Z.eq_dec i n) as [->|N]; [rewrite Z.setbit_eq by lia; auto|rewrite Z.setbit_neq by lia; reflexivity].
Qed.
Lemma mark_id v i : 0 <= i -> mark v i (Z.testbit v i) = v.
Proof. intros Hi. unfold mark. destruct (Z.testbit v i) eqn:E; [apply setbit_id; auto|reflexivity]. Qed.
Lemma mark16_id v i b : 0 <= i < 16 -> (b = true -> Z.testbit v i = true) -> mark16 v i b = v.
Proof.
  intros Hi H. unfold mark16. destruct b; [|reflexivity]. apply Z.bits_inj'. intros n Hn. rewrite setb_bit by lia.
  destruct (Z.eqb_spec n i) as [->|N]; [rewrite H by reflexivity; reflexivity|apply orb_false_r].
Qed.
Lemma mark32_id v i (b : bool) : 0 <= i < 32 -> (b = true -> Z.testbit v i = true) -> (if b then setb 32 v i true else v) = v.
Proof.
  intros Hi H. destruct b; [|reflexivity]. apply Z.bits_inj'. intros n Hn. rewrite setb_bit by lia.
  destruct (Z.eqb_spec n i) as [->|N]; [rewrite H by reflexivity; reflexivity|apply orb_false_r].
Qed.
Lemma shown_range k w v : 0 <= k -> 0 <= fst w < 2 ^ k -> (forall b, In b (snd w) -> 0 <= b < k) -> shows w v -> 0 <= v < 2 ^ k.
Proof.
  intros Hk R L (_ & _ & C). assert (E : v = v mod 2 ^ k); [|rewrite E; apply Z.mod_pos_bound, Z.pow_pos_nonneg; lia].
  apply Z.bits_inj'. intros n Hn. destruct (Z.ltb_spec n k).
  - rewrite Z.mod_pow2_bits_low by lia. reflexivity.
  - rewrite Z.mod_pow2_bits_high by lia. destruct (Z.testbit v n) eqn:T; [|reflexivity]. exfalso. destruct (C n T) as [T'|I]; [|specialize (L n I); lia].
    rewrite <- (Z.mod_small _ _ R), Z.mod_pow2_bits_high in T' by lia. discriminate.
Qed.
Lemma shown_u32 w v : is_u32 (fst w) -> (forall b, In b (snd w) -> 0 <= b < 32) -> shows w v -> is_u32 v.
Proof. unfold is_u32. change 4294967296 with (2 ^ 32). apply shown_range. lia. Qed.
Lemma shown_u16 w v : is_u16 (fst w) -> (forall b, In b (snd w) -> 0 <= b < 16) -> shows w v -> is_u16 v.
Proof. unfold is_u16. change 65536 with (2 ^ 16). apply shown_range. lia. Qed.
Lemma shown_bit w v i : ~ In i (snd w) -> shows w v -> Z.testbit v i = Z.testbit (fst w) i.
Proof.
  intros N (A & _ & C). destruct (Z.testbit v i) eqn:T.
  - destruct (C i T) as [H|H]; [auto|contradiction].
  - destruct (Z.testbit (fst w) i) eqn:U; auto. rewrite (A i U) in T. discriminate.
Qed.

(** ** Locations *)
Lemma face_0200_ok env x w : wf_0200 env x -> shows (p_status x, signs 2 3 (under (p_lat x)) (under (p_lng x))) w ->
  wf_0200 env (face_0200 x w) /\ enc_0200 env (face_0200 x w) = out_0200 env x w.
Proof.
  intros (W1 & W2 & W3 & W4 & W5 & W6 & W7) S.
  assert (R : is_u32 w) by (apply shown_u32 with (3 := S); [exact W2|]; cbn [snd]; intros b I; apply signs_in in I; lia).
  split.
  - unfold wf_0200, face_0200, loc_south, loc_west. cbn [p_alarm p_status p_lat p_lng p_alt p_speed p_dir p_time p_extras]. rewrite !flag_or by reflexivity.
    repeat (split; [solve [auto using side_ok | apply side_sign; auto]|]). exact W7.
  - unfold enc_0200, enc_0200_fixed, out_0200, loc_status, face_0200. cbn [p_alarm p_status p_lat p_lng p_alt p_speed p_dir p_time p_extras]. rewrite !side_abs by auto.
    rewrite (mark32_id w 2) by (try lia; intros H; apply side_micro in H; auto). rewrite (mark32_id w 3) by (try lia; intros H; apply side_micro in H; auto). reflexivity.
Qed.

(** ** Areas *)
Lemma face_circle_ok env x w : wf_circle env x -> shows (ci_attr x, signs 6 7 (under (ci_lat x)) (under (ci_lng x))) w ->
  wf_circle env (face_circle x w) /\ forall w', shows (ci_attr x, signs 6 7 (under (ci_lat x)) (under (ci_lng x))) w' -> enc_circle env (face_circle x w) = out_circle env x w w'.
Proof.
  intros (W1 & W2 & W3 & W4 & W5 & W6 & W7 & W8) S.
  assert (L : forall b, In b (signs 6 7 (under (ci_lat x)) (under (ci_lng x))) -> b = 6 \/ b = 7) by (intros b I; apply signs_in in I; lia).
  assert (R : is_u16 w) by (apply shown_u16 with (3 := S); [exact W2|]; cbn [snd]; intros b I; apply L in I; lia).
  assert (B : forall v, shows (ci_attr x, signs 6 7 (under (ci_lat x)) (under (ci_lng x))) v -> Z.testbit v 0 = Z.testbit (ci_attr x) 0).
  { intros v Sv. apply (shown_bit _ _ 0) in Sv; [exact Sv|]. cbn [snd]. intros I. apply L in I. lia. }
  split.
  - unfold wf_circle, face_circle, ci_south, ci_west. cbn [ci_id ci_attr ci_lat ci_lng ci_radius ci_lim]. rewrite !flag_or by reflexivity.
    repeat (split; [solve [auto using side_ok | apply side_sign; auto]|]). unfold wf_limits_if. rewrite (B w S). exact W8.
  - intros w' S'. assert (E : circle_attr (face_circle x w) = w).
    { unfold circle_attr, face_circle. cbn [ci_attr ci_lat ci_lng]. rewrite (mark16_id w 6) by (try lia; intros H; apply side_micro in H; auto). apply mark16_id; [lia|]. intros H. apply side_micro in H; auto. }
    unfold enc_circle, out_circle. rewrite E. unfold face_circle. cbn [ci_id ci_attr ci_lat ci_lng ci_radius ci_lim]. rewrite !side_abs by auto.
    rewrite !timed_bit, (B w S), (B w' S'). reflexivity.
Qed.
Lemma face_rect_ok env x w : wf_rect env x -> let f := (re_attr x, signs 6 7 (under (re_llat x)) (under (re_llng x)) ++ signs 6 7 (under (re_rlat x)) (under (re_rlng x))) in shows f w ->
  wf_rect env (face_rect x w) /\ forall w', shows f w' -> enc_rect env (face_rect x w) = out_rect env x w w'.
Proof.
  intros (W1 & W2 & W3 & W4 & W5 & W6 & W7 & W8 & W9 & W10 & W11) f S.
  assert (L : forall b, In b (snd f) -> b = 6 \/ b = 7) by (cbn [f snd]; intros b I; apply in_app_or in I as [I|I]; apply signs_in in I; lia).
  assert (R : is_u16 w) by (apply shown_u16 with (3 := S); [exact W2|]; cbn [snd]; intros b I; apply L in I; lia).
  assert (B : forall v, shows f v -> Z.testbit v 0 = Z.testbit (re_attr x) 0).
  { intros v Sv. apply (shown_bit _ _ 0) in Sv; [exact Sv|]. intros I. apply L in I. lia. }
  split.
  - unfold wf_rect, face_rect, re_south, re_west. cbn [re_id re_attr re_llat re_llng re_rlat re_rlng re_lim]. rewrite !flag_or by reflexivity.
    repeat (split; [solve [auto using side_ok | apply side_sign; auto]|]). unfold wf_limits_if. rewrite (B w S). exact W11.
  - intros w' S'. assert (E : rect_attr (face_rect x w) = w).
    { unfold rect_attr, face_rect. cbn [re_attr re_llat re_llng re_rlat re_rlng].
      do 4 (match goal with |- context [mark16 w ?i ?b] => replace (mark16 w i b) with w by (symmetry; apply mark16_id; [lia|]; intros H; apply side_micro in H; auto) end). reflexivity. }
    unfold enc_rect, out_rect. rewrite E. unfold face_rect. cbn [re_id re_attr re_llat re_llng re_rlat re_rlng re_lim]. rewrite !side_abs by auto.
    rewrite !timed_bit, (B w S), (B w' S'). reflexivity.
Qed.
Lemma face_poly_attr w l : fold_left poly_attr1 (map (face_vertex w) l) w = w.
Proof.
  induction l as [|v l IH]; [reflexivity|]. cbn [map fold_left]. replace (poly_attr1 w (face_vertex w v)) with w; [exact IH|]. symmetry.
  unfold poly_attr1, face_vertex. cbn [vx_lat vx_lng]. rewrite !dlt_zero. unfold side. cbn [dcoef].
  replace (mark16 w 6 _) with w by (symmetry; apply mark16_id; [lia|]; destruct (Z.testbit w 6); [auto|lia]).
  apply mark16_id; [lia|]. destruct (Z.testbit w 7); [auto|lia].
Qed.
Lemma face_any (w i : Z) (g h : vertex -> decimal) l : (forall v, g (face_vertex w v) = side (Z.testbit w i) (h v)) ->
  Z.testbit w i || existsb (fun v => dcoef (g v) <? 0) (map (face_vertex w) l) = Z.testbit w i.
Proof.
  intros G. destruct (Z.testbit w i) eqn:E; [reflexivity|]. cbn [orb]. induction l as [|v l IH]; [reflexivity|]. cbn [map existsb]. rewrite IH, G. unfold side. cbn [dcoef]. lia.
Qed.
Lemma face_8604_ok env x w : wf_8604 env x ->
  let f := (a8604_attr x, flat_map (fun v => signs 6 7 (dlt (dmul (vx_lat v) dec_million) dec_zero) (dlt (dmul (vx_lng v) dec_million) dec_zero)) (a8604_vs x)) in
  let x' := T8604 (a8604_id x) w (a8604_lim x) (map (face_vertex w) (a8604_vs x)) in shows f w ->
  wf_8604 env x' /\ (forall w', shows f w' -> Ok (enc_8604 env x') = output env (E8604 x) [w; w']) /\ Z.testbit w 0 = Z.testbit (a8604_attr x) 0.
Proof.
  intros (W1 & W2 & W3 & W4 & W5) f x' S.
  assert (L : forall b, In b (snd f) -> b = 6 \/ b = 7) by (cbn [f snd]; intros b I; apply in_flat_map in I as (v & _ & I); apply signs_in in I; lia).
  assert (R : is_u16 w) by (apply shown_u16 with (3 := S); [exact W2|]; cbn [snd]; intros b I; apply L in I; lia).
  assert (B : forall v, shows f v -> Z.testbit v 0 = Z.testbit (a8604_attr x) 0).
  { intros v Sv. apply (shown_bit _ _ 0) in Sv; [exact Sv|]. intros I. apply L in I. lia. }
  split; [|split; [|exact (B w S)]].
  - unfold wf_8604. cbn [x' a8604_id a8604_attr a8604_lim a8604_vs]. split; [auto|]. split; [auto|]. split; [unfold wf_limits_if; rewrite (B w S); exact W3|].
    split; [unfold zlen in *; rewrite map_length; exact W4|]. apply Forall_forall. intros v' I. apply in_map_iff in I as (v & <- & I). rewrite Forall_forall in W5.
    destruct (W5 v I) as (V1 & V2 & _). unfold vs_south, vs_west. cbn [x' a8604_attr a8604_vs].
    rewrite (face_any w 6 vx_lat vx_lat), (face_any w 7 vx_lng vx_lng) by reflexivity. unfold wf_vertex, face_vertex. cbn [vx_lat vx_lng].
    repeat split; auto using side_ok; apply side_sign; auto.
  - intros w' S'. unfold enc_8604, poly_attr. cbn [x' a8604_id a8604_attr a8604_lim a8604_vs output]. rewrite face_poly_attr. unfold cell. cbn [nth].
    rewrite !timed_bit, (B w S), (B w' S'). do 4 f_equal. replace (zlen (map (face_vertex w) (a8604_vs x))) with (zlen (a8604_vs x)) by (unfold zlen; rewrite map_length; reflexivity). f_equal. f_equal.
    rewrite map_map. f_equal. f_equal. apply map_ext_in. intros v I. rewrite Forall_forall in W5. destruct (W5 v I) as (V1 & V2 & _). unfold enc_vertex, face_vertex. cbn [vx_lat vx_lng].
    rewrite !side_abs by auto. reflexivity.
Qed.

(** Two loads of each word *)
Lemma two_loads {A} (f : A -> Z * list Z) (g : A -> Z -> Z -> bytes) (h : A -> Z -> A) (enc : A -> bytes) W : forall l k vs,
  (forall j x, nth_error l j = Some x -> nth (k + j) W (0, []) = f x) ->
  Forall2 (fun v c => shows (nth c W (0, [])) v) vs (flat_map (fun c => [c; c]) (seq k (length l))) ->
  (forall x v w, In x l -> shows (f x) v -> shows (f x) w -> enc (h x v) = g x v w) ->
  exists ws, Forall2 (fun x v => shows (f x) v) l ws /\ out_items g l vs = concat (map enc (map (fun p => h (fst p) (snd p)) (combine l ws))).
Proof.
  induction l as [|x l IH]; intros k vs N F H.
  - exists []. split; [constructor|]. cbn in *. inversion F. reflexivity.
  - cbn [length seq flat_map app] in F. inversion F as [|v1 ? vs1 ? S1 F1]; subst. inversion F1 as [|v2 ? vs2 ? S2 F2]; subst.
    assert (X : nth k W (0, []) = f x) by (specialize (N 0%nat x eq_refl); rewrite Nat.add_0_r in N; exact N). rewrite X in S1, S2.
    destruct (IH (S k) vs2) as (ws & G & E); auto.
    { intros j y Hj. specialize (N (S j) y Hj). rewrite <- N. f_equal. lia. }
    { intros y v w I. apply H. right. exact I. }
    exists (v1 :: ws). split; [constructor; auto|]. cbn [out_items combine map concat fst snd]. rewrite E, (H x v1 v2); auto. left. reflexivity.
Qed.
Lemma nth_at {A} (f : A -> Z * list Z) l j x : nth_error l j = Some x -> nth (0 + j) (map f l) (0, []) = f x.
Proof. intros H. cbn [Nat.add]. rewrite nth_map_d, H. reflexivity. Qed.
Lemma faced_all {A} (P Q : A -> Prop) (f : A -> Z * list Z) (h : A -> Z -> A) l : (forall x v, P x -> shows (f x) v -> Q (h x v)) -> forall ws,
  Forall2 (fun x v => shows (f x) v) l ws -> Forall P l -> Forall Q (map (fun p => h (fst p) (snd p)) (combine l ws)).
Proof.
  intros H ws F. induction F as [|x v l ws S F IH]; intros G; cbn; [constructor|]. inversion G; subst. constructor; auto.
Qed.
Lemma combine_zlen {A B C} (R : A -> B -> Prop) (h : A * B -> C) l ws : Forall2 R l ws -> zlen (map h (combine l ws)) = zlen l.
Proof. intros F. apply F2_len in F. unfold zlen. rewrite map_length, combine_length. lia. Qed.

Lemma F2_map {A} (f : A -> Z * list Z) l ws : Forall2 (fun x v => shows (f x) v) l ws -> Forall2 shows (map f l) ws.
Proof. intros F. induction F; cbn; constructor; auto. Qed.

(** ** Bodies *)
Lemma faced env e vs : wf env e -> boundary e = false -> needs e <> [] -> Forall2 (fun v c => shows (nth c (needs e) (0, [])) v) vs (loads e) ->
  exists ws, Forall2 shows (needs e) ws /\ wf env (facing e ws) /\ boundary (facing e ws) = false /\ entity_id (facing e ws) = entity_id e /\
    (forall d, counted (facing e ws) d = counted e d) /\ output env e vs = encode env (facing e ws).
Proof.
  intros W Bo N F. destruct e as [e| | |e|e|e|e|e|x|x|e|e|e|x|e|e|e|e|e|e|e|e|e|e|e|e|e|e|e|e| |e|e| |e| |e|e|e|e|e|e|e|e|e|e|x|e|x|e|x|e|e|e|e|e| |e|e|e|e|e|e|e|e]; cbn [needs] in N; try congruence; cbn [wf] in W; cbn [boundary] in Bo.
  - cbn [needs loads] in F. inversion F as [|w ? ? ? S F']; subst. inversion F'; subst. cbn [nth] in S. destruct (face_0200_ok env x w W S) as [W' E].
    exists [w]. split; [constructor; [exact S|constructor]|]. cbn [facing nth]. split; [exact W'|]. split; [reflexivity|]. split; [reflexivity|]. split; [reflexivity|]. cbn [output encode cell nth]. unfold cell. cbn [nth]. rewrite E. reflexivity.
  - cbn [needs loads] in F. inversion F as [|w ? ? ? S F']; subst. inversion F'; subst. cbn [nth] in S. destruct W as [W0 W]. destruct (face_0200_ok env _ w W S) as [W' E].
    exists [w]. split; [constructor; [exact S|constructor]|]. cbn [facing nth]. split; [split; [exact W0|exact W']|]. split; [reflexivity|]. split; [reflexivity|]. split; [reflexivity|]. cbn [output encode]. unfold cell, enc_0201. cbn [nth a0201_serial a0201_loc]. rewrite E. reflexivity.
  - cbn [needs loads] in F. inversion F as [|w ? ? ? S F']; subst. inversion F'; subst. cbn [nth] in S. destruct W as [W0 W]. destruct (face_0200_ok env _ w W S) as [W' E].
    exists [w]. split; [constructor; [exact S|constructor]|]. cbn [facing nth]. split; [split; [exact W0|exact W']|]. split; [reflexivity|]. split; [reflexivity|]. split; [reflexivity|]. cbn [output encode]. unfold cell, enc_0201. cbn [nth a0201_serial a0201_loc]. rewrite E. reflexivity.
  - cbn [needs loads] in F. destruct W as (W1 & W2 & W3).
    destruct (two_loads _ (out_circle env) face_circle (enc_circle env) _ (a8600_items x) 0 vs (nth_at _ _) F) as (ws & G & E).
    { intros y v w I Sv Sw. rewrite Forall_forall in W3. apply (face_circle_ok env y v (W3 y I) Sv). exact Sw. }
    exists ws. cbn [needs]. split; [apply F2_map; exact G|]. cbn [facing]. split; [|split; [|split; [reflexivity|split; [reflexivity|]]]].
    + cbn [wf a8600_action a8600_items]. split; [exact W1|]. split; [erewrite combine_zlen by exact G; exact W2|].
      eapply faced_all; [|exact G|exact W3]. intros y v Wy Sv. apply (face_circle_ok env y v Wy Sv).
    + cbn [boundary a8600_items]. destruct G; [exact Bo|reflexivity].
    + cbn [output encode a8600_action a8600_items]. unfold enc_8600. cbn [a8600_action a8600_items]. erewrite combine_zlen by exact G. rewrite E. reflexivity.
  - cbn [needs loads] in F. destruct W as (W1 & W2 & W3).
    destruct (two_loads _ (out_rect env) face_rect (enc_rect env) _ (a8602_items x) 0 vs (nth_at _ _) F) as (ws & G & E).
    { intros y v w I Sv Sw. rewrite Forall_forall in W3. apply (face_rect_ok env y v (W3 y I) Sv). exact Sw. }
    exists ws. cbn [needs]. split; [apply F2_map; exact G|]. cbn [facing]. split; [|split; [|split; [reflexivity|split; [reflexivity|]]]].
    + cbn [wf a8602_action a8602_items]. split; [exact W1|]. split; [erewrite combine_zlen by exact G; exact W2|].
      eapply faced_all; [|exact G|exact W3]. intros y v Wy Sv. apply (face_rect_ok env y v Wy Sv).
    + cbn [boundary a8602_items]. destruct G; [exact Bo|reflexivity].
    + cbn [output encode a8602_action a8602_items]. unfold enc_8602. cbn [a8602_action a8602_items]. erewrite combine_zlen by exact G. rewrite E. reflexivity.
  - cbn [needs loads] in F. inversion F as [|w ? ? ? S F1]; subst. inversion F1 as [|w' ? ? ? S' F2]; subst. inversion F2; subst. cbn [nth] in S, S'.
    destruct (face_8604_ok env x w W S) as (W' & E & B). exists [w]. split; [constructor; [exact S|constructor]|]. cbn [facing nth]. split; [exact W'|].
    split; [|split; [reflexivity|split; [reflexivity|]]].
    + cbn [boundary a8604_vs a8604_attr]. rewrite B. destruct (a8604_vs x); exact Bo.
    + cbn [encode]. symmetry. apply E. exact S'.
Qed.
Lemma race_read env e n sch i r : wf env e -> boundary e = false -> needs e <> [] -> returned env e (rrun (rstart e n) sch) i = Some r ->
  exists d ws, r = Ok d /\ Forall2 shows (needs e) ws /\ decode env (type_number e) d = Ok (sent env (facing e ws), counted e d).
Proof.
  intros W B N H. destruct (race_shows env e n sch i r N H) as (vs & -> & F). destruct (faced env e vs W B N F) as (ws & G & W' & B' & I & C & E).
  destruct (body_exact env _ W') as (d & Ed & D). exists d, ws. rewrite E. split; [exact Ed|]. split; [exact G|]. rewrite <- type_number_id, <- I, D, B', C. reflexivity.
Qed.
Lemma race_frame env e n sch i h hd d data key : wf env e -> boundary e = false -> needs e <> [] -> returned env e (rrun (rstart e n) sch) i = Some (Ok d) ->
  hdr_fits h -> Z.testbit (h_prop h) 10 = false -> zlen d <= 1023 ->
  on_wire (header_layout (type_number e) (wire_prop (h_prop h) (zlen d) (has (h_packet h))) (h_icc h) (h_serial h) (h_packet h)) hd ->
  frame (hd ++ d) (xor_all (hd ++ d)) data ->
  exists ws, Forall2 shows (needs e) ws /\ msg_decode env key data = Ok (Message (hdr_arrives h (type_number e) (zlen d)) (BEnt (sent env (facing e ws)))).
Proof.
  intros W B N H F F10 L O Fr. destruct (race_read env e n sch i _ W B N H) as (d' & ws & E & G & D). injection E as <-. exists ws. split; [exact G|].
  assert (I : is_u16 (type_number e)) by (rewrite <- type_number_id; apply entity_id_u16). rewrite (frame_read env key h (type_number e) hd d data F I L O Fr).
  assert (N' : zlen d mod 65536 <= 1023) by (pose proof (zlen_nonneg d); rewrite Z.mod_small; lia).
  unfold decode_body. rewrite <- (arrives_size h _ _ F N'), Z.eqb_refl. cbn [negb]. rewrite arrives_flag, F10 by auto. cbn [bind hdr_arrives h_id]. rewrite D. reflexivity.
Qed.
