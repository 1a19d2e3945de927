(** A body that is not settled: a schedule of two encoders in which one returns other bytes. *)
From Verif Require Import Base Bits Bcd Decimal Env EntTerm EntPlat Registry LibBase Race SpecRace ProofRace ProofRace2 ProofRace3.

Lemma first_mark c p b : In b (bits c p) -> exists d w b1 k, p = d ++ AMark c w b1 :: k /\ bits c d = [].
Proof.
  induction p as [|a p IH]; intros I; [destruct I|]. cbn in I. apply in_app_or in I.
  destruct (bits1 c a) as [|z l] eqn:E.
  - destruct I as [[]|I]. destruct (IH I) as (d & w & b1 & k & -> & D). exists (a :: d), w, b1, k.
    split; [reflexivity|]. cbn. rewrite E. exact D.
  - destruct a as [c' w off|c'|c']; try discriminate. cbn in E. destruct (Nat.eqb_spec c' c); [subst|discriminate].
    exists [], w, off, p. auto.
Qed.
Lemma first_read c p : In c (reads p) -> exists p1 p2, p = p1 ++ ARead c :: p2 /\ ~ In c (reads p1).
Proof.
  induction p as [|a p IH]; intros I; [destruct I|].
  assert (D : (a = ARead c) \/ (a <> ARead c)).
  { destruct a as [x w off|x|x]; try (right; discriminate). destruct (Nat.eq_dec x c); [subst; auto|right; congruence]. }
  destruct D as [-> |N]; [exists [], p; auto|].
  assert (I' : In c (reads p)).
  { cbn in I. apply in_app_or in I as [I|I]; auto. destruct a; cbn in I; try destruct I as []; try contradiction.
    exfalso. apply N. congruence. }
  destruct (IH I') as (p1 & p2 & -> & Q). exists (a :: p1), p2. split; [reflexivity|].
  cbn. intros H. apply in_app_or in H as [H|H]; auto. destruct a; cbn in H; try contradiction.
  destruct H as [-> |[]]. auto.
Qed.

Lemma lose P m0 c b : Forall (act_ok (length m0)) P -> In c (reads P) ->
  In b (bits c P) -> hd_error (bits c P) <> Some b -> Z.testbit (cell m0 c) b = false ->
  exists sch vs ws j v, rc_enc (rrun (Race m0 (repeat (Encoder P None []) 2)) sch) = [Encoder [] None vs; Encoder [] None ws] /\
    nth_error (reads P) j = Some c /\ ~ In c (firstn j (reads P)) /\ nth_error vs j = Some v /\ Z.testbit v b = false.
Proof.
  intros OK IR IB HB TB.
  destruct (first_mark c P b IB) as (d & w & b1 & k & EP & BD).
  destruct (first_read c P IR) as (p1 & p2 & EQ & NR).
  assert (B1 : b1 <> b).
  { intros ->. apply HB. rewrite EP, bits_app, BD. cbn. rewrite Nat.eqb_refl. reflexivity. }
  assert (OKd : Forall (act_ok (length m0)) d) by (rewrite EP in OK; apply Forall_app in OK; tauto).
  assert (OKm : act_ok (length m0) (AMark c w b1)) by (rewrite EP in OK; apply Forall_app in OK as [_ H]; inversion H; auto).
  assert (OKk : Forall (act_ok (length m0)) k) by (rewrite EP in OK; apply Forall_app in OK as [_ H]; inversion H; auto).
  assert (OK1 : Forall (act_ok (length m0)) p1) by (rewrite EQ in OK; apply Forall_app in OK; tauto).
  assert (OK2 : Forall (act_ok (length m0)) p2) by (rewrite EQ in OK; apply Forall_app in OK as [_ H]; inversion H; auto).
  destruct OKm as [CL RO].
  set (s0 := Race m0 [Encoder P None []; Encoder P None []]).
  (* the second goes up to its first mark of [c] *)
  destruct (drive d s0 1 (AMark c w b1 :: k) []) as (n1 & m1 & us1 & R1 & L1 & _ & BB1 & _).
  { exact OKd. } { cbn. rewrite EP at 1. reflexivity. }
  cbn [rc_enc s0 set_cell app] in R1. cbn [s0 rc_mem] in L1, BB1.
  set (ld := cell m1 c).
  assert (LD : Z.testbit ld b = false).
  { destruct (Z.testbit ld b) eqn:T; auto. apply BB1 in T as [T|T]; [congruence|rewrite BD in T; destruct T]. }
  (* it has loaded; the first goes up to its first load of [c] *)
  set (s2 := Race m1 [Encoder P None []; Encoder (AMark c w b1 :: k) (Some ld) us1]).
  assert (R2 : rrun s0 (repeat 1%nat n1 ++ [1%nat]) = s2).
  { rewrite rrun_app, R1. reflexivity. }
  destruct (drive p1 s2 0 (ARead c :: p2) []) as (n3 & m3 & us3 & R3 & L3 & LU3 & _ & _).
  { cbn. rewrite L1. exact OK1. } { cbn. rewrite EQ at 1. reflexivity. }
  cbn [rc_enc s2 set_cell app] in R3. cbn [s2 rc_mem] in L3.
  (* the second stores, the first loads *)
  set (st := setb w ld b1 true).
  set (m5 := set_cell m3 c st).
  assert (M5 : cell m5 c = st).
  { subst m5. rewrite cell_set by lia. rewrite Nat.eqb_refl. reflexivity. }
  set (s5 := Race m5 [Encoder p2 None (us3 ++ [st]); Encoder k None us1]).
  assert (R5 : rrun s2 (repeat 0%nat n3 ++ [1%nat; 0%nat]) = s5).
  { rewrite rrun_app, R3. unfold rrun. cbn [fold_left].
    unfold rstep at 2. cbn [rc_enc nth_error turn en_code en_reg rc_mem set_cell en_vals].
    unfold rstep. cbn [rc_enc nth_error turn en_code en_reg rc_mem set_cell en_vals].
    fold st. fold m5. rewrite M5. reflexivity. }
  (* both go to the end *)
  assert (L5 : length m5 = length m0) by (subst m5; rewrite set_cell_len; lia).
  destruct (drive p2 s5 0 [] (us3 ++ [st])) as (n6 & m6 & us6 & R6 & L6 & _).
  { cbn [s5 rc_mem]. rewrite L5. exact OK2. } { cbn. rewrite app_nil_r. reflexivity. }
  cbn [rc_enc s5 set_cell] in R6. cbn [s5 rc_mem] in L6.
  set (s6 := Race m6 [Encoder [] None ((us3 ++ [st]) ++ us6); Encoder k None us1]) in R6.
  destruct (drive k s6 1 [] us1) as (n7 & m7 & us7 & R7 & _).
  { cbn [s6 rc_mem]. rewrite L6, L5. exact OKk. } { cbn. rewrite app_nil_r. reflexivity. }
  cbn [rc_enc s6 set_cell] in R7.
  exists ((repeat 1%nat n1 ++ [1%nat]) ++ (repeat 0%nat n3 ++ [1%nat; 0%nat]) ++ repeat 0%nat n6 ++ repeat 1%nat n7).
  exists ((us3 ++ [st]) ++ us6), (us1 ++ us7), (length us3), st.
  split.
  { cbn [repeat]. fold s0. rewrite rrun_app, R2, rrun_app, R5, rrun_app, R6, R7. reflexivity. }
  split; [|split; [|split]].
  - rewrite EQ, reads_app, LU3. rewrite nth_error_app2, Nat.sub_diag by lia. reflexivity.
  - rewrite EQ, reads_app, LU3, firstn_app, Nat.sub_diag, firstn_all. cbn. rewrite app_nil_r. exact NR.
  - rewrite <- app_assoc, nth_error_app2, Nat.sub_diag by lia. reflexivity.
  - subst st. rewrite setb_bit by auto. rewrite LD. cbn. apply Z.eqb_neq. congruence.
Qed.

(** ** The bytes tell the loads *)
Lemma low16 a b : w_u16 a = w_u16 b -> forall i, 0 <= i < 16 -> Z.testbit a i = Z.testbit b i.
Proof.
  unfold w_u16. intros E i R.
  assert (M : a mod 2 ^ 16 = b mod 2 ^ 16).
  { change (2 ^ 16) with 65536. injection E as E1 E2. unfold u8 in *. lia. }
  rewrite <- (Z.mod_pow2_bits_low a 16 i), <- (Z.mod_pow2_bits_low b 16 i) by lia. rewrite M. reflexivity.
Qed.
Lemma low32 a b : w_u32 a = w_u32 b -> forall i, 0 <= i < 32 -> Z.testbit a i = Z.testbit b i.
Proof.
  unfold w_u32. intros E i R.
  assert (M : a mod 2 ^ 32 = b mod 2 ^ 32).
  { change (2 ^ 32) with 4294967296. injection E as E1 E2 E3 E4. unfold u8 in *. lia. }
  rewrite <- (Z.mod_pow2_bits_low a 32 i), <- (Z.mod_pow2_bits_low b 32 i) by lia. rewrite M. reflexivity.
Qed.
Lemma app_split {A} (a b r s : list A) : length a = length b -> a ++ r = b ++ s -> a = b /\ r = s.
Proof.
  revert b. induction a as [|x a IH]; destruct b as [|y b]; cbn; intros L E; try lia; auto.
  injection E as -> E. destruct (IH b) as [-> ->]; auto.
Qed.
Lemma timed_bit v : at_timed v = Z.testbit v 0.
Proof.
  unfold at_timed. replace (Z.land v 1) with (v mod 2).
  - rewrite Zmod_odd. rewrite <- Z.bit0_odd. destruct (Z.testbit v 0); reflexivity.
  - symmetry. apply (Z.land_ones v 1). lia.
Qed.

Lemma items_tell {A} (f : A -> Z -> Z -> bytes) (b : Z) :
  (forall x v1 v2 u1 u2 r s, Z.testbit v2 0 = Z.testbit u2 0 -> f x v1 v2 ++ r = f x u1 u2 ++ s ->
     Z.testbit v1 b = Z.testbit u1 b /\ r = s) ->
  forall l vs us, length vs = (2 * length l)%nat -> length us = (2 * length l)%nat ->
  (forall j, Z.testbit (cell vs j) 0 = Z.testbit (cell us j) 0) ->
  out_items f l vs = out_items f l us ->
  forall c, (c < length l)%nat -> Z.testbit (cell vs (2 * c)) b = Z.testbit (cell us (2 * c)) b.
Proof.
  intros F. induction l as [|x l IH]; intros vs us L1 L2 B E c C; [cbn in C; lia|].
  destruct vs as [|v1 [|v2 vs]], us as [|u1 [|u2 us]]; cbn in L1, L2; try lia.
  cbn [out_items] in E. destruct (F _ _ _ _ _ _ _ (B 1%nat) E) as [T R].
  destruct c as [|c]; [exact T|].
  replace (2 * S c)%nat with (S (S (2 * c))) by lia.
  apply (IH vs us); try lia; [intros j; exact (B (S (S j)))|exact R|cbn in C; lia].
Qed.
Lemma circle_tells env b : 0 <= b < 16 -> forall x v1 v2 u1 u2 r s, Z.testbit v2 0 = Z.testbit u2 0 ->
  out_circle env x v1 v2 ++ r = out_circle env x u1 u2 ++ s -> Z.testbit v1 b = Z.testbit u1 b /\ r = s.
Proof.
  intros R x v1 v2 u1 u2 r s T E. unfold out_circle in E. rewrite !timed_bit, T in E.
  cbn [concat] in E. rewrite <- !app_assoc in E.
  apply app_split in E as [_ E]; [|reflexivity]. apply app_split in E as [E1 E]; [|reflexivity].
  split; [apply low16; auto|]. rewrite !app_nil_l in E. apply app_inv_head in E. apply app_inv_head in E.
  apply app_inv_head in E. apply app_inv_head in E. exact E.
Qed.
Lemma rect_tells env b : 0 <= b < 16 -> forall x v1 v2 u1 u2 r s, Z.testbit v2 0 = Z.testbit u2 0 ->
  out_rect env x v1 v2 ++ r = out_rect env x u1 u2 ++ s -> Z.testbit v1 b = Z.testbit u1 b /\ r = s.
Proof.
  intros R x v1 v2 u1 u2 r s T E. unfold out_rect in E. rewrite !timed_bit, T in E.
  cbn [concat] in E. rewrite <- !app_assoc in E.
  apply app_split in E as [_ E]; [|reflexivity]. apply app_split in E as [E1 E]; [|reflexivity].
  split; [apply low16; auto|]. rewrite !app_nil_l in E. apply app_inv_head in E. apply app_inv_head in E.
  apply app_inv_head in E. apply app_inv_head in E. apply app_inv_head in E. exact E.
Qed.

(** ** No bit but those of the hemispheres is asked for *)
Lemma signs_in sb wb x y b : In b (signs sb wb x y) -> b = sb \/ b = wb.
Proof. unfold signs. intros I. apply in_app_or in I as [I|I]; [destruct x|destruct y]; cbn in I; intuition. Qed.
Definition wide (e : entity) : Z := match e with E0200 _ | E0201 _ | E0500 _ => 32 | _ => 16 end.
Lemma needs_low e c b : In b (snd (nth c (needs e) (0, []))) -> 0 < b < wide e.
Proof.
  intros I. destruct (nth_in_or_default c (needs e) (0, [])) as [J|E]; [|rewrite E in I; destruct I].
  revert I J. generalize (nth c (needs e) (0, [])). intros w I J.
  destruct e; cbn [needs wide] in *; try (destruct J; fail).
  1-3: destruct J as [<-|[]]; cbn in I; apply signs_in in I; lia.
  - apply in_map_iff in J as (x & <- & _). cbn in I. apply signs_in in I. lia.
  - apply in_map_iff in J as (x & <- & _). cbn in I. apply in_app_or in I as [I|I]; apply signs_in in I; lia.
  - destruct J as [<-|[]]. cbn in I. apply in_flat_map in I as (x & _ & I). apply signs_in in I. lia.
Qed.
Lemma bit0 e c v : shows (nth c (needs e) (0, [])) v -> Z.testbit v 0 = Z.testbit (fst (nth c (needs e) (0, []))) 0.
Proof.
  intros (A & _ & C). destruct (Z.testbit v 0) eqn:T.
  - destruct (C 0 T) as [H|H]; [auto|apply needs_low in H; lia].
  - destruct (Z.testbit (fst _) 0) eqn:U; auto. rewrite (A 0 U) in T. discriminate.
Qed.
Lemma bits0 e vs us l : Forall2 (fun v c => shows (nth c (needs e) (0, [])) v) vs l ->
  Forall2 (fun v c => shows (nth c (needs e) (0, [])) v) us l ->
  forall j, Z.testbit (cell vs j) 0 = Z.testbit (cell us j) 0.
Proof.
  intros F. revert us. induction F as [|v c vs l H F IH]; intros us G; inversion G as [|u ? us' ? H' G']; subst;
    intros [|j]; try reflexivity.
  - change (Z.testbit v 0 = Z.testbit u 0). rewrite (bit0 e c v H), (bit0 e c u H'). reflexivity.
  - cbn. apply (IH us' G').
Qed.

(** the first load of word [c] *)
Definition first_load (e : entity) (c j : nat) : Prop :=
  nth_error (loads e) j = Some c /\ ~ In c (firstn j (loads e)).
Lemma pair_nth n : forall k j c, nth_error (flat_map (fun c => [c; c]) (seq k n)) j = Some c ->
  ~ In c (firstn j (flat_map (fun c => [c; c]) (seq k n))) -> (k <= c < k + n /\ j = 2 * (c - k))%nat.
Proof.
  induction n as [|n IH]; intros k j c E N; cbn in E; [destruct j; discriminate|].
  destruct j as [|[|j]]; cbn in E.
  - injection E as <-. lia.
  - injection E as <-. exfalso. apply N. cbn. auto.
  - destruct (IH (S k) j c E) as [R1 R2]; [intros H; apply N; cbn; auto|]. lia.
Qed.

Lemma F2_len {A B} (R : A -> B -> Prop) l k : Forall2 R l k -> length l = length k.
Proof. intros F; induction F; cbn; auto. Qed.
Lemma pairs_len k n : length (flat_map (fun c => [c; c]) (seq k n)) = (2 * n)%nat.
Proof. revert k; induction n; intros; cbn; auto. rewrite IHn. lia. Qed.

Lemma Ok_inj {A} (a b : A) : Ok a = Ok b -> a = b.
Proof. intros H. congruence. Qed.
Lemma bytes_tell env e vs us c j b : 0 <= b < wide e ->
  Forall2 (fun v c => shows (nth c (needs e) (0, [])) v) vs (loads e) ->
  Forall2 (fun v c => shows (nth c (needs e) (0, [])) v) us (loads e) ->
  first_load e c j -> output env e vs = output env e us ->
  Z.testbit (cell vs j) b = Z.testbit (cell us j) b.
Proof.
  intros RB F G [J1 J2] E. pose proof (bits0 e vs us _ F G) as B0.
  pose proof (F2_len _ _ _ F) as LV. pose proof (F2_len _ _ _ G) as LU.
  destruct e; cbn [loads] in *; try (destruct j; discriminate); cbn [output wide] in E, RB.
  1-3: (destruct j as [|j]; [|destruct j; discriminate]); apply low32; [|exact RB];
       apply Ok_inj in E; unfold out_0200 in E; cbn [concat] in E.
  - apply app_split in E as [_ E]; [|reflexivity]. apply app_split in E as [E _]; [|reflexivity]. exact E.
  - apply app_split in E as [_ E]; [|reflexivity]. rewrite <- !app_assoc in E.
    apply app_split in E as [_ E]; [|reflexivity]. apply app_split in E as [E _]; [|reflexivity]. exact E.
  - apply app_split in E as [_ E]; [|reflexivity]. rewrite <- !app_assoc in E.
    apply app_split in E as [_ E]; [|reflexivity]. apply app_split in E as [E _]; [|reflexivity]. exact E.
  - destruct (pair_nth _ _ _ _ J1 J2) as [R1 R2]. rewrite Nat.sub_0_r in R2. subst j.
    rewrite pairs_len in LV, LU. apply Ok_inj in E.
    cbn [concat] in E. apply app_inv_head in E. apply app_inv_head in E. rewrite !app_nil_r in E.
    eapply items_tell; [apply circle_tells; exact RB|exact LV|exact LU|exact B0|exact E|lia].
  - destruct (pair_nth _ _ _ _ J1 J2) as [R1 R2]. rewrite Nat.sub_0_r in R2. subst j.
    rewrite pairs_len in LV, LU. apply Ok_inj in E.
    cbn [concat] in E. apply app_inv_head in E. apply app_inv_head in E. rewrite !app_nil_r in E.
    eapply items_tell; [apply rect_tells; exact RB|exact LV|exact LU|exact B0|exact E|lia].
  - destruct j as [|[|j]]; [|exfalso; injection J1 as <-; apply J2; left; reflexivity|destruct j; discriminate].
    apply low16; [|exact RB]. apply Ok_inj in E. cbn [concat] in E.
    apply app_split in E as [_ E]; [|reflexivity]. apply app_split in E as [E _]; [|reflexivity]. exact E.
Qed.

(** ** Deciding *)
Lemma settled_word_dec w : settled_word w \/ exists b, In b (snd w) /\ hd_error (snd w) <> Some b /\ Z.testbit (fst w) b = false.
Proof.
  destruct w as [a bs]. unfold settled_word. cbn [fst snd].
  assert (H : forall l, (forall b, In b l -> hd_error bs = Some b \/ Z.testbit a b = true) \/
            exists b, In b l /\ hd_error bs <> Some b /\ Z.testbit a b = false).
  { induction l as [|b l IH]; [left; intros b []|].
    destruct IH as [IH|(b' & I & H)]; [|right; exists b'; split; [right; auto|auto]].
    destruct (Z.testbit a b) eqn:T; [left; intros x [<-|I]; auto|].
    destruct (hd_error bs) as [h|] eqn:HD.
    - destruct (Z.eq_dec h b) as [->|N]; [left; intros x [<-|I]; auto|].
      right. exists b. split; [left; auto|split; [congruence|auto]].
    - right. exists b. split; [left; auto|split; [discriminate|auto]]. }
  apply H.
Qed.
Lemma settled_dec e : settled e \/ exists c b, (c < length (needs e))%nat /\ In b (snd (nth c (needs e) (0, []))) /\
  hd_error (snd (nth c (needs e) (0, []))) <> Some b /\ Z.testbit (fst (nth c (needs e) (0, []))) b = false.
Proof.
  unfold settled. generalize (needs e). intros l. induction l as [|w l IH]; [left; constructor|].
  destruct (settled_word_dec w) as [W|(b & W)]; [|right; exists 0%nat, b; cbn; split; [lia|exact W]].
  destruct IH as [IH|(c & b & L & H)]; [left; constructor; auto|]. right. exists (S c), b. cbn. split; [lia|exact H].
Qed.

Lemma final_shows e c : marks_only e -> shows (nth c (needs e) (0, [])) (final e c).
Proof.
  intros M. rewrite code_needs by auto. pose proof (final_bits e c M) as F. split; [|split]; cbn [fst snd].
  - intros i H. apply F. auto.
  - intros b H. apply F. right. destruct (bits c (code e)); [discriminate|]. injection H as ->. left; auto.
  - intros i H. apply F in H. exact H.
Qed.
Lemma loads_all e c : (c < length (needs e))%nat -> In c (loads e).
Proof.
  destruct e; cbn [needs loads length]; try lia; try (intros H; left; lia).
  1-2: rewrite map_length; intros H; apply in_flat_map; exists c; split; [apply in_seq; lia|left; auto].
Qed.

Lemma race_differs env e : ~ settled e -> exists sch r0 r1,
  returned env e (rrun (rstart e 2) sch) 0 = Some r0 /\ returned env e (rrun (rstart e 2) sch) 1 = Some r1 /\
  r0 <> encode env e.
Proof.
  intros NS. destruct (settled_dec e) as [S|(c & b & L & I & HD & T)]; [contradiction|].
  assert (M : marks_only e) by (apply needs_marks; intros E; rewrite E in L; cbn in L; lia).
  pose proof (needs_low e c b I) as LOW.
  pose proof (loads_all e c L) as IL. rewrite <- code_reads in IL by auto.
  pose proof (code_needs e c M) as CN. rewrite CN in I, HD, T. cbn [fst snd] in I, HD, T.
  destruct (lose (code e) (cells e) c b (code_ok e M) IL I HD T) as (sch & vs & ws & j & v & E & J1 & J2 & V & TV).
  exists sch, (output env e vs), (output env e ws). unfold returned, rstart.
  rewrite E. cbn [nth_error]. split; [reflexivity|split; [reflexivity|]].
  rewrite <- (output_final env e M). intros EQ.
  assert (F : Forall2 (fun v c => shows (nth c (needs e) (0, [])) v) vs (loads e)).
  { apply (shown e 2 sch 0 None vs M). unfold rstart. rewrite E. reflexivity. }
  assert (G : Forall2 (fun v c => shows (nth c (needs e) (0, [])) v) (map (final e) (loads e)) (loads e)).
  { generalize (loads e). induction l; cbn; constructor; auto. apply final_shows; auto. }
  rewrite code_reads in J1, J2 by auto.
  assert (BW : 0 <= b < wide e) by lia.
  pose proof (bytes_tell env e vs _ c j b BW F G (conj J1 J2) EQ) as B.
  assert (Q1 : cell vs j = v) by (apply nth_error_nth; exact V).
  assert (Q2 : cell (map (final e) (loads e)) j = final e c).
  { apply nth_error_nth. rewrite nth_error_map, J1. reflexivity. }
  rewrite Q1, Q2, TV in B. symmetry in B.
  assert (X : Z.testbit (final e c) b = true) by (apply (final_bits e c M); auto). congruence.
Qed.

Lemma race_exact env e : settled e <->
  (forall n sch i r, returned env e (rrun (rstart e n) sch) i = Some r -> r = encode env e).
Proof.
  split; [intros S n sch i r; apply race_settled; auto|].
  intros H. destruct (settled_dec e) as [S|(c & b & L & I & HD & T)]; auto.
  exfalso. destruct (race_differs env e) as (sch & r0 & r1 & R0 & _ & N).
  - intros S. pose proof (settled_nth e c S b I) as [X|X]; congruence.
  - apply N. eapply H. exact R0.
Qed.
