(** What is reserved, in the words of SpecReserve.v. *)
From Verif Require Import Base LibBase GoTime Env EntTerm EntPlat Registry Reserve SpecSha SpecReserve.

(** ** Reads take bytes *)
Definition eats {A} (p : R A) (k : Z) : Prop := forall l x r, p l = Ok (x, r) -> zlen r + k <= zlen l.
Lemma eats_bind {A B} (p : R A) (q : A -> R B) a b : eats p a -> (forall x, eats (q x) b) -> eats (rbind p q) (a + b).
Proof. intros P Q l x r H. unfold rbind in H. destruct (p l) as [[y r1]|e|] eqn:E; try discriminate. apply P in E. apply Q in H. lia. Qed.
Lemma eats_less {A} (p : R A) a b : eats p a -> b <= a -> eats p b.
Proof. intros P L l x r H. apply P in H. lia. Qed.
Lemma eats_ret {A} (x : A) : eats (rret x) 0. Proof. intros l y r H. injection H as _ <-. lia. Qed.
Lemma eats_lift {A} (x : res A) : eats (rlift x) 0. Proof. intros l y r H. unfold rlift in H. destruct x; try discriminate. injection H as _ <-. lia. Qed.
Lemma eats_byte : eats r_byte 1. Proof. intros l y r H. destruct l; [discriminate|]. injection H as _ <-. rewrite zlen_cons. lia. Qed.
Lemma eats_u16 : eats r_u16 2. Proof. intros l y r H. destruct l as [|? [|? l]]; try discriminate. injection H as _ <-. rewrite !zlen_cons. lia. Qed.
Lemma eats_u32 : eats r_u32 4. Proof. intros l y r H. destruct l as [|? [|? [|? [|? l]]]]; try discriminate. injection H as _ <-. rewrite !zlen_cons. lia. Qed.
Lemma eats_bytes n : eats (r_bytes n) n.
Proof. intros l y r H. unfold r_bytes in H. destruct (Z.ltb_spec (zlen l) n); [discriminate|]. destruct (Z.ltb_spec n 0); [discriminate|]. injection H as _ <-. unfold zlen in *. rewrite skipn_length. lia. Qed.
Lemma eats_any n : eats (r_bytes n) 0.
Proof. intros l y r H. pose proof (eats_bytes n l y r H). unfold r_bytes in H. destruct (zlen l <? n); [discriminate|]. destruct (Z.ltb_spec n 0); [discriminate|]. lia. Qed.
Lemma eats_list {A} (p : R A) k n l xs r : eats p k -> r_list n p l = Ok (xs, r) -> zlen xs = Z.of_nat n /\ zlen r + k * Z.of_nat n <= zlen l.
Proof.
  intros P. revert l xs r. induction n as [|n IH]; intros l xs r H; cbn [r_list] in H; [injection H as <- <-; change (zlen (@nil A)) with 0; lia|].
  unfold rbind in H. destruct (p l) as [[x l1]|e|] eqn:E; try discriminate. destruct (r_list n p l1) as [[ys l2]|e|] eqn:F; try discriminate. injection H as <- <-.
  apply P in E. apply IH in F as [F1 F2]. rewrite zlen_cons. nia.
Qed.
Ltac eat := repeat first [ apply eats_ret | apply eats_lift | apply eats_byte | apply eats_u16 | apply eats_u32 | apply eats_bytes | intros; match goal with |- context [let (_, _) := ?x in _] => destruct x end | eapply eats_bind; [|intros] ].
Lemma eats_param : eats r_param 5.
Proof. eapply eats_less; [unfold r_param; eapply eats_bind; [apply eats_u32|intros; eapply eats_bind; [apply eats_byte|intros; eapply eats_bind; [apply eats_any|intros; apply eats_ret]]]|lia]. Qed.
Lemma eats_can : eats r_can 12. Proof. eapply eats_less; [unfold r_can; eat|lia]. Qed.
Lemma eats_time env : eats (r_time env) 6. Proof. unfold r_time. eapply eats_less; [eat|lia]. Qed.
Lemma eats_limits env b : eats (r_limits_if env b) 0.
Proof. destruct b; cbn [r_limits_if]; [|apply eats_ret]. unfold r_limits. eapply eats_less; [repeat first [apply eats_time|eat]|lia]. Qed.
Lemma eats_vertex a : eats (r_vertex a) 8.
Proof. unfold r_vertex. eapply eats_less; [eapply eats_bind; [apply eats_u32|intros]; eapply eats_bind; [apply eats_u32|intros]; eapply eats_bind; [apply eats_lift|intros [? ?]]; apply eats_ret|lia]. Qed.
Lemma eats_circle env : eats (r_circle env) 18.
Proof.
  unfold r_circle. eapply eats_less; [do 4 (eapply eats_bind; [first [apply eats_u32|apply eats_u16]|intros]); eapply eats_bind; [apply eats_lift|intros [? ?]];
    eapply eats_bind; [apply eats_u32|intros]; eapply eats_bind; [apply eats_limits|intros]; apply eats_ret|lia].
Qed.
Lemma eats_rect env : eats (r_rect env) 22.
Proof.
  unfold r_rect. eapply eats_less; [do 6 (eapply eats_bind; [first [apply eats_u32|apply eats_u16]|intros]); do 2 (eapply eats_bind; [apply eats_lift|intros [? ?]]);
    eapply eats_bind; [apply eats_limits|intros]; apply eats_ret|lia].
Qed.
Lemma eats_0200_of env buf : eats (r_0200_of env buf) 0.
Proof. apply eats_lift. Qed.
Lemma eats_0802 env : eats (r_0802_item env) 35.
Proof. unfold r_0802_item. eapply eats_less; [do 5 (eapply eats_bind; [first [apply eats_u32|apply eats_byte|apply eats_bytes]|intros]); eapply eats_bind; [apply eats_0200_of|intros]; apply eats_ret|lia]. Qed.
Lemma eats_0704 env : eats (r_0704_item env) 30.
Proof.
  intros l x r H. unfold r_0704_item, rbind in H. destruct (r_u16 l) as [[n l1]|e|] eqn:E1; try discriminate. destruct (r_bytes n l1) as [[buf l2]|e|] eqn:E2; try discriminate.
  apply eats_u16 in E1. pose proof (eats_bytes _ _ _ _ E2) as E3. pose proof (eats_0200_of _ _ _ _ _ H) as E4.
  assert (28 <= zlen buf). { unfold r_0200_of, rlift, dec_0200 in H. destruct (Z.ltb_spec (zlen buf) 28); [discriminate|lia]. }
  assert (zlen buf = n). { unfold r_bytes in E2. destruct (Z.ltb_spec (zlen l1) n); [discriminate|]. destruct (Z.ltb_spec n 0); [discriminate|]. injection E2 as <- _. unfold zlen in *. rewrite firstn_length. lia. }
  lia.
Qed.

(** ** Bodies that are accepted *)
Lemma counted {A B} (p : R A) k (f : list A -> B) n l b r : eats p k -> 0 <= n -> (rd xs <- r_list (Z.to_nat n) p ; rret (f xs)) l = Ok (b, r) ->
  exists xs, b = f xs /\ zlen xs = n /\ k * n <= zlen l.
Proof.
  intros P N H. unfold rbind in H. destruct (r_list (Z.to_nat n) p l) as [[xs r1]|e|] eqn:E; try discriminate. injection H as <- <-. apply (eats_list p k) in E as [E1 E2]; [|exact P].
  exists xs. split; [reflexivity|]. pose proof (zlen_nonneg r1). rewrite Z2Nat.id in * by lia. lia.
Qed.
Definition fits {A} (least : Z) (size : A -> Z) (res_n : Z) (data : bytes) (r : res (A * Z)) : Prop :=
  forall x n, r = Ok (x, n) -> res_n = size x /\ least * res_n <= zlen data.
Lemma run_fits {A} least (size : A -> Z) res_n data p : (forall x r, p data = Ok (x, r) -> res_n = size x /\ least * res_n <= zlen data) -> fits least size res_n data (run_count p data).
Proof. intros H x n E. unfold run_count in E. destruct (p data) as [[y r]|e|] eqn:F; try discriminate. injection E as -> _. exact (H x r eq_refl). Qed.
Ltac bs := repeat match goal with H : bytes_ok (_ :: _) |- _ => let B := fresh "B" in apply bytes_ok_cons in H as [B H]; unfold is_byte in B end.
Lemma fits_0104 data : bytes_ok data -> fits 5 (fun x => zlen (a0104_params x)) (reaches (zlen data <=? 3) (rd _ <- r_u16 ; r_byte) data) data (dec_0104 data).
Proof.
  intros B. unfold reaches, dec_0104. destruct (zlen data <=? 3); [intros ? ? ?; discriminate|]. apply run_fits. intros x r H.
  destruct data as [|b0 [|b1 [|b2 t]]]; try discriminate. bs. unfold rbind at 1 2 in H. cbn [r_u16 r_byte] in H. unfold rbind; cbn [r_u16 r_byte].
  apply (counted r_param 5 (T0104 (be16 b0 b1)) b2) in H as (xs & -> & L & S0); [|apply eats_param|lia]. cbn [a0104_params]. rewrite !zlen_cons. lia.
Qed.
Lemma fits_0704 env data : bytes_ok data -> fits 30 (fun x => zlen (a0704_items x)) (reaches (zlen data <? 3) (rd n <- r_u16 ; rd _ <- r_byte ; rret n) data) data (dec_0704 env data).
Proof.
  intros B. unfold reaches, dec_0704. destruct (zlen data <? 3); [intros ? ? ?; discriminate|]. apply run_fits. intros x r H.
  destruct data as [|b0 [|b1 [|b2 t]]]; try discriminate. bs. unfold rbind at 1 2 in H. cbn [r_u16 r_byte] in H. unfold rbind; cbn [r_u16 r_byte rret].
  apply (counted (r_0704_item env) 30 (T0704 b2) (be16 b0 b1)) in H as (xs & -> & L & S0); [|apply eats_0704|unfold be16; lia]. cbn [a0704_items]. rewrite !zlen_cons. lia.
Qed.
Lemma fits_0705 data : bytes_ok data -> fits 12 (fun x => zlen (a0705_items x)) (reaches (zlen data <? 7) (rd n <- r_u16 ; rd buf <- r_bytes 5 ; rd _ <- rlift (can_time buf) ; rret n) data) data (dec_0705 data).
Proof.
  intros B. unfold reaches, dec_0705. destruct (zlen data <? 7); [intros ? ? ?; discriminate|]. apply run_fits. intros x r H.
  destruct data as [|b0 [|b1 t]]; try discriminate. bs. unfold rbind at 1 2 3 in H. cbn [r_u16] in H. unfold rbind; cbn [r_u16].
  destruct (r_bytes 5 t) as [[buf t1]|e|] eqn:E; try discriminate. unfold rlift in *. destruct (can_time buf) as [tm|e|]; try discriminate. apply eats_bytes in E.
  apply (counted r_can 12 (T0705 tm) (be16 b0 b1)) in H as (xs & -> & L & S0); [|apply eats_can|unfold be16; lia]. cbn [a0705_items rret]. rewrite !zlen_cons. lia.
Qed.
Lemma fits_0802 env data : bytes_ok data -> fits 35 (fun x => zlen (a0802_items x)) (reaches (zlen data <? 4) (rd _ <- r_u16 ; r_u16) data) data (dec_0802 env data).
Proof.
  intros B. unfold reaches, dec_0802. destruct (zlen data <? 4); [intros ? ? ?; discriminate|]. apply run_fits. intros x r H.
  destruct data as [|b0 [|b1 [|b2 [|b3 t]]]]; try discriminate. bs. unfold rbind at 1 2 in H. cbn [r_u16] in H. unfold rbind; cbn [r_u16].
  apply (counted (r_0802_item env) 35 (T0802 (be16 b0 b1)) (be16 b2 b3)) in H as (xs & -> & L & S0); [|apply eats_0802|unfold be16; lia]. cbn [a0802_items]. rewrite !zlen_cons. lia.
Qed.
Lemma fits_0805 data : bytes_ok data -> fits 4 (fun x => zlen (a0805_ids x)) (reaches (zlen data <? 3) (rd _ <- r_u16 ; rd _ <- r_byte ; r_u16) data) data (dec_0805 data).
Proof.
  intros B. unfold reaches, dec_0805. destruct (zlen data <? 3); [intros ? ? ?; discriminate|]. apply run_fits. intros x r H.
  destruct data as [|b0 [|b1 [|b2 [|b3 [|b4 t]]]]]; try discriminate. bs. unfold rbind at 1 2 3 in H. cbn [r_u16 r_byte] in H. unfold rbind; cbn [r_u16 r_byte].
  apply (counted r_u32 4 (T0805 (be16 b0 b1) b2) (be16 b3 b4)) in H as (xs & -> & L & S0); [|apply eats_u32|unfold be16; lia]. cbn [a0805_ids]. rewrite !zlen_cons. lia.
Qed.
Lemma fits_8103 data : bytes_ok data -> fits 5 (fun x => zlen (a8103_params x)) (reaches (zlen data <=? 3) r_byte data) data (dec_8103 data).
Proof.
  intros B. unfold reaches, dec_8103. destruct (zlen data <=? 3); [intros ? ? ?; discriminate|]. apply run_fits. intros x r H.
  destruct data as [|b0 t]; try discriminate. bs. unfold rbind at 1 in H. cbn [r_byte] in H. cbn [r_byte].
  apply (counted r_param 5 T8103 b0) in H as (xs & -> & L & S0); [|apply eats_param|lia]. cbn [a8103_params]. rewrite !zlen_cons. lia.
Qed.
Lemma fits_ids data : bytes_ok data -> fits 4 (fun x => zlen (ti_ids x)) (reaches (zlen data <? 1) r_byte data) data (dec_ids data).
Proof.
  intros B x n H. unfold dec_ids in H. destruct data as [|b0 t]; [discriminate|]. bs. destruct (r_list (Z.to_nat b0) r_u32 t) as [[ids r]|e|] eqn:E; try discriminate. injection H as <- _.
  apply (eats_list r_u32 4) in E as [E1 E2]; [|apply eats_u32]. unfold reaches. rewrite !zlen_cons. pose proof (zlen_nonneg t). pose proof (zlen_nonneg r). replace (1 + zlen t <? 1) with false by lia.
  cbn [r_byte ti_ids]. lia.
Qed.
Lemma fits_8600 env data : bytes_ok data -> fits 18 (fun x => zlen (a8600_items x)) (reaches (zlen data <? 20) (rd _ <- r_byte ; r_byte) data) data (dec_8600 env data).
Proof.
  intros B. unfold reaches, dec_8600. destruct (zlen data <? 20); [intros ? ? ?; discriminate|]. apply run_fits. intros x r H.
  destruct data as [|b0 [|b1 t]]; try discriminate. bs. unfold rbind at 1 2 in H. cbn [r_byte] in H. unfold rbind; cbn [r_byte].
  apply (counted (r_circle env) 18 (T8600 b0) b1) in H as (xs & -> & L & S0); [|apply eats_circle|lia]. cbn [a8600_items]. rewrite !zlen_cons. lia.
Qed.
Lemma fits_8602 env data : bytes_ok data -> fits 22 (fun x => zlen (a8602_items x)) (reaches (zlen data <? 24) (rd _ <- r_byte ; r_byte) data) data (dec_8602 env data).
Proof.
  intros B. unfold reaches, dec_8602. destruct (zlen data <? 24); [intros ? ? ?; discriminate|]. apply run_fits. intros x r H.
  destruct data as [|b0 [|b1 t]]; try discriminate. bs. unfold rbind at 1 2 in H. cbn [r_byte] in H. unfold rbind; cbn [r_byte].
  apply (counted (r_rect env) 22 (T8602 b0) b1) in H as (xs & -> & L & S0); [|apply eats_rect|lia]. cbn [a8602_items]. rewrite !zlen_cons. lia.
Qed.
Lemma limits_rest env b l x r : r_limits_if env b l = Ok (x, r) -> r = skipn (if b then 15 else 0) l.
Proof.
  destruct b; cbn [r_limits_if]; [|intros H; injection H as _ <-; reflexivity]. unfold r_limits, r_time, rbind, rlift. intros H.
  destruct (r_bytes 6 l) as [[b1 l1]|e|] eqn:E1; try discriminate. destruct (from_bcd_time _ b1); try discriminate.
  destruct (r_bytes 6 l1) as [[b2 l2]|e|] eqn:E2; try discriminate. destruct (from_bcd_time _ b2); try discriminate.
  unfold r_bytes in E1, E2. destruct (zlen l <? 6); [discriminate|]. destruct (zlen l1 <? 6); [discriminate|]. cbn [Z.ltb Z.compare] in E1, E2. injection E1 as _ <-. injection E2 as _ <-.
  destruct (r_u16 _) as [[v l3]|e|] eqn:E3; try discriminate. destruct (r_byte l3) as [[d l4]|e|] eqn:E4; try discriminate. injection H as _ <-.
  change (Z.to_nat 6) with 6%nat in E3. destruct l as [|c0 [|c1 [|c2 [|c3 [|c4 [|c5 [|c6 [|c7 [|c8 [|c9 [|c10 [|c11 [|c12 [|c13 [|c14 t]]]]]]]]]]]]]]]; cbn [skipn r_u16] in E3; try discriminate; injection E3 as _ <-; cbn [r_byte] in E4; try discriminate.
  injection E4 as _ <-. reflexivity.
Qed.
Lemma fits_8604 env data : bytes_ok data ->
  fits 8 (fun x => zlen (a8604_vs x)) (reaches (zlen data <? 16) (rd _ <- r_u32 ; rd attr <- r_u16 ; rd _ <- r_limits_if env (at_timed attr) ; r_u16) data) data (dec_8604 env data).
Proof.
  intros B. unfold reaches, dec_8604. destruct (zlen data <? 16); [intros ? ? ?; discriminate|]. apply run_fits. intros x r H.
  destruct data as [|b0 [|b1 [|b2 [|b3 [|b4 [|b5 t]]]]]]; try discriminate. bs. unfold rbind at 1 2 3 4 in H. cbn [r_u32 r_u16] in H. unfold rbind; cbn [r_u32 r_u16].
  destruct (r_limits_if env (at_timed (be16 b4 b5)) t) as [[lim t1]|e|] eqn:E; try discriminate. pose proof (eats_limits _ _ _ _ _ E) as E'. apply limits_rest in E.
  assert (Bt : bytes_ok t1) by (rewrite E; apply bytes_ok_skipn; assumption). destruct t1 as [|c0 [|c1 t2]]; try discriminate. bs. cbn [r_u16] in *. rewrite !zlen_cons in *.
  apply (counted (r_vertex (be16 b4 b5)) 8 (T8604 (be32 b0 b1 b2 b3) (be16 b4 b5) lim) (be16 c0 c1)) in H as (xs & -> & L & S0); [|apply eats_vertex|unfold be16; lia]. cbn [a8604_vs]. lia.
Qed.

Lemma omap_fits {A} (E : A -> entity) least size res_n data r e n : fits least size res_n data r -> omap E r = Ok (e, n) -> (forall x, list_size (E x) = size x) ->
  res_n = list_size e /\ least * res_n <= zlen data.
Proof. intros F H S0. unfold omap in H. destruct r as [[x k]|er|]; cbn in H; try discriminate. injection H as <- <-. rewrite S0. exact (F x k eq_refl). Qed.
Lemma omap_none {A} (E : A -> entity) (r : res (A * Z)) e n (data : bytes) least : omap E r = Ok (e, n) -> (forall x, list_size (E x) = 0) -> 0 = list_size e /\ least * 0 <= zlen data.
Proof. intros H S0. unfold omap in H. destruct r as [[x k]|er|]; cbn in H; try discriminate. injection H as <- <-. rewrite S0. pose proof (zlen_nonneg data). lia. Qed.
Lemma reserved_accepted env typ data e n : bytes_ok data -> decode env typ data = Ok (e, n) -> reserved env typ data = list_size e /\ element_least typ * reserved env typ data <= zlen data.
Proof.
  intros B. unfold decode.
  repeat match goal with |- (if typ =? ?k then _ else _) = _ -> _ => destruct (Z.eqb_spec typ k) as [->|];
    [first [ intros H; refine (omap_none _ _ _ _ data _ H _); reflexivity
           | intros H; refine (omap_fits _ _ _ _ data _ _ _ _ H _);
             [first [exact (fits_0104 data B)|exact (fits_0704 env data B)|exact (fits_0705 data B)|exact (fits_0802 env data B)|exact (fits_0805 data B)|exact (fits_8103 data B)|exact (fits_ids data B)
                    |exact (fits_8600 env data B)|exact (fits_8602 env data B)|exact (fits_8604 env data B)]|reflexivity]
           | idtac ]|] end.
  - destruct (dec_0801_packet env data) as [x|er|]; cbn [bind]; intros H; try discriminate. injection H as <- _. change (reserved env 2049 data) with 0. pose proof (zlen_nonneg data). cbn [list_size]. lia.
  - discriminate.
Qed.

(** ** Where the number stands *)
Lemma two a b : number [a; b] = be16 a b. Proof. unfold be16. cbn [number]. change (zlen [b]) with 1. change (zlen (@nil Z)) with 0. change (256 ^ 1) with 256. change (256 ^ 0) with 1. lia. Qed.
Lemma one a : number [a] = a. Proof. cbn [number]. change (zlen (@nil Z)) with 0. change (256 ^ 0) with 1. lia. Qed.
Lemma timed_odd a b : at_timed (be16 a b) = Z.odd b.
Proof.
  unfold at_timed, be16. change 1 with (Z.ones 1). rewrite Z.land_ones by lia. change (2 ^ 1) with 2. rewrite Z.add_comm. replace (a * 256) with (a * 128 * 2) by lia. rewrite Z.mod_add by lia.
  rewrite Zmod_odd. destruct (Z.odd b); reflexivity.
Qed.
Definition field (o w : Z) (data : bytes) : Z := number (firstn (Z.to_nat w) (skipn (Z.to_nat o) data)).
Lemma reserved_field env typ data : reserved env typ data <> 0 ->
  exists o w, count_field typ data = Some (o, w) /\ 0 <= o /\ (w = 1 \/ w = 2) /\ o + w <= zlen data /\ reserved env typ data = field o w data.
Proof.
  unfold reserved, reaches, field.
  assert (Z1 : forall a t, 1 <= zlen (a :: t : bytes)) by (intros; rewrite zlen_cons; pose proof (zlen_nonneg t); lia).
  assert (Z2 : forall a b t, 2 <= zlen (a :: b :: t : bytes)) by (intros; rewrite !zlen_cons; pose proof (zlen_nonneg t); lia).
  assert (Z3 : forall a b c t, 3 <= zlen (a :: b :: c :: t : bytes)) by (intros; rewrite !zlen_cons; pose proof (zlen_nonneg t); lia).
  destruct (Z.eqb_spec typ 260) as [->|].
  { destruct (_ <=? _); [lia|]. unfold rbind. destruct data as [|b0 [|b1 [|b2 t]]]; cbn [r_u16 r_byte]; try lia. intros _. exists 2, 1. split; [reflexivity|]. split; [lia|]. split; [lia|]. split; [apply Z3|symmetry; apply one]. }
  destruct (Z.eqb_spec typ 1796) as [->|].
  { destruct (_ <? _); [lia|]. unfold rbind. destruct data as [|b0 [|b1 [|b2 t]]]; cbn [r_u16 r_byte rret]; try lia. intros _. exists 0, 2. split; [reflexivity|]. split; [lia|]. split; [lia|]. split; [apply Z2|symmetry; apply two]. }
  destruct (Z.eqb_spec typ 1797) as [->|].
  { destruct (_ <? _); [lia|]. unfold rbind. destruct data as [|b0 [|b1 t]]; cbn [r_u16]; try lia. destruct (r_bytes 5 t) as [[buf t1]|e|]; try lia. unfold rlift. destruct (can_time buf); try lia. cbn [rret]. intros _. exists 0, 2. split; [reflexivity|]. split; [lia|]. split; [lia|]. split; [apply Z2|symmetry; apply two]. }
  destruct (Z.eqb_spec typ 2050) as [->|].
  { destruct (_ <? _); [lia|]. unfold rbind. destruct data as [|b0 [|b1 [|b2 [|b3 t]]]]; cbn [r_u16]; try lia. intros _. exists 2, 2. split; [reflexivity|]. split; [lia|]. split; [lia|]. split; [rewrite !zlen_cons; pose proof (zlen_nonneg t); lia|symmetry; apply two]. }
  destruct (Z.eqb_spec typ 2053) as [->|].
  { destruct (_ <? _); [lia|]. unfold rbind. destruct data as [|b0 [|b1 [|b2 [|b3 [|b4 t]]]]]; cbn [r_u16 r_byte]; try lia. intros _. exists 3, 2. split; [reflexivity|]. split; [lia|]. split; [lia|]. split; [rewrite !zlen_cons; pose proof (zlen_nonneg t); lia|symmetry; apply two]. }
  destruct (Z.eqb_spec typ 33027) as [->|].
  { destruct (_ <=? _); [lia|]. destruct data as [|b0 t]; cbn [r_byte]; try lia. intros _. exists 0, 1. split; [reflexivity|]. split; [lia|]. split; [lia|]. split; [apply Z1|symmetry; apply one]. }
  destruct (_ || _) eqn:O.
  { assert (F : count_field typ data = Some (0, 1)). { assert (T : typ = 33030 \/ typ = 34305 \/ typ = 34307 \/ typ = 34309) by lia. destruct T as [->|[->|[->| ->]]]; reflexivity. }
    destruct (_ <? _); [lia|]. destruct data as [|b0 t]; cbn [r_byte]; try lia. intros _. exists 0, 1. split; [exact F|]. split; [lia|]. split; [lia|]. split; [apply Z1|symmetry; apply one]. }
  clear O. destruct (Z.eqb_spec typ 34304) as [->|].
  { destruct (_ <? _); [lia|]. unfold rbind. destruct data as [|b0 [|b1 t]]; cbn [r_byte]; try lia. intros _. exists 1, 1. split; [reflexivity|]. split; [lia|]. split; [lia|]. split; [apply Z2|symmetry; apply one]. }
  destruct (Z.eqb_spec typ 34306) as [->|].
  { destruct (_ <? _); [lia|]. unfold rbind. destruct data as [|b0 [|b1 t]]; cbn [r_byte]; try lia. intros _. exists 1, 1. split; [reflexivity|]. split; [lia|]. split; [lia|]. split; [apply Z2|symmetry; apply one]. }
  destruct (Z.eqb_spec typ 34308) as [->|]; [|lia].
  destruct (_ <? _); [lia|]. unfold rbind. destruct data as [|b0 [|b1 [|b2 [|b3 [|b4 [|b5 t]]]]]]; cbn [r_u32 r_u16]; try lia. rewrite timed_odd.
  destruct (r_limits_if env (Z.odd b5) t) as [[lim t1]|e|] eqn:E; try lia. apply limits_rest in E. destruct t1 as [|c0 [|c1 t2]]; cbn [r_u16]; try lia. intros _.
  assert (L : (if Z.odd b5 then 15 else 0) + 2 <= zlen t). { apply (f_equal (@length Z)) in E. rewrite skipn_length in E. unfold zlen. cbn [length] in E. destruct (Z.odd b5); lia. }
  exists (if Z.odd b5 then 21 else 6), 2. split; [reflexivity|]. split; [destruct (Z.odd b5); lia|]. split; [lia|]. split; [rewrite !zlen_cons; destruct (Z.odd b5); lia|]. rewrite <- two.
  f_equal. change (Z.to_nat 2) with 2%nat. destruct (Z.odd b5).
  - change (Z.to_nat 21) with 21%nat. change (skipn 21 (b0 :: b1 :: b2 :: b3 :: b4 :: b5 :: t)) with (skipn 15 t). rewrite <- E. reflexivity.
  - change (Z.to_nat 6) with 6%nat. change (skipn 6 (b0 :: b1 :: b2 :: b3 :: b4 :: b5 :: t)) with (skipn 0 t). rewrite <- E. reflexivity.
Qed.
Lemma number_bound l : bytes_ok l -> 0 <= number l < 256 ^ zlen l.
Proof.
  induction l as [|b l IH]; intros B; [change (zlen (@nil Z)) with 0; cbn; lia|]. apply bytes_ok_cons in B as [B0 B]. specialize (IH B). unfold is_byte in B0. cbn [number]. rewrite zlen_cons.
  rewrite Z.pow_add_r by (try lia; apply zlen_nonneg). change (256 ^ 1) with 256. nia.
Qed.
Lemma reserved_bound env typ data : bytes_ok data -> 0 <= reserved env typ data <= 65535 /\
  (~ In typ [0x0704; 0x0705; 0x0802; 0x0805; 0x8604] -> reserved env typ data <= 255).
Proof.
  intros B. destruct (Z.eq_dec (reserved env typ data) 0) as [->|N]; [lia|]. destruct (reserved_field env typ data N) as (o & w & C & O & W & L & ->). unfold field in *.
  pose proof (number_bound (firstn (Z.to_nat w) (skipn (Z.to_nat o) data)) ltac:(apply bytes_ok_firstn, bytes_ok_skipn, B)) as NB.
  assert (LW : zlen (firstn (Z.to_nat w) (skipn (Z.to_nat o) data)) = w) by (unfold zlen in *; rewrite firstn_length, skipn_length; lia). rewrite LW in NB.
  destruct W as [->| ->]; [change (256 ^ 1) with 256 in NB; lia|]. change (256 ^ 2) with 65536 in NB. split; [lia|]. intros NI. exfalso. apply NI. clear - C. unfold count_field in C.
  destruct (Z.eq_dec typ 0x0704); [cbn; auto|]. destruct (Z.eq_dec typ 0x0705); [cbn; auto|]. destruct (Z.eq_dec typ 0x0802); [cbn; auto|]. destruct (Z.eq_dec typ 0x0805); [cbn; auto|]. destruct (Z.eq_dec typ 0x8604); [cbn; auto 6|].
  exfalso. repeat match goal with H : Some (_, 1) = Some (_, 2) |- _ => discriminate H | H : None = Some _ |- _ => discriminate H | H : (match ?x with _ => _ end) = _ |- _ => destruct x; try congruence end.
Qed.
Lemma batch_of_nothing env : decode env 0x0704 [255; 255; 0] = Err ErrUnexpectedEOF /\ reserved env 0x0704 [255; 255; 0] = 65535.
Proof. split; reflexivity. Qed.
