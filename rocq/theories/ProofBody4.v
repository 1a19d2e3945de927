(** The body results in the form the properties state them, and the witnesses of
    the refuted ones. *)
From Verif Require Import Base LibBase LibBits GoTime Decimal Env EntTerm EntPlat Registry SpecGeo SpecEntity SpecRange SpecBody.
From Verif Require Import LibEntity LibSafe ProofRound ProofRound2 ProofRound3 ProofSafe ProofBody ProofBody2 ProofBody3 Demo.

Lemma safe env typ d : bytes_ok d -> decode env typ d <> Panic /\ (gz_total env -> decode env typ d <> Err ErrFuel).
Proof.
  intros H. pose proof (decode_outcome env typ d H) as G. destruct (decode env typ d) as [[e n]|e|]; cbn [outcome] in G.
  - split; intros; discriminate.
  - split; [discriminate|]. intros Hg K. injection K as ->. destruct G as [(G & _)|(_ & _ & G)]; [discriminate|]. exact (G Hg eq_refl).
  - contradiction.
Qed.
Lemma same_id env typ d e n : bytes_ok d -> decode env typ d = Ok (e, n) -> entity_id e = typ /\ In typ registered.
Proof. intros H E. pose proof (decode_outcome env typ d H) as G. rewrite E in G. cbn [outcome] in G. tauto. Qed.
Lemma not_registered env typ d : bytes_ok d -> (decode env typ d = Err ErrTypeNotRegistered <-> ~ In typ registered).
Proof.
  intros H. pose proof (decode_outcome env typ d H) as G. destruct (decode env typ d) as [[e n]|e|]; cbn [outcome] in G.
  - split; [discriminate|tauto].
  - destruct G as [(-> & G)|(G & N & _)]; [tauto|]. split; [congruence|tauto].
  - contradiction.
Qed.
Lemma in_range env typ d e n : bytes_ok d -> decode env typ d = Ok (e, n) -> decoded_ok env e /\ 0 <= n <= zlen d.
Proof. intros H E. pose proof (decode_outcome env typ d H) as G. rewrite E in G. cbn [outcome] in G. tauto. Qed.
Lemma count_covers env typ d e n : bytes_ok d -> counts_right typ = true -> decode env typ d = Ok (e, n) ->
  0 <= n <= zlen d /\ forall d2, zlen d2 = zlen d -> firstn (Z.to_nat n) d2 = firstn (Z.to_nat n) d -> decode env typ d2 = Ok (e, n).
Proof. intros H C E. pose proof (decode_outcome env typ d H) as G. rewrite E in G. cbn [outcome] in G. split; [tauto|]. apply G; auto. Qed.

Lemma precision d : let j := Z.max 0 (dexp d + 6) in let k := Z.max 0 (- (dexp d + 6)) in
  Z.abs (dcoef d * 10 ^ j - trunc6 d * 10 ^ k) < 10 ^ k /\
  Z.abs (trunc6 d) * 10 ^ k <= Z.abs (dcoef d) * 10 ^ j /\ 0 <= dcoef d * trunc6 d.
Proof.
  intros j k. unfold trunc6. destruct (Z.leb_spec 0 (dexp d + 6)).
  - replace k with 0 by lia. replace j with (dexp d + 6) by lia. assert (0 < 10 ^ (dexp d + 6)) by (apply Z.pow_pos_nonneg; lia).
    set (w := 10 ^ (dexp d + 6)) in *. rewrite Z.pow_0_r, !Z.mul_1_r, Z.sub_diag. split; [lia|]. split; [rewrite Z.abs_mul; nia|]. nia.
  - replace j with 0 by lia. replace k with (- (dexp d + 6)) by lia. assert (Hw : 0 < 10 ^ (- (dexp d + 6))) by (apply Z.pow_pos_nonneg; lia).
    set (w := 10 ^ (- (dexp d + 6))) in *. clearbody w. rewrite Z.pow_0_r, !Z.mul_1_r.
    set (c := dcoef d). clearbody c. pose proof (Z.quot_rem' c w) as Q.
    pose proof (Z.rem_bound_abs c w ltac:(lia)) as R. 
    destruct (Z.le_ge_cases 0 c).
    + pose proof (Z.quot_pos c w ltac:(lia) ltac:(lia)). pose proof (Z.rem_nonneg c w ltac:(lia) ltac:(lia)).
      set (q := Z.quot c w) in *. set (r := Z.rem c w) in *. clearbody q r. split; [|split]; nia.
    + assert (0 <= Z.quot (- c) w) by (apply Z.quot_pos; lia). rewrite Z.quot_opp_l in * by lia.
      assert (Z.rem c w <= 0) by (apply Z.rem_nonpos; lia).
      set (q := Z.quot c w) in *. set (r := Z.rem c w) in *. clearbody q r. split; [|split]; nia.
Qed.

Lemma coordinates' env e : fits_0200 env e -> Z.testbit (p_status e) 2 = false -> Z.testbit (p_status e) 3 = false ->
  exists d e', encode env (E0200 e) = Ok d /\ decode env 512 d = Ok (E0200 e', 28) /\ p_lat e' = coord6 (p_lat e) /\ p_lng e' = coord6 (p_lng e).
Proof.
  intros H H2 H3. destruct (coordinates env e H H2 H3) as (e' & D & L). exists (enc_0200 env e), e'. split; [reflexivity|].
  split; [|exact L]. change (omap E0200 (dec_0200 env (enc_0200 env e)) = Ok (E0200 e', 28)). rewrite D. reflexivity.
Qed.
Lemma reuse' env e cs : fits_0200 env e -> Forall (fun c => coord_ok (fst c) /\ coord_ok (snd c)) cs ->
  exists d e', encode env (E0200 (reused e cs)) = Ok d /\ decode env 512 d = Ok (E0200 e', 28) /\
  (p_lat e' = coord6 (fst (last cs (p_lat e, p_lng e))) <-> sign_ok (any_south e cs) (fst (last cs (p_lat e, p_lng e)))) /\
  (p_lng e' = coord6 (snd (last cs (p_lat e, p_lng e))) <-> sign_ok (any_west e cs) (snd (last cs (p_lat e, p_lng e)))) /\
  p_lat e' = hemi (any_south e cs) (fst (last cs (p_lat e, p_lng e))) /\
  p_lng e' = hemi (any_west e cs) (snd (last cs (p_lat e, p_lng e))).
Proof.
  intros H Hc. destruct (reuse_exact env e cs H Hc) as (e' & D & L1 & L2). exists (enc_0200 env (reused e cs)), e'. split; [reflexivity|].
  split; [change (omap E0200 (dec_0200 env (enc_0200 env (reused e cs))) = Ok (E0200 e', 28)); rewrite D; reflexivity|].
  rewrite L1, L2. split; [apply hemi_sign_iff|]. split; [apply hemi_sign_iff|]. auto.
Qed.
Definition demo_loc : t0200 := T0200 0 3 (Dec (-31234567) (-6)) (Dec 121987654 (-6)) 10 20 30 (GoTime 1709181296 0 0) [].
Lemma demo_fits : fits_0200 demo_env demo_loc.
Proof.
  split; [vm_compute; split; congruence|]. split; [vm_compute; split; congruence|]. split; [reflexivity|]. split; [reflexivity|].
  split; [vm_compute; split; congruence|]. split; [vm_compute; split; congruence|]. split; [vm_compute; split; congruence|].
  split; [vm_compute; split; congruence|]. constructor.
Qed.
Lemma reuse_false : exists env e c d e', fits_0200 env e /\ coord_ok (fst c) /\ coord_ok (snd c) /\
  encode env (encoded (E0200 e)) = encode env (E0200 e) /\
  encode env (E0200 (set_coords (upd_0200 e) c)) = Ok d /\ decode env 512 d = Ok (E0200 e', 28) /\ p_lat e' <> coord6 (fst c).
Proof.
  exists demo_env, demo_loc, (Dec 45000000 (-6), Dec 9000000 (-6)). eexists. eexists. split; [apply demo_fits|].
  split; [vm_compute; reflexivity|]. split; [vm_compute; reflexivity|]. split; [reflexivity|]. split; [vm_compute; reflexivity|].
  split; [vm_compute; reflexivity|]. vm_compute. discriminate.
Qed.

Lemma rects env e : is_byte (a8602_action e) -> 1 <= zlen (a8602_items e) <= 255 -> Forall (fits_rect env) (a8602_items e) ->
  exists d, encode env (E8602 e) = Ok d /\
  decode env 34306 d = Ok (E8602 (T8602 (a8602_action e) (map (arrives_rect env) (a8602_items e))), zlen d).
Proof.
  intros H1 H2 H3. exists (enc_8602 env e). split; [reflexivity|].
  change (omap E8602 (dec_8602 env (enc_8602 env e)) = Ok (E8602 (T8602 (a8602_action e) (map (arrives_rect env) (a8602_items e))), zlen (enc_8602 env e))).
  rewrite rt_8602_hemi by auto. reflexivity.
Qed.
Lemma polygon env e : fits_8604 env e ->
  exists d, encode env (E8604 e) = Ok d /\ decode env 34308 d = Ok (E8604 (arrives_8604 env e), zlen d).
Proof.
  intros H. exists (enc_8604 env e). split; [reflexivity|].
  change (omap E8604 (dec_8604 env (enc_8604 env e)) = Ok (E8604 (arrives_8604 env e), zlen (enc_8604 env e))).
  rewrite rt_8604_hemi by auto. reflexivity.
Qed.
Lemma map_same {A B} (f g : A -> B) l : map f l = map g l <-> Forall (fun x => f x = g x) l.
Proof.
  induction l as [|x l IH]; cbn; [split; auto|]. split.
  - intros H. injection H as H1 H2. constructor; auto. apply IH; auto.
  - intros H. inversion H; subst. f_equal; auto. apply IH; auto.
Qed.
Lemma forall_same {A} (P Q : A -> Prop) l : (forall x, P x <-> Q x) -> (Forall P l <-> Forall Q l).
Proof. intros H. rewrite !Forall_forall. split; intros K x Hx; apply H; auto. Qed.
(** All vertices keep their sign exactly when no coordinate disagrees with the area's flag. *)
Lemma polygon_signs env e :
  map (fun v => (vx_lat v, vx_lng v)) (a8604_vs (arrives_8604 env e)) =
  map (fun v => (coord6 (vx_lat v), coord6 (vx_lng v))) (a8604_vs e) <->
  Forall (fun v => sign_ok (vs_south e) (vx_lat v) /\ sign_ok (vs_west e) (vx_lng v)) (a8604_vs e).
Proof.
  unfold arrives_8604. cbn [a8604_vs]. rewrite map_map. cbn [vx_lat vx_lng]. rewrite map_same. apply forall_same.
  intros v. rewrite <- !hemi_sign_iff. split; [intros H; split; [exact (f_equal fst H)|exact (f_equal snd H)]|intros (-> & ->); reflexivity].
Qed.
Definition demo_poly : t8604 := T8604 5 0 limits_zero [Vertex (Dec 1000000 (-6)) (Dec 2000000 (-6)); Vertex (Dec (-1000000) (-6)) (Dec 2000000 (-6))].
Lemma demo_poly_fits : fits_8604 demo_env demo_poly.
Proof.
  unfold fits_8604, demo_poly, is_u32, is_u16, coord_ok, wf_limits_if. cbn [a8604_id a8604_attr a8604_lim a8604_vs].
  split; [lia|]. split; [lia|]. split; [discriminate|]. split; [split; vm_compute; congruence|].
  repeat (constructor; [split; reflexivity|]). constructor.
Qed.
Lemma vertex_false : exists env e d e', fits_8604 env e /\ encode env (E8604 e) = Ok d /\
  decode env 34308 d = Ok (E8604 e', zlen d) /\
  map (fun v => (vx_lat v, vx_lng v)) (a8604_vs e') <> map (fun v => (coord6 (vx_lat v), coord6 (vx_lng v))) (a8604_vs e).
Proof.
  exists demo_env, demo_poly, (enc_8604 demo_env demo_poly), (arrives_8604 demo_env demo_poly). split; [apply demo_poly_fits|]. split; [reflexivity|].
  split; [vm_compute; reflexivity|]. vm_compute. discriminate.
Qed.

Lemma extras_sent env e vs : fits_0200 env e -> Forall extra_val_ok vs ->
  exists d e', encode env (E0200 (with_items e (map (fun v => Some (new_extra v)) vs))) = Ok d /\
  decode env 512 d = Ok (E0200 e', 28) /\ map (option_map x_val) (p_extras e') = map Some vs.
Proof.
  intros He Hv. set (e2 := with_items e (map (fun v => Some (new_extra v)) vs)).
  assert (F : fits_0200 env e2).
  { destruct He as (H1 & H2 & H3 & H4 & H5 & H6 & H7 & H8 & H9).
    repeat (split; [assumption|]). cbn [p_extras e2 with_items]. apply Forall_forall. intros x Hx. apply in_map_iff in Hx.
    destruct Hx as (v & <- & Hx). rewrite Forall_forall in Hv. split; cbn [x_val new_extra]; auto; destruct v; reflexivity || (cbn; auto; fail) || apply Hv; auto. }
  exists (enc_0200 env e2), (arrives_0200 env e2). split; [reflexivity|]. split.
  { change (omap E0200 (dec_0200 env (enc_0200 env e2)) = Ok (E0200 (arrives_0200 env e2), 28)). rewrite rt_0200_hemi by auto. reflexivity. }
  unfold arrives_0200. cbn [p_extras e2 with_items]. clear. induction vs as [|v vs IH]; [reflexivity|]. cbn [map concat app sent_extra].
  rewrite IH. cbn [option_map x_val]. destruct v; reflexivity.
Qed.
Lemma extras_mixed env e l tail : fits_0200 env e -> Forall item_ok l -> zlen tail <= 1 ->
  exists d0, encode env (E0200 (bare e)) = Ok d0 /\
  exists e', decode env 512 (d0 ++ concat (map item_wire l) ++ tail) = Ok (E0200 e', 28) /\
  map (option_map x_val) (p_extras e') = map Some (known_values l).
Proof.
  intros H1 H2 H3. exists (enc_0200 env (bare e)). split; [reflexivity|]. exists (with_items (arrives_0200 env (bare e)) (got (known_values l))). split.
  - change (omap E0200 (dec_0200 env (enc_0200 env (bare e) ++ concat (map item_wire l) ++ tail)) =
      Ok (E0200 (with_items (arrives_0200 env (bare e)) (got (known_values l))), 28)). rewrite report_items by auto. reflexivity.
  - cbn [p_extras with_items]. unfold got. rewrite map_map. reflexivity.
Qed.
Lemma forward env d e n : bytes_ok d -> decode env 512 d = Ok (E0200 e, n) ->
  exists d2, encode env (E0200 e) = Ok d2 /\
  decode env 512 d2 = if empty (p_extras e) then Ok (E0200 e, 28) else Err ErrInvalidExtraLength.
Proof.
  intros Hd H. destruct (in_range _ _ _ _ _ Hd H) as (R & _). cbn [decoded_ok] in R. exists (enc_0200 env e). split; [reflexivity|].
  change (omap E0200 (dec_0200 env (enc_0200 env e)) = if empty (p_extras e) then Ok (E0200 e, 28) else Err ErrInvalidExtraLength).
  rewrite forwarded by auto. destruct (empty (p_extras e)); reflexivity.
Qed.
Lemma forward_false : exists env d e n d2, bytes_ok d /\ decode env 512 d = Ok (E0200 e, n) /\
  encode env (E0200 e) = Ok d2 /\ forall x, decode env 512 d2 <> Ok x.
Proof.
  exists demo_env, (enc_0200 demo_env demo_loc ++ [1; 4; 0; 0; 1; 0]). eexists. eexists. eexists.
  split; [vm_compute; repeat constructor; congruence|]. split; [vm_compute; reflexivity|]. split; [reflexivity|]. intros x. vm_compute. discriminate.
Qed.
Lemma can' env e : zlen (a0705_items e) <= 65535 -> Forall wf_can (a0705_items e) ->
  let n := Z.min (a0705_time e) (24 * ns_hour) mod (24 * ns_hour) in
  exists d, encode env (E0705 e) = Ok d /\
  decode env 1797 d = if n <? ns_hour then Err ErrOther else Ok (E0705 (T0705 (n / ns_ms * ns_ms) (a0705_items e)), zlen d).
Proof.
  intros H1 H2 n. exists (enc_0705 e). split; [reflexivity|].
  change (omap E0705 (dec_0705 (enc_0705 e)) = if n <? ns_hour then Err ErrOther else Ok (E0705 (T0705 (n / ns_ms * ns_ms) (a0705_items e)), zlen (enc_0705 e))).
  rewrite can_exact by auto. fold n. destruct (n <? ns_hour); reflexivity.
Qed.
Lemma can_ok env e : zlen (a0705_items e) <= 65535 -> Forall wf_can (a0705_items e) ->
  ns_hour <= a0705_time e < 24 * ns_hour -> a0705_time e mod ns_ms = 0 ->
  exists d, encode env (E0705 e) = Ok d /\ decode env 1797 d = Ok (E0705 e, zlen d).
Proof.
  intros H1 H2 H3 H4. destruct (can' env e H1 H2) as (d & E & D). exists d. split; auto. rewrite D.
  rewrite Z.min_l by lia. assert (ns_hour = 3600000000000) by reflexivity. assert (ns_ms = 1000000) by reflexivity.
  rewrite Z.mod_small by lia. replace (_ <? _) with false by lia. replace (a0705_time e / ns_ms * ns_ms) with (a0705_time e) by lia.
  destruct e; reflexivity.
Qed.
Lemma can_false : exists env e d, 0 <= a0705_time e <= 24 * ns_hour /\ a0705_time e mod ns_ms = 0 /\ a0705_items e = [] /\
  encode env (E0705 e) = Ok d /\ forall x, decode env 1797 d <> Ok x.
Proof.
  exists demo_env, (T0705 (30 * 60 * 1000000000) []). eexists. split; [vm_compute; intuition congruence|]. split; [reflexivity|]. split; [reflexivity|].
  split; [vm_compute; reflexivity|]. intros x. vm_compute. discriminate.
Qed.
(** 256 packet ids in a message whose count is one byte: an empty list arrives *)
Lemma overlong_false : exists env e d n, encode env e = Ok d /\ counted_list (entity_id e) = true /\
  exists e', decode env (entity_id e) d = Ok (e', n) /\ e' <> e.
Proof.
  exists demo_env, (E8003 (T8003 9 (repeat 1 256))). eexists. eexists. split; [vm_compute; reflexivity|]. split; [reflexivity|].
  eexists. split; [vm_compute; reflexivity|]. discriminate.
Qed.
(** A 257-byte text in a one-byte length: decoded with a one-byte text. *)
Lemma overlong_text_false : exists env e d e' n, encode env e = Ok d /\ decode env (entity_id e) d = Ok (e', n) /\ e' <> e /\
  e = E8301 (T8301 1 [Labelled 1 (repeat 65 257)]).
Proof.
  exists demo_env. eexists. eexists. eexists. eexists. split; [|split; [|split; [|reflexivity]]]; [vm_compute; reflexivity|vm_compute; reflexivity|discriminate].
Qed.
Lemma repeat_false : exists env e d, encode env e = Ok d /\ wf env e /\ encode env (encoded e) <> Ok d.
Proof.
  exists demo_env, (E0801 (T0801 (T0800 1 0 0 0 1) demo_loc (Some (Rdr [1; 2; 3] false)))). eexists. split; [vm_compute; reflexivity|].
  split; [|vm_compute; discriminate].
  cbn [wf]. split; [vm_compute; intuition congruence|]. split; [|split; [repeat constructor; cbv; congruence|reflexivity]].
  destruct demo_fits as (H1 & H2 & H3 & H4 & H5 & H6 & H7 & H8 & H9). unfold wf_0200.
  split; [exact H1|]. split; [exact H2|]. split; [exact H3|]. split; [exact H4|]. split; [vm_compute; congruence|]. split; [vm_compute; congruence|].
  split; [exact H5|]. split; [exact H6|]. split; [exact H7|]. split; [exact H8|]. constructor.
Qed.
Lemma repeat_others env e d : (forall x, e <> E0801 x) -> encode env e = Ok d -> encode env (encoded e) = Ok d.
Proof. intros H E. rewrite (repeatable env e d E). destruct e; auto. exfalso. eapply H. reflexivity. Qed.

(** gzip *)
Definition damaged_env : Env := {|
  gb_enc := gb_enc demo_env; gb_dec := gb_dec demo_env; tz_off := tz_off demo_env; f2u32 := f2u32 demo_env; gz_enc := gz_enc demo_env;
  gz_dec := fun _ => Some [([1; 2], GzMore); ([3], GzErr)];
  key_size := key_size demo_env; oaep_enc := oaep_enc demo_env; oaep_dec := oaep_dec demo_env |}.
Lemma gz_false : exists env z cs c, gz_dec env z = Some (gz_stream cs c GzErr []) /\
  exists x n, decode env 2305 (w_u32 (zlen z) ++ z) = Ok (x, n).
Proof.
  exists damaged_env, [9; 9], [[1; 2]], [3]. split; [reflexivity|]. eexists. eexists. vm_compute. reflexivity.
Qed.
Lemma gz_exact' env z r cs c st rest : zlen z < 4294967296 -> gz_dec env z = Some (gz_stream cs c st rest) -> st <> GzMore ->
  decode env 2305 (w_u32 (zlen z) ++ z ++ r) = Ok (E0901 (T0901 (concat cs ++ match st with GzEOF => c | _ => [] end)), 4 + zlen z).
Proof.
  intros H1 H2 H3. change (omap E0901 (dec_0901 env (w_u32 (zlen z) ++ z ++ r)) = Ok (E0901 (T0901 (concat cs ++ match st with GzEOF => c | _ => [] end)), 4 + zlen z)).
  rewrite (gz_exact env z r cs c st rest) by auto. reflexivity.
Qed.
Lemma gz_bad' env z r : zlen z < 4294967296 -> gz_dec env z = None -> decode env 2305 (w_u32 (zlen z) ++ z ++ r) = Err ErrGzip.
Proof.
  intros H1 H2. change (omap E0901 (dec_0901 env (w_u32 (zlen z) ++ z ++ r)) = Err ErrGzip). rewrite gz_bad by auto. reflexivity.
Qed.
Lemma keys env x n : 0 <= x < 2 ^ 32 -> 2 ^ 1016 <= n < 2 ^ 1024 ->
  (exists d, encode env (E0A00 (T0A00 (Some (x, Some n)))) = Ok d /\ decode env 2560 d = Ok (E0A00 (T0A00 (Some (x, Some n))), zlen d)) /\
  (exists d, encode env (E8A00 (T0A00 (Some (x, Some n)))) = Ok d /\ decode env 35328 d = Ok (E8A00 (T0A00 (Some (x, Some n))), zlen d)).
Proof.
  intros Hx Hn. assert (W : wf_key (T0A00 (Some (x, Some n)))) by (split; [exact Hx|exact Hn]). split.
  - exact (round_trip env (E0A00 (T0A00 (Some (x, Some n)))) W eq_refl).
  - exact (round_trip env (E8A00 (T0A00 (Some (x, Some n)))) W eq_refl).
Qed.
Lemma key_error' env e : (exists d, encode env (E0A00 e) = Ok d) \/ encode env (E0A00 e) = Err ErrKey.
Proof. exact (key_error e). Qed.
Lemma key_refused' env e : (exists d, encode env (E0A00 e) = Ok d) <->
  exists x n, a0a00_key e = Some (x, Some n) /\ 2 ^ 1016 <= Z.abs n < 2 ^ 1024.
Proof. exact (key_refused e). Qed.

(** counts *)
Lemma count_false : exists env d d2 e e2 n, bytes_ok d /\ bytes_ok d2 /\ zlen d = zlen d2 /\
  decode env 771 d = Ok (e, n) /\ firstn (Z.to_nat n) d = firstn (Z.to_nat n) d2 /\ decode env 771 d2 = Ok (e2, n) /\ e <> e2.
Proof.
  exists demo_env, [1; 2], [1; 3]. eexists. eexists. eexists. split; [repeat constructor; cbv; congruence|]. split; [repeat constructor; cbv; congruence|].
  split; [reflexivity|]. split; [vm_compute; reflexivity|]. split; [reflexivity|]. split; [vm_compute; reflexivity|]. discriminate.
Qed.
Lemma counted_false env : exists e d n, wf env e /\ encode env e = Ok d /\ decode env (entity_id e) d = Ok (e, n) /\ n <> zlen d.
Proof.
  exists (E0303 (T0303 1 2)). eexists. eexists. split; [cbn; unfold is_byte; lia|]. split; [reflexivity|]. split; [reflexivity|]. discriminate.
Qed.
Lemma boundary_false env : exists e d, wf env e /\ encode env e = Ok d /\ decode env (entity_id e) d = Err PErrInvalidBody.
Proof.
  exists (E8103 (T8103 [])). eexists. split; [split; [constructor|cbv; congruence]|]. split; reflexivity.
Qed.
Lemma body_exact env e : wf env e -> exists d, encode env e = Ok d /\
  decode env (entity_id e) d = if boundary e then Err PErrInvalidBody else Ok (sent env e, counted e d).
Proof.
  intros H. destruct (boundary e) eqn:B; [apply boundary_fails; auto|]. exact (round_trip env e H B).
Qed.
