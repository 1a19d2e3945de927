(** Extra items, forwarding, CAN time, public keys, compressed data, parameters. *)
From Verif Require Import Base LibBase Bits LibBits Bcd LibBcd GoTime LibCalendar LibTime Decimal Env SpecGeo LibDec
  EntTerm EntPlat Registry SpecEntity SpecRange SpecBody LibEntity ProofRound ProofRound2 ProofRound3 LibSafe ProofSafe ProofBody ProofBody2.

(** ** Extra items *)
Lemma value_wire_ok v : extra_val_ok v -> value_wire v = (extra_id v, x_ser (new_extra v)).
Proof.
  destruct v; try reflexivity. cbn [extra_val_ok value_wire new_extra x_ser extra_id].
  intros (Ht & [[-> ->]|(Ht0 & n & -> & Hn)]); [reflexivity|]. replace (typ =? 0) with false by lia. reflexivity.
Qed.
Lemma made_wire v : extra_val_ok v -> enc_extra (Some (new_extra v)) = item_wire (Known v).
Proof.
  intros H. cbn [item_wire]. rewrite value_wire_ok by auto. destruct (extra_item v H) as [_ L].
  assert (E : x_val (new_extra v) = v) by reflexivity. cbn [enc_extra]. rewrite E. rewrite (u8_len _ 7) by lia. reflexivity.
Qed.
Lemma made_wires vs : Forall extra_val_ok vs ->
  enc_extras (map (fun v => Some (new_extra v)) vs) = concat (map item_wire (map Known vs)).
Proof.
  induction 1; [reflexivity|]. unfold enc_extras in *. cbn [map concat]. rewrite IHForall, made_wire by auto. reflexivity.
Qed.
Lemma unknown_err id d : ~ known_id id -> extra_decode id d = Err ErrTypeNotRegistered.
Proof.
  unfold known_id. cbn [In]. intros H. unfold extra_decode.
  repeat match goal with |- (if ?a =? ?b then _ else _) = _ => destruct (Z.eqb_spec a b); [exfalso; apply H; intuition lia|] end. reflexivity.
Qed.
Definition got (vs : list extra_val) : list (option extra) := map (fun v => Some (Extra v [])) vs.
Lemma dec_items l tail : Forall item_ok l -> zlen tail <= 1 -> forall f,
  zlen (concat (map item_wire l) ++ tail) < Z.of_nat f ->
  dec_extras f (concat (map item_wire l) ++ tail) = Ok (got (known_values l)).
Proof.
  intros Hl Ht. induction Hl as [|x l Hx Hl IH]; intros f Hf.
  - cbn [map concat app known_values got] in *. destruct f as [|f]; [pose proof (zlen_nonneg tail); lia|].
    destruct tail as [|a [|b t]]; try reflexivity. rewrite !zlen_cons in Ht. pose proof (zlen_nonneg t). lia.
  - cbn [map concat]. rewrite <- app_assoc. cbn [map concat] in Hf. rewrite <- app_assoc in Hf.
    set (r := concat (map item_wire l) ++ tail) in *.
    assert (A : exists id d, item_wire x = id :: zlen d :: d /\
       match x with Known v => extra_decode id d = Ok (v, zlen d) | Unknown _ _ => extra_decode id d = Err ErrTypeNotRegistered end).
    { destruct x as [v|id d]; cbn [item_ok item_wire] in *.
      - rewrite value_wire_ok by auto. eexists _, _. split; [reflexivity|]. apply extra_item; auto.
      - exists id, d. split; [reflexivity|]. apply unknown_err; tauto. }
    destruct A as (id & d & Ew & A). rewrite Ew in *. destruct f as [|f]; [pose proof (zlen_nonneg ((id :: zlen d :: d) ++ r)); lia|].
    cbn [app dec_extras]. pose proof (zlen_nonneg d). pose proof (zlen_nonneg r).
    replace (zlen (d ++ r) <? zlen d) with false by (symmetry; apply Z.ltb_ge; zl; lia).
    rewrite zlen_to_nat, firstn_exact, skipn_exact.
    assert (I : dec_extras f r = Ok (got (known_values l))) by (apply IH; cbn [app] in Hf; rewrite !zlen_cons, zlen_app in Hf; unfold bytes in *; lia).
    destruct x as [v|id' d']; rewrite A.
    + rewrite Z.eqb_refl. cbn [negb]. rewrite I. reflexivity.
    + rewrite I. reflexivity.
Qed.
(** What is accepted is made of well-formed items. *)
Lemma byte_inv32 a b c d : is_byte a -> is_byte b -> is_byte c -> is_byte d -> w_u32 (be32 a b c d) = [a; b; c; d].
Proof. unfold is_byte, w_u32, be32, u8. intros. repeat f_equal; lia. Qed.
Lemma byte_inv16 a b : is_byte a -> is_byte b -> w_u16 (be16 a b) = [a; b].
Proof. unfold is_byte, w_u16, be16, u8. intros. repeat f_equal; lia. Qed.
Lemma len_nil (l : bytes) k : k + zlen l = k -> l = [].
Proof. intros. destruct l; auto. pose proof (zlen_nonneg l). rewrite zlen_cons in H. lia. Qed.
Ltac bok := unfold bytes_ok in *; repeat match goal with H : Forall _ (_ :: _) |- _ => inversion H; clear H; subst end.
Lemma extra_decode_inv id d v : bytes_ok d -> extra_decode id d = Ok (v, zlen d) -> extra_val_ok v /\ value_wire v = (id, d).
Proof.
  intros Hb H. pose proof (extra_decode_ok id d Hb) as K. rewrite H in K. split; [exact K|].
  unfold extra_decode in H.
  repeat match type of H with (if ?a =? ?b then _ else _) = _ => destruct (Z.eqb_spec a b) as [->|_] end; try discriminate.
  all: unfold dec_x32, dec_x16, dec_x8, dec_x11, dec_x12, dec_x13 in H.
  all: repeat match type of H with match ?l with [] => _ | _ :: _ => _ end = _ => destruct l as [|? ?]; [discriminate H|] end.
  all: try match type of H with (if ?a =? 0 then _ else _) = _ => destruct (Z.eqb_spec a 0) as [->|Hz] end.
  all: repeat match type of H with match ?l with [] => _ | _ :: _ => _ end = _ => destruct l as [|? ?]; [discriminate H|] end.
  all: match type of H with Ok (?x, ?k) = Ok (_, zlen ?l) =>
     assert (Hk : k = zlen l) by congruence; assert (Hv : x = v) by congruence; clear H; subst v; rewrite ?zlen_cons in Hk end.
  all: match type of Hk with context[zlen ?t] => assert (t = []) by (apply zlen_0; lia); subst t end.
  all: bok; cbn [value_wire w_area]; rewrite ?byte_inv32, ?byte_inv16 by auto; reflexivity.
Qed.
Lemma extras_inv f : forall buf xs, bytes_ok buf -> dec_extras f buf = Ok xs ->
  exists l tail, Forall item_ok l /\ zlen tail <= 1 /\ buf = concat (map item_wire l) ++ tail /\ xs = got (known_values l).
Proof.
  induction f as [|f IH]; intros buf xs Hb H; [discriminate|]. cbn [dec_extras] in H.
  destruct buf as [|id [|len rest]].
  - injection H as <-. exists [], []. repeat split; auto. cbn. lia.
  - injection H as <-. exists [], [id]. repeat split; auto. cbn. lia.
  - assert (Hid : is_byte id /\ is_byte len /\ bytes_ok rest) by (inversion Hb as [|? ? ? Hb']; inversion Hb'; subst; auto).
    destruct Hid as (Hid & Hlen & Hrest). unfold is_byte in Hlen.
    destruct (Z.ltb_spec (zlen rest) len); [discriminate|].
    set (d := firstn (Z.to_nat len) rest) in *. set (r := skipn (Z.to_nat len) rest) in *.
    assert (Er : rest = d ++ r) by (symmetry; apply firstn_skipn).
    assert (Ld : zlen d = len) by (unfold d, zlen in *; rewrite firstn_length; lia).
    assert (Hd : bytes_ok d) by (apply bytes_ok_firstn; auto).
    assert (Hr : bytes_ok r) by (rewrite Er in Hrest; apply bytes_ok_app in Hrest; tauto).
    destruct (extra_decode id d) as [[v c]|e|] eqn:E; [| |discriminate].
    + destruct (Z.eqb_spec c len) as [->|]; [|discriminate]. cbn [negb] in H.
      destruct (dec_extras f r) as [ys|?|] eqn:F; try discriminate. cbn [bind] in H. injection H as <-.
      destruct (IH r ys Hr F) as (l & tail & L1 & L2 & L3 & ->).
      rewrite <- Ld in E. destruct (extra_decode_inv id d v Hd E) as (V1 & V2).
      exists (Known v :: l), tail. repeat split; auto.
      * cbn [map concat item_wire]. rewrite V2, Ld. cbn [app]. rewrite <- app_assoc, <- L3, Er. reflexivity.
    + destruct e; try discriminate. destruct (IH r xs Hr H) as (l & tail & L1 & L2 & L3 & ->).
      exists (Unknown id d :: l), tail. repeat split; auto.
      * constructor; auto. cbn [item_ok]. repeat split; auto; try apply Hid; try lia.
        intros K.
        unfold known_id in K. cbn [In] in K. unfold extra_decode in E.
        repeat match type of E with (if ?a =? ?b then _ else _) = _ => destruct (Z.eqb_spec a b) as [->|?] end.
        all: try (unfold dec_x32, dec_x16, dec_x8, dec_x11, dec_x12, dec_x13 in E;
          repeat match type of E with match ?l with [] => _ | _ :: _ => _ end = _ => destruct l as [|? ?]; try discriminate E end;
          try (match type of E with (if ?b then _ else _) = _ => destruct b end; try discriminate E);
          repeat match type of E with match ?l with [] => _ | _ :: _ => _ end = _ => destruct l as [|? ?]; try discriminate E end).
        intuition congruence.
      * cbn [map concat item_wire]. rewrite Ld. cbn [app]. rewrite <- app_assoc, <- L3, Er. reflexivity.
Qed.
Lemma report_items env e l tail : fits_0200 env e -> Forall item_ok l -> zlen tail <= 1 ->
  dec_0200 env (enc_0200 env (bare e) ++ concat (map item_wire l) ++ tail) =
  Ok (with_items (arrives_0200 env (bare e)) (got (known_values l)), 28).
Proof.
  intros He Hl Ht. unfold dec_0200. rewrite zlen_app, len_bare. set (r := concat (map item_wire l) ++ tail).
  pose proof (zlen_nonneg r). replace (_ <? 28) with false by lia.
  rewrite enc_0200_split. cbn [p_extras bare enc_extras map concat]. rewrite app_nil_r.
  assert (Hb : fits_0200 env (bare e)).
  { destruct He as (H1 & H2 & H3 & H4 & H5 & H6 & H7 & H8 & _). unfold fits_0200, bare.
    cbn [p_alarm p_status p_lat p_lng p_alt p_speed p_dir p_time p_extras]. intuition. }
  rewrite fixed_hemi by auto. unfold r. rewrite dec_items; auto; [|unfold zlen; lia]. cbn [bind].
  fold r. do 2 f_equal. rewrite ?zlen_app. lia.
Qed.

(** ** Forwarding a decoded report *)
Lemma trunc6_6 c : trunc6 (Dec c (-6)) = c.
Proof. unfold trunc6. cbn [dcoef dexp]. change (0 <=? -6 + 6) with true. change (10 ^ (-6 + 6)) with 1. cbv iota. lia. Qed.
Lemma hemi_id flag d : hemi_ok flag d -> hemi (flag || neg6 d) d = d /\ coord_ok d /\ (flag || neg6 d) = flag.
Proof.
  destruct d as [c x]. unfold hemi_ok, hemi, neg6, coord_ok. cbn [dexp dcoef]. intros (-> & H). rewrite trunc6_6.
  destruct flag; cbn [orb].
  - repeat split; try lia. f_equal. lia.
  - replace (c <? 0) with false by (symmetry; apply Z.ltb_ge; lia). repeat split; try lia. f_equal. lia.
Qed.
Lemma mark_same s i : Z.testbit s i = true -> 0 <= i -> Z.setbit s i = s.
Proof. intros H Hi. apply Z.bits_inj. intros j. rewrite Z.setbit_eqb by auto. destruct (Z.eqb_spec i j); [subst; auto|auto]. Qed.
Lemma mark_id s i : 0 <= i -> mark s i (Z.testbit s i) = s.
Proof. intros. destruct (Z.testbit s i) eqn:E; cbn [mark]; auto using mark_same. Qed.
Lemma bare_arrives env e : dec_loc env e -> fits_0200 env (bare e) /\ arrives_0200 env (bare e) = bare e.
Proof.
  intros (H1 & H2 & H3 & H4 & H5 & H6 & H7 & H8 & _). destruct (hemi_id _ _ H3) as (A1 & A2 & A3). destruct (hemi_id _ _ H4) as (B1 & B2 & B3).
  destruct H8 as (T1 & T2). split.
  - unfold fits_0200, bare. cbn [p_alarm p_status p_lat p_lng p_alt p_speed p_dir p_time p_extras]. intuition.
  - unfold arrives_0200, bare, loc_south, loc_west. cbn [p_alarm p_status p_lat p_lng p_alt p_speed p_dir p_time p_extras map concat].
    rewrite A1, A3, B1, B3, <- T2, !mark_id by lia. reflexivity.
Qed.
Lemma extra_decode_nil v : extra_decode (extra_id v) [] = Err ErrInvalidExtraLength.
Proof. destruct v; reflexivity. Qed.
Lemma dec_extras_stripped f x xs : dec_extra x -> dec_extras (S f) (enc_extras (x :: xs)) = Err ErrInvalidExtraLength.
Proof.
  destruct x as [[v s]|]; [|contradiction]. intros (Hv & Hs). cbn [x_ser] in Hs. subst s.
  unfold enc_extras. cbn [map concat enc_extra x_val x_ser app dec_extras].
  set (r := concat (map enc_extra xs)). change (u8 (zlen (@nil Z))) with 0. pose proof (zlen_nonneg r).
  replace (zlen r <? 0) with false by lia. cbn [Z.to_nat firstn skipn]. rewrite extra_decode_nil. reflexivity.
Qed.
Lemma forwarded env e : dec_loc env e ->
  dec_0200 env (enc_0200 env e) = if empty (p_extras e) then Ok (e, 28) else Err ErrInvalidExtraLength.
Proof.
  intros H. destruct (bare_arrives env e H) as (F & A).
  assert (R : forall r, r_0200_fixed env (concat (enc_0200_fixed env e) ++ r) = Ok (bare e, r)).
  { intros r. transitivity (Ok (arrives_0200 env (bare e), r)); [exact (fixed_hemi env (bare e) r F)|rewrite A; reflexivity]. }
  unfold dec_0200. pose proof (len_0200 env e) as L. pose proof (zlen_nonneg (enc_extras (p_extras e))).
  replace (_ <? 28) with false by lia. rewrite enc_0200_split, R. rewrite zlen_app, len_0200_fixed.
  destruct (p_extras e) as [|x xs] eqn:E; cbn [empty].
  - cbn [enc_extras map concat]. rewrite dec_extras_nil. cbn [bind]. do 2 f_equal. destruct e. cbn in E. subst. reflexivity.
  - rewrite dec_extras_stripped; [reflexivity|]. destruct H as (_ & _ & _ & _ & _ & _ & _ & _ & Hx). rewrite E in Hx. inversion Hx; auto.
Qed.

(** ** CAN receive time *)
Lemma can_exact e : zlen (a0705_items e) <= 65535 -> Forall wf_can (a0705_items e) ->
  let n := Z.min (a0705_time e) (24 * ns_hour) mod (24 * ns_hour) in
  dec_0705 (enc_0705 e) = if n <? ns_hour then Err ErrOther else Ok (T0705 (n / ns_ms * ns_ms) (a0705_items e), zlen (enc_0705 e)).
Proof.
  intros Hn Hl n. unfold dec_0705, enc_0705. cbn [concat]. chk. rewrite (u16_len _ 65535) by lia. pose proof (u16_len_ok _ 65535 ltac:(lia) Hn).
  rewrite can_clock_chars.
  replace (clamp_0705 (a0705_time e)) with (Z.min (a0705_time e) (24 * ns_hour)).
  2:{ unfold clamp_0705. destruct (Z.ltb_spec (24 * ns_hour) (a0705_time e)); lia. }
  fold n. assert (Hr : 0 <= n < 24 * ns_hour) by (unfold n, ns_hour; lia). clearbody n.
  pose proof (can_time_clock n Hr) as C. unfold run_count.
  do 2 rstep. destruct (n <? ns_hour).
  - unfold rbind at 1, rlift. rewrite C. reflexivity.
  - erewrite rbind_ok by (apply rlift_ok; exact C).
    erewrite rbind_ok.
    2:{ eapply r_list_ids; [|exact Hl|reflexivity]. intros c r (C1 & C2 & C3 & C4). unfold r_can. rewrite <- app_assoc.
        erewrite rbind_ok by (apply r_bytes_app; auto). erewrite rbind_ok by (apply r_bytes_app; auto). destruct c; reflexivity. }
    unfold rret. do 2 f_equal. 
Qed.

(** ** Public keys *)
Lemma n_size_iff n : n_size n = 128 <-> 2 ^ 1016 <= Z.abs n < 2 ^ 1024.
Proof.
  unfold n_size. destruct (Z.eqb_spec n 0) as [->|Hn]; [split; [lia|change (Z.abs 0) with 0; intros [H _]; exfalso; revert H; apply Z.lt_nge; apply Z.pow_pos_nonneg; lia]|].
  rewrite (Z.log2_lt_pow2 (Z.abs n) 1024), (Z.log2_le_pow2 (Z.abs n) 1016) by lia. lia.
Qed.
Lemma key_refused e : (exists d, enc_0a00 e = Ok d) <->
  exists x n, a0a00_key e = Some (x, Some n) /\ 2 ^ 1016 <= Z.abs n < 2 ^ 1024.
Proof.
  unfold enc_0a00. split.
  - intros (d & H). destruct (a0a00_key e) as [[x [n|]]|]; try discriminate. exists x, n. split; auto. apply n_size_iff.
    destruct (Z.eqb_spec (n_size n) 128); [auto|discriminate].
  - intros (x & n & -> & H). apply n_size_iff in H. rewrite H. eexists. reflexivity.
Qed.
Lemma key_error e : (exists d, enc_0a00 e = Ok d) \/ enc_0a00 e = Err ErrKey.
Proof. unfold enc_0a00. destruct (a0a00_key e) as [[x [n|]]|]; auto. destruct (negb _); eauto. Qed.

(** ** Compressed data *)
Lemma gz_loop_stream cs c st rest : st <> GzMore ->
  gz_loop (gz_stream cs c st rest) = Ok (concat cs ++ match st with GzEOF => c | _ => [] end).
Proof.
  intros Hst. unfold gz_stream. induction cs as [|x cs IH]; cbn [map app gz_loop concat].
  - destruct st; [congruence|reflexivity|reflexivity].
  - rewrite IH. cbn [bind]. rewrite app_assoc. reflexivity.
Qed.
Lemma gz_exact env z r cs c st rest : zlen z < 4294967296 -> gz_dec env z = Some (gz_stream cs c st rest) -> st <> GzMore ->
  dec_0901 env (w_u32 (zlen z) ++ z ++ r) = Ok (T0901 (concat cs ++ match st with GzEOF => c | _ => [] end), 4 + zlen z).
Proof.
  intros Hz Hg Hst. unfold dec_0901. pose proof (zlen_nonneg z). pose proof (zlen_nonneg r).
  replace (_ <? 4) with false by (symmetry; apply Z.ltb_ge; sizes; lia). unfold run_count.
  erewrite rbind_ok by (apply r_u32_w; unfold is_u32; lia). erewrite rbind_ok by (apply r_bytes_app; auto).
  erewrite rbind_ok by (apply rlift_ok; rewrite Hg; apply gz_loop_stream; auto). unfold rret. do 2 f_equal. sizes. lia.
Qed.
Lemma gz_bad env z r : zlen z < 4294967296 -> gz_dec env z = None -> dec_0901 env (w_u32 (zlen z) ++ z ++ r) = Err ErrGzip.
Proof.
  intros Hz Hg. unfold dec_0901. pose proof (zlen_nonneg z). pose proof (zlen_nonneg r).
  replace (_ <? 4) with false by (symmetry; apply Z.ltb_ge; sizes; lia). unfold run_count.
  erewrite rbind_ok by (apply r_u32_w; unfold is_u32; lia). erewrite rbind_ok by (apply r_bytes_app; auto).
  unfold rbind at 1, rlift. rewrite Hg. reflexivity.
Qed.
