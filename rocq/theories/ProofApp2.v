(** The example terminal: its messages arrive, and the platform's side of the dialogue. *)
From Coq Require Import Permutation.
From Verif Require Import Base LibBase Bits LibBits Decimal GoTime Env EntTerm EntPlat Registry Message Timer Session Multipart Server.
From Verif Require Import SpecGeo SpecEntity SpecRange SpecFrame SpecMsg SpecSession SpecMulti SpecTimer SpecServer.
From Verif Require Import LibDec ProofRound2 ProofRound3 ProofMsg ProofServer ProofServer3 ProofServer4 ProofServer5 ProofServer6 SpecHost ProofHost.
From Verif Require Import App SpecApp ProofApp.

(** ** What the terminal sends *)
Lemma tells_plain env m e raw c : m_body m = BEnt e -> encode env e = Ok raw -> wf env e -> boundary e = false ->
  hdr_fits (m_hdr m) -> Z.testbit (h_prop (m_hdr m)) 10 = false -> zlen raw <= 1023 ->
  c = (entity_id e, h_serial (m_hdr m), h_packet (m_hdr m), sent env e) -> h_icc (m_hdr m) = my_icc -> tells env m c.
Proof.
  intros B E W BD F F10 L -> I. exists (Message (hdr_arrives (m_hdr m) (entity_id e) (zlen raw)) (BEnt (sent env e))). split.
  - intros rnd. destruct (message_round_trip env rnd m e raw B E W BD F F10 L) as (data & m' & ME & MD). exists data, m'. auto.
  - cbn. repeat split. exact I.
Qed.
Lemma my_fits n packet : is_u16 n -> match packet with Some (a, b) => is_u16 a /\ is_u16 b | None => True end -> hdr_fits (my_header n packet).
Proof. intros N P. unfold hdr_fits, my_header. cbn [h_prop h_icc h_serial h_packet]. split; [vm_compute; intuition congruence|]. split; [vm_compute; intuition congruence|]. split; auto. destruct packet as [[]|]; auto. Qed.
Lemma my_position_wf env now : time_ok env (GoTime now 0 (tz_off env)) -> wf_0200 env (my_position env now).
Proof. intros T. unfold wf_0200, my_position. cbn [p_alarm p_status p_lat p_lng p_alt p_speed p_dir p_time p_extras]. do 9 (split; [vm_compute; intuition congruence|]). split; auto. Qed.
Lemma my_position_sent env now : sent_0200 env (my_position env now) = seen_position env now.
Proof. reflexivity. Qed.
Lemma w_str_in env s n : text_in env s n -> exists d, w_str_opt env s = Ok d /\ zlen d <= Z.max 0 n.
Proof.
  intros ((d & E & _) & L). unfold w_str_opt, w_str. rewrite E in *. cbn [fst] in L. destruct (0 <? zlen s); [exists d|exists []]; split; auto; cbn; lia.
Qed.
Definition auth_text : bytes := [49; 50; 51; 52; 53; 54; 55; 56].
Lemma auth_tells env : texts_ok env -> tells env (Message (my_header 1 None) (BEnt (E0102 (T0102 auth_text)))) (0x0102, 1, None, E0102 (T0102 auth_text)).
Proof.
  intros (T & _). destruct (w_str_in _ _ _ T) as (d & E & L). eapply (tells_plain env _ (E0102 (T0102 auth_text)) d); try reflexivity.
  - exact E.
  - cbn. right. apply T.
  - apply my_fits; [unfold is_u16; lia|exact Logic.I].
  - lia.
Qed.
Lemma position_tells env now : now_ok env now -> tells env (Message (my_header 2 None) (BEnt (E0200 (my_position env now)))) (0x0200, 2, None, E0200 (seen_position env now)).
Proof.
  intros T. eapply (tells_plain env _ (E0200 (my_position env now)) (enc_0200 env (my_position env now))); try reflexivity.
  - apply my_position_wf. exact T.
  - apply my_fits; [unfold is_u16; lia|exact Logic.I].
  - rewrite len_0200. cbn. lia.
Qed.
Lemma key_tells env key : wf_key key -> tells env (Message (my_header 3 None) (BEnt (E0A00 key))) (0x0A00, 3, None, E0A00 key).
Proof.
  intros K. assert (W : wf env (E0A00 key)) by exact K. destruct (round_trip env (E0A00 key) W eq_refl) as (d & E & _). eapply (tells_plain env _ (E0A00 key) d); try reflexivity; auto.
  - apply my_fits; [unfold is_u16; lia|exact Logic.I].
  - cbn [encode] in E. unfold enc_0a00 in E. destruct (a0a00_key key) as [[x [n|]]|]; try discriminate. destruct (negb _); [discriminate|]. injection E as <-. rewrite !zlen_cons, app_nil_r, zlen_w_fixed. lia.
Qed.
Lemma packet_tells env now sum sq data : now_ok env now -> is_u16 sum -> is_u16 sq -> bytes_ok data -> zlen data <= 900 ->
  tells env (my_packet env now sum sq data) (0x0801, 3, Some (sum, sq), E0801 (T0801 (T0800 1024 1 0 13 28) (seen_position env now) (Some (Rdr data false)))).
Proof.
  intros T S Q B L. unfold my_packet. set (e := E0801 _). assert (W : wf env e).
  { split; [vm_compute; intuition congruence|]. split; [|split; auto]. apply (my_position_wf env now T). }
  eapply (tells_plain env _ e (concat [enc_0800 (T0800 1024 1 0 13 28); enc_0200 env (my_position env now)] ++ data)); try reflexivity; auto.
  - apply my_fits; [unfold is_u16; lia|auto].
  - cbn [concat]. rewrite !zlen_app, len_0200. change (zlen (enc_0800 _)) with 8. change (zlen (enc_extras _)) with 0. change (zlen (@nil Z)) with 0. lia.
Qed.
Lemma answer_tells env m : texts_ok env -> h_id (m_hdr m) = 0x8104 -> is_u16 (h_serial (m_hdr m)) -> exists x, my_answer env m = Some x /\ tells env x (answer_content env (h_serial (m_hdr m))).
Proof.
  intros (_ & B & L) I S. unfold my_answer. rewrite I. change (33028 =? 33028) with true. cbv iota. eexists. split; [reflexivity|].
  set (e := E0104 _). assert (W : wf env e).
  { split; auto. split; [|vm_compute; congruence]. repeat (constructor; [split; [vm_compute; intuition congruence|]; split; [repeat constructor; vm_compute; intuition congruence|vm_compute; congruence]|]). constructor; [|constructor].
    split; [vm_compute; intuition congruence|]. split; auto. }
  destruct (round_trip env e W eq_refl) as (d & E & _). eapply (tells_plain env _ e d); try reflexivity; auto.
  - apply my_fits; [unfold is_u16; lia|exact Logic.I].
  - cbn in E. injection E as <-. repeat rewrite ?zlen_cons, ?zlen_app. change (zlen (@nil Z)) with 0. lia.
Qed.
(** ** The upload *)
Lemma my_packets_ok env now media : forall n fuel i, zlen media = 512 * i + 512 * Z.of_nat n -> 0 <= i -> 1 <= zlen media / 512 <= 65535 -> (n < fuel)%nat ->
  my_packets fuel env now media (512 * i) 512 = Ok (map (fun j => my_packet env now (zlen media / 512) j (slice media j)) (map (fun j => i + Z.of_nat j) (seq 1 n))).
Proof.
  induction n as [|n IH]; intros fuel i L I K F; (destruct fuel as [|fuel]; [lia|]); cbn [my_packets].
  - replace (zlen media <=? 512 * i) with true by lia. reflexivity.
  - replace (zlen media <=? 512 * i) with false by lia. replace (zlen media <? 512 * i + 512) with false by lia. change (512 =? 0) with false. cbv iota.
    replace (zlen media <? 512 * i + 512) with false by lia. replace (512 * i + 512) with (512 * (i + 1)) by lia. rewrite (IH fuel (i + 1)) by lia. cbn [bind]. f_equal. cbn [seq map].
    f_equal.
    + assert (M0 : zlen media mod 512 = 0) by (rewrite L; replace (512 * i + 512 * Z.of_nat (S n)) with ((i + Z.of_nat (S n)) * 512) by lia; apply Z_mod_mult).
      assert (M1 : 512 * (i + 1) mod 512 = 0) by (rewrite Z.mul_comm; apply Z_mod_mult). assert (D1 : 512 * (i + 1) / 512 = i + 1) by (rewrite Z.mul_comm; apply Z_div_mult; lia).
      assert (B : zlen media / 512 = i + Z.of_nat (S n)) by (rewrite L; replace (512 * i + 512 * Z.of_nat (S n)) with ((i + Z.of_nat (S n)) * 512) by lia; apply Z_div_mult; lia).
      unfold round_up, slice. rewrite M0, M1, D1. cbv zeta. change (0 <? 0) with false. cbv iota. rewrite !u16_id by (unfold is_u16; lia).
      change (i + Z.of_nat 1) with (i + 1). replace (512 * (i + 1 - 1)) with (512 * i) by lia. reflexivity.
    + rewrite <- (seq_shift n 1), !map_map. apply map_ext. intros j. replace (i + Z.of_nat (S j)) with (i + 1 + Z.of_nat j) by lia. reflexivity.
Qed.
Lemma my_upload_ok env now media : file_ok media -> my_upload env now media = Ok (map (fun j => my_packet env now (zlen media / 512) j (slice media j)) (upto (zlen media / 512))).
Proof.
  intros (_ & M & K). unfold my_upload. replace 0 with (512 * 0) at 1 by reflexivity. rewrite (my_packets_ok env now media (Z.to_nat (zlen media / 512))).
  - unfold upto. reflexivity.
  - lia.
  - lia.
  - lia.
  - unfold zlen in *. lia.
Qed.
Lemma slice_len media i : file_ok media -> 1 <= i <= zlen media / 512 -> zlen (slice media i) = 512 /\ bytes_ok (slice media i).
Proof.
  intros (B & M & K) I. unfold slice. split.
  - unfold zlen in *. rewrite firstn_length, skipn_length. lia.
  - apply Forall_forall. intros x X. apply (proj1 (Forall_forall _ _) B). rewrite <- (firstn_skipn (Z.to_nat (512 * (i - 1))) media). apply in_app_iff. right.
    rewrite <- (firstn_skipn 512 (skipn _ media)). apply in_app_iff. left. exact X.
Qed.
Lemma upload_tells env now media : now_ok env now -> file_ok media -> exists l, my_upload env now media = Ok l /\ Forall2 (tells env) l (upload_content env now media).
Proof.
  intros T F. rewrite my_upload_ok by auto. eexists. split; [reflexivity|]. unfold upload_content. assert (H : forall i, In i (upto (zlen media / 512)) -> 1 <= i <= zlen media / 512) by (intros i; apply in_upto).
  induction (upto (zlen media / 512)) as [|i l IH]; cbn [map]; constructor; [|apply IH; intros; apply H; cbn; auto]. assert (I := H i (or_introl eq_refl)). destruct (slice_len media i F I) as (L & B). destruct F as (_ & _ & K).
  apply packet_tells; auto; unfold is_u16; lia.
Qed.
Lemma greeting_tells env now key : texts_ok env -> now_ok env now -> wf_key key -> Forall2 (tells env) (my_greeting env now key) (greeting_content env now key).
Proof. intros T N K. repeat constructor; [apply auth_tells|apply position_tells|apply key_tells]; auto. Qed.
(** A file that does not end in a packet of its own *)
Lemma my_packets_end env now media r : 0 < r < 256 -> forall n fuel i, zlen media = 512 * i + 512 * Z.of_nat n + r -> 0 <= i -> (n < fuel)%nat -> my_packets fuel env now media (512 * i) 512 = Panic.
Proof.
  intros R. induction n as [|n IH]; intros fuel i L I F; (destruct fuel as [|fuel]; [lia|]); cbn [my_packets].
  - replace (zlen media <=? 512 * i) with false by lia. replace (zlen media <? 512 * i + 512) with true by lia. replace (_ =? 0) with false by lia. replace (zlen media <? _) with true by lia. reflexivity.
  - replace (zlen media <=? 512 * i) with false by lia. replace (zlen media <? 512 * i + 512) with false by lia. change (512 =? 0) with false. cbv iota.
    replace (zlen media <? 512 * i + 512) with false by lia. replace (512 * i + 512) with (512 * (i + 1)) by lia. rewrite (IH fuel (i + 1)) by lia. reflexivity.
Qed.
Lemma my_upload_short env now media : 0 < zlen media mod 512 < 256 -> my_upload env now media = Panic.
Proof.
  intros R. unfold my_upload. replace 0 with (512 * 0) at 1 by reflexivity. apply (my_packets_end env now media (zlen media mod 512) R (Z.to_nat (zlen media / 512))); unfold zlen in *; lia.
Qed.
Lemma Ok_inj2 {A} (a b : A) : Ok a = Ok b -> a = b.
Proof. congruence. Qed.
Lemma my_packets_uneven env now media r : 256 <= r < 512 -> zlen media < 65536 -> forall n fuel i l, zlen media = 512 * i + 512 * Z.of_nat n + r -> 0 <= i -> 1 <= i + Z.of_nat n ->
  my_packets fuel env now media (512 * i) 512 = Ok l ->
  exists m rest s, map announced l = repeat (Some (zlen media / 512 + 1)) n ++ Some s :: map announced rest /\ nth_error l n = Some m /\ announced m = Some s /\
    (s - 1) * (512 - r) < zlen media <= s * (512 - r) /\ zlen media / 512 + 1 < s.
Proof.
  intros R B. induction n as [|n IH]; intros fuel i l L I K E; (destruct fuel as [|fuel]; [discriminate|]); cbn [my_packets] in E.
  - replace (zlen media <=? 512 * i) with false in E by lia. replace (zlen media <? 512 * i + 512) with true in E by lia. cbv zeta in E.
    replace (512 * i + 512 - zlen media) with (512 - r) in E by lia. replace (512 - r =? 0) with false in E by lia.
    destruct (zlen media <? _); [discriminate|]. destruct (my_packets fuel env now media (512 * i + (512 - r)) (512 - r)) as [rest|e|] eqn:EP; try discriminate.
    cbn [bind] in E. apply Ok_inj2 in E. subst l.
    assert (U : (round_up (zlen media) (512 - r) - 1) * (512 - r) < zlen media <= round_up (zlen media) (512 - r) * (512 - r)).
    { unfold round_up. pose proof (Z.div_mod (zlen media) (512 - r) ltac:(lia)) as D. pose proof (Z.mod_pos_bound (zlen media) (512 - r) ltac:(lia)) as P.
      cbv zeta. set (q := zlen media / (512 - r)) in *. set (t := zlen media mod (512 - r)) in *. destruct (Z.ltb_spec 0 t); nia. }
    set (s := round_up (zlen media) (512 - r)) in *.
    assert (D : zlen media / 512 = i) by (rewrite L; symmetry; apply (Z.div_unique _ _ _ r); lia).
    assert (BS : zlen media / 512 + 1 < s) by (rewrite D; nia).
    assert (US : u16 s = s) by (apply u16_id; unfold is_u16; nia).
    eexists _, rest, s. cbn [map repeat app nth_error]. split; [|split; [reflexivity|split; [|auto]]]; unfold announced, my_packet; cbn; rewrite US; reflexivity.
  - replace (zlen media <=? 512 * i) with false in E by lia. replace (zlen media <? 512 * i + 512) with false in E by lia. change (512 =? 0) with false in E. cbv iota zeta in E.
    replace (zlen media <? 512 * i + 512) with false in E by lia. replace (512 * i + 512) with (512 * (i + 1)) in E by lia.
    destruct (my_packets fuel env now media (512 * (i + 1)) 512) as [l'|e|] eqn:EP; try discriminate. cbn [bind] in E. apply Ok_inj2 in E. subst l.
    destruct (IH fuel (i + 1) l' ltac:(lia) ltac:(lia) ltac:(lia) EP) as (m & rest & s & M & N & A & S1 & S2).
    exists m, rest, s. split; [|split; [exact N|split; [exact A|split; [exact S1|exact S2]]]].
    cbn [map repeat app]. rewrite M. f_equal. unfold announced, my_packet, my_header. cbn.
    assert (D : zlen media / 512 = i + Z.of_nat (S n)) by (rewrite L; symmetry; apply (Z.div_unique _ _ _ r); lia).
    assert (T : zlen media mod 512 = r) by (rewrite L; symmetry; apply (Z.mod_unique _ _ (i + Z.of_nat (S n))); lia).
    unfold round_up. rewrite T, D. replace (0 <? r) with true by lia. rewrite u16_id by (unfold is_u16; lia). reflexivity.
Qed.
Lemma my_upload_uneven env now media l : 512 <= zlen media < 65536 -> 256 <= zlen media mod 512 -> my_upload env now media = Ok l ->
  exists m s, firstn (Z.to_nat (zlen media / 512)) (map announced l) = repeat (Some (zlen media / 512 + 1)) (Z.to_nat (zlen media / 512)) /\
    nth_error l (Z.to_nat (zlen media / 512)) = Some m /\ announced m = Some s /\ zlen media / 512 + 1 < s.
Proof.
  intros B R E. unfold my_upload in E. change 0 with (512 * 0) in E.
  destruct (my_packets_uneven env now media (zlen media mod 512) ltac:(lia) ltac:(lia) (Z.to_nat (zlen media / 512)) _ 0 l ltac:(lia) ltac:(lia) ltac:(lia) E) as (m & rest & s & M & N & A & _ & S2).
  exists m, s. split; [|auto]. rewrite M, firstn_app, repeat_length, Nat.sub_diag, firstn_O, app_nil_r. apply firstn_all2. rewrite repeat_length. lia.
Qed.
