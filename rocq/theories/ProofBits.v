(** Lemmas behind C10 and C11. *)
From Verif Require Import Base LibBase Bits LibBits.

Lemma get_bit_spec w v off : (w = 8 \/ w = 16 \/ w = 32) -> 0 <= v < 2 ^ w -> 0 <= off ->
  get_bit w v off = Ok (Z.testbit v off).
Proof.
  intros Hw Hv Ho. unfold get_bit. destruct (off >=? w) eqn:E.
  - f_equal. symmetry. apply testbit_small with w; auto. lia.
  - replace (off <? 0) with false by lia. rewrite getb_testbit by lia. auto.
Qed.
Lemma set_bit_spec w v off b : (w = 8 \/ w = 16 \/ w = 32) -> 0 <= v < 2 ^ w -> 0 <= off ->
  exists v', set_bit w v off b = Ok v' /\ 0 <= v' < 2 ^ w /\
    forall i, 0 <= i -> Z.testbit v' i = if (i =? off) && (off <? w) then b else Z.testbit v i.
Proof.
  intros Hw Hv Ho. unfold set_bit. destruct (off >=? 32) eqn:E.
  - exists v. split; auto. split; auto. intros i Hi.
    replace (off <? w) with false by lia. rewrite andb_false_r. auto.
  - replace (off <? 0) with false by lia. eexists. split; [reflexivity|].
    destruct (Z.ltb_spec off w).
    + split; [apply setb_range; lia|]. intros. rewrite setb_testbit by lia. rewrite andb_true_r. auto.
    + rewrite setb_high by lia. split; auto. intros. rewrite andb_false_r. auto.
Qed.
Lemma set_bit_get_bit w v off off' b v' : (w = 8 \/ w = 16 \/ w = 32) -> 0 <= v < 2 ^ w -> 0 <= off -> 0 <= off' ->
  set_bit w v off b = Ok v' ->
  get_bit w v' off' = if (off' =? off) && (off <? w) then Ok b else get_bit w v off'.
Proof.
  intros Hw Hv Ho Ho' Hs. destruct (set_bit_spec w v off b Hw Hv Ho) as (v2 & E & Hr & Hb).
  rewrite E in Hs. inversion Hs; subst. rewrite !get_bit_spec by auto. rewrite Hb by auto.
  destruct (_ && _); auto.
Qed.

Definition prop_reads (p size : Z) (enc pkt : bool) : Prop :=
  get_body_size p = size /\ is_enable_encrypt p = enc /\ is_enable_packet p = pkt.

Lemma set_body_size_fields p s : is_u16 p -> 0 <= s <= 1023 ->
  exists p', set_body_size p s = Ok p' /\ is_u16 p' /\ get_body_size p' = s /\
    forall i, 10 <= i -> Z.testbit p' i = Z.testbit p i.
Proof.
  intros Hp Hs. exists (p / 1024 * 1024 + s). rewrite set_body_size_ok by auto. split; auto.
  split; [unfold is_u16 in *; lia|]. rewrite get_body_size_mod. split; [lia|].
  intros. rewrite div1024_testbit by lia. destruct (Z.ltb_spec i 10); auto. lia.
Qed.
Lemma flag_keeps_size p p' : is_u16 p -> (forall i, 0 <= i < 10 -> Z.testbit p' i = Z.testbit p i) ->
  get_body_size p' = get_body_size p.
Proof.
  intros Hp H. rewrite !get_body_size_mod. change 1024 with (2 ^ 10).
  apply Z.bits_inj'. intros i Hi. destruct (Z.ltb_spec i 10).
  - rewrite !Z.mod_pow2_bits_low by lia. apply H. lia.
  - rewrite !Z.mod_pow2_bits_high by lia. auto.
Qed.
Lemma enable_packet_size p : is_u16 p -> get_body_size (enable_packet p) = get_body_size p.
Proof.
  intros. apply flag_keeps_size; auto. intros. rewrite enable_packet_testbit by lia.
  destruct (Z.eqb_spec i 13); [lia|]. apply orb_false_r.
Qed.
Lemma enable_encrypt_size p : is_u16 p -> get_body_size (enable_encrypt p) = get_body_size p.
Proof.
  intros. apply flag_keeps_size; auto. intros. rewrite enable_encrypt_testbit by lia.
  destruct (Z.eqb_spec i 10); [lia|]. apply orb_false_r.
Qed.
Lemma property_fields p s : is_u16 p -> 0 <= s <= 1023 ->
  (exists p', set_body_size p s = Ok p' /\ is_u16 p' /\ get_body_size p' = s /\
     is_enable_packet p' = is_enable_packet p /\ is_enable_encrypt p' = is_enable_encrypt p /\
     forall i, 10 <= i -> Z.testbit p' i = Z.testbit p i) /\
  (is_u16 (enable_packet p) /\ is_enable_packet (enable_packet p) = true /\
   is_enable_encrypt (enable_packet p) = is_enable_encrypt p /\
   get_body_size (enable_packet p) = get_body_size p /\
   forall i, 0 <= i -> i <> 13 -> Z.testbit (enable_packet p) i = Z.testbit p i) /\
  (is_u16 (enable_encrypt p) /\ is_enable_encrypt (enable_encrypt p) = true /\
   is_enable_packet (enable_encrypt p) = is_enable_packet p /\
   get_body_size (enable_encrypt p) = get_body_size p /\
   forall i, 0 <= i -> i <> 10 -> Z.testbit (enable_encrypt p) i = Z.testbit p i).
Proof.
  intros Hp Hs. split; [|split].
  - destruct (set_body_size_fields p s Hp Hs) as (p' & E & Hr & Hg & Hb). exists p'.
    rewrite !is_enable_packet_bit, !is_enable_encrypt_bit. rewrite !Hb by lia. auto 10.
  - split; [apply enable_packet_u16; auto|]. rewrite !is_enable_packet_bit, !is_enable_encrypt_bit.
    rewrite !enable_packet_testbit by lia. rewrite enable_packet_size by auto.
    split; [apply orb_true_r|]. split; [apply orb_false_r|]. split; auto.
    intros. rewrite enable_packet_testbit by auto. destruct (Z.eqb_spec i 13); [contradiction|apply orb_false_r].
  - split; [apply enable_encrypt_u16; auto|]. rewrite !is_enable_packet_bit, !is_enable_encrypt_bit.
    rewrite !enable_encrypt_testbit by lia. rewrite enable_encrypt_size by auto.
    split; [apply orb_true_r|]. split; [apply orb_false_r|]. split; auto.
    intros. rewrite enable_encrypt_testbit by auto. destruct (Z.eqb_spec i 10); [contradiction|apply orb_false_r].
Qed.
