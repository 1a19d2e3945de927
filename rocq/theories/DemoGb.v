(** A table in which the characters from U+0080 on take the codes of two bytes in order and then those of four, and a driver card. *)
From Verif Require Import Base LibBase Env GoTime EntTerm Registry SpecEntity Gb SpecGb ProofGb2 Demo.

(** the number of a character among those from U+0080 to U+FFFF without the surrogates, and back *)
Definition rank (r : Z) : Z := if r <? 0xd800 then r - 128 else r - 128 - 2048.
Definition unrank (n : Z) : Z := if n <? 0xd800 - 128 then n + 128 else n + 128 + 2048.
Definition demo_tab : gbtab := {|
  tb_code := fun r => let i := rank r in
    if i <? 23940 then Two (129 + i / 190) (if i mod 190 <? 63 then 64 + i mod 190 else 65 + i mod 190) else Four (i - 23940);
  tb_two := fun a b => unrank ((a - 129) * 190 + (if b <? 127 then b - 64 else b - 65));
  tb_four := fun n => unrank (n + 23940);
  tb_80 := 0x20ac |}.
Lemma demo_tab_ok : table_ok demo_tab.
Proof.
  intros r H S. unfold scalar in S. cbn [demo_tab tb_code tb_two tb_four]. cbv zeta.
  assert (U : unrank (rank r) = r) by (unfold unrank, rank; destruct (r <? 55296) eqn:E; [replace (r - 128 <? 55296 - 128) with true by lia|replace (r - 128 - 2048 <? 55296 - 128) with false by lia]; lia).
  assert (B : 0 <= rank r < 63360) by (unfold rank; destruct (r <? 55296) eqn:E; lia).
  set (i := rank r) in *. clearbody i. destruct (i <? 23940) eqn:E.
  - unfold lead, trail. destruct (i mod 190 <? 63) eqn:F.
    + replace (64 + i mod 190 <? 127) with true by lia. replace ((129 + i / 190 - 129) * 190 + (64 + i mod 190 - 64)) with i by lia. lia.
    + replace (65 + i mod 190 <? 127) with false by lia. replace ((129 + i / 190 - 129) * 190 + (65 + i mod 190 - 65)) with i by lia. lia.
  - replace (i - 23940 + 23940) with i by lia. lia.
Qed.
Definition gb_demo : Env := gb_env demo_env demo_tab.
(** "Ü😀" *)
Definition demo_runes : list Z := [0xdc; 0x1f600].
Lemma demo_runes_ok : plain demo_runes. Proof. repeat constructor; unfold scalar; lia. Qed.
Lemma demo_text : text demo_runes = [0xc3; 0x9c; 0xf0; 0x9f; 0x98; 0x80] /\ gb_enc gb_demo (text demo_runes) = ([0x81; 0x9d; 0x94; 0x39; 0xfc; 0x36], false) /\
  gb_dec gb_demo [0x81; 0x9d; 0x94; 0x39; 0xfc; 0x36] = (text demo_runes, false).
Proof. vm_compute. auto. Qed.
(** a string that is no UTF-8: the byte 0xff between two letters comes back as U+FFFD *)
Lemma demo_bad : gb_dec gb_demo (fst (gb_enc gb_demo [65; 255; 66])) = ([65; 239; 191; 189; 66], false).
Proof. vm_compute. auto. Qed.
(** a driver's number of six characters of four bytes *)
Definition demo_number : list Z := repeat 0x1f600 6.
Definition demo_driver : t0702 := T0702 1 (GoTime 1577836800 0 0) 0 [65] (text demo_number) [66] (GoTime 1577808000 0 28800).
Definition demo_cut : list Z := [65; 0x1f600; 0x1f600; 0x1f600; 0x1f600; 0x1f600].
Definition demo_driver2 : t0702 := with_number demo_driver (text demo_cut).
Lemma demo_driver_ok : wf gb_demo (E0702 (with_number demo_driver [])) /\ plain demo_number /\ text_size demo_tab demo_number = 24.
Proof.
  assert (A : forall c, 0 < c < 128 -> text_ok gb_demo [c]).
  { intros c H. apply ProofGb.gb_text. apply demo_tab_ok. exists [c]. split. { repeat constructor; unfold scalar; lia. }
    unfold text, utf8. cbn [map concat]. replace (c <? 128) with true by lia. auto. }
  split; [|split; [repeat constructor; unfold scalar; lia|vm_compute; auto]].
  cbn [wf with_number demo_driver a0702_state a0702_time a0702_ic a0702_name a0702_number a0702_company a0702_expiry].
  split; [unfold is_byte; lia|]. split; [vm_compute; repeat split; discriminate|]. split; [unfold is_byte; lia|].
  split; [split; [apply A; lia|vm_compute; discriminate]|].
  split; [split; [apply ProofGb.gb_text; [apply demo_tab_ok|exists []; split; [constructor|reflexivity]]|vm_compute; discriminate]|].
  split; [split; [apply A; lia|vm_compute; discriminate]|].
  vm_compute. repeat split; discriminate.
Qed.
Lemma demo_driver_cut : omap a0702_number (dec_0702 gb_demo (match enc_0702 gb_demo demo_driver with Ok d => d | _ => [] end)) = Ok (text (repeat 0x1f600 5), 36) /\
  omap a0702_number (dec_0702 gb_demo (match enc_0702 gb_demo demo_driver2 with Ok d => d | _ => [] end)) = Ok (text [65; 0x1f600; 0x1f600; 0x1f600; 0x1f600; 0xfffd; 57; 0xfffd], 36).
Proof. vm_compute. auto. Qed.
