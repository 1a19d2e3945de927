(** BCD digits, terminal numbers and times: C08, C18, C19. *)
From Verif Require Import Base Bcd Bits GoTime Message LibBcd ProofHeader ProofTime.

(** C08. The terminal number of an encoded header is read back unchanged exactly when
    it is between 1 and 10^12 - 1; 0 cannot be decoded at all. *)
Theorem C08_icc_survives h hb h2 r :
  is_u16 (h_id h) -> is_u16 (h_prop h) -> is_u16 (h_serial h) -> is_u64 (h_icc h) ->
  match h_packet h with Some (sum, seq) => is_u16 sum /\ is_u16 seq | None => Z.testbit (h_prop h) 13 = false end ->
  hdr_encode h = Ok (hb, h2) ->
  ((exists h', hdr_decode (hb ++ r) = Ok h' /\ h_icc h' = h_icc h) <-> 1 <= h_icc h < 10 ^ 12) /\
  (h_icc h = 0 -> hdr_decode (hb ++ r) = Err ErrParse).
Proof. exact (icc_exact h hb h2 r). Qed.
Print Assumptions C08_icc_survives.

Example C08_case : exists hb h2, hdr_encode (Header 512 0 13800138000 7 None) = Ok (hb, h2) /\
  exists h', hdr_decode (hb ++ [1; 2]) = Ok h' /\ h_icc h' = 13800138000.
Proof. eexists _, _. split; [vm_compute; reflexivity|]. eexists. vm_compute. auto. Qed.
(** Thirteen digits: the last one is lost. *)
Example C08_case_large : exists hb h2, hdr_encode (Header 512 0 1234567890123 7 None) = Ok (hb, h2) /\
  exists h', hdr_decode hb = Ok h' /\ h_icc h' = 12345678901.
Proof. eexists _, _. split; [vm_compute; reflexivity|]. eexists. vm_compute. auto. Qed.

(** C18 does not hold for the whole century: times of 2000-2009 cannot be read back. *)
Theorem C18_century_refuted : exists tz t, 946684800 <= t_sec t + tz < 4102444800 /\
  from_bcd_time tz (to_bcd_time tz t) = Err ErrParse.
Proof. exact time_century_false. Qed.
Print Assumptions C18_century_refuted.
(** Within the century, exactly the local times from 2010-01-01 on come back, as the
    same second; every earlier one is a parse error. *)
Theorem C18_exact tz t : 946684800 <= t_sec t + tz < 4102444800 ->
  (from_bcd_time tz (to_bcd_time tz t) = Ok (GoTime (t_sec t) 0 tz) <-> 1262304000 <= t_sec t + tz).
Proof. exact (time_century_exact tz t). Qed.
Print Assumptions C18_exact.
Theorem C18_early_fails tz t : 946684800 <= t_sec t + tz < 1262304000 ->
  from_bcd_time tz (to_bcd_time tz t) = Err ErrParse.
Proof. exact (time_2000_2009 tz t). Qed.
Print Assumptions C18_early_fails.

(** 2024-02-29 12:34:56 at UTC+8 *)
Example C18_case : to_bcd_time 28800 (GoTime 1709181296 5 0) = [36; 2; 41; 18; 52; 86] /\
  from_bcd_time 28800 [36; 2; 41; 18; 52; 86] = Ok (GoTime 1709181296 0 28800).
Proof. vm_compute. auto. Qed.

(** C19. Digit strings that fit: read back unchanged exactly when there is no leading
    zero; in general only leading zeros are lost; the packed form has n bytes. *)
Theorem C19_exact s n : Forall (fun c => 48 <= c <= 57) s -> (length s <= 2 * n)%nat ->
  (bcd_to_string (string_to_bcd_n s n) = s <-> forall t, s <> 48 :: t).
Proof. exact (bcd_text_exact s n). Qed.
Print Assumptions C19_exact.
Theorem C19_only_zeros_lost s n : Forall (fun c => 48 <= c <= 57) s -> (length s <= 2 * n)%nat ->
  exists z, s = repeat 48 z ++ bcd_to_string (string_to_bcd_n s n).
Proof. exact (bcd_text_value s n). Qed.
Print Assumptions C19_only_zeros_lost.
Theorem C19_width s n : length (string_to_bcd_n s n) = n.
Proof. exact (string_to_bcd_n_length s n). Qed.
Print Assumptions C19_width.

(** "123" in two bytes *)
Example C19_case : string_to_bcd_n [49; 50; 51] 2 = [1; 35] /\ bcd_to_string [1; 35] = [49; 50; 51].
Proof. vm_compute. auto. Qed.
