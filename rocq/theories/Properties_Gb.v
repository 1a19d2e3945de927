(** GB18030: C183 and C184. *)
From Verif Require Import Base LibBase Env EntTerm EntPlat Registry SpecEntity Gb SpecGb ProofGb ProofGb2 Demo DemoGb.

(** C183. With GB18030 worked out, exactly the UTF-8 texts without NUL survive ... *)
Theorem C183_texts env T s : table_ok T -> (text_ok (gb_env env T) s <-> exists rs, plain rs /\ s = text rs).
Proof. exact (gb_text env T s). Qed.
Print Assumptions C183_texts.
(** ... any string is written, by the codes of the standard: a byte at which no UTF-8 begins becomes U+FFFD ... *)
Theorem C183_codes env T s : table_ok T -> bytes_ok s -> exists rs ds, reads s rs /\ Forall2 (has_code T) rs ds /\ gb_enc (gb_env env T) s = (concat ds, false).
Proof. exact (gb_any env T s). Qed.
Print Assumptions C183_codes.
Theorem C183_one_reading s rs rs' : reads s rs -> reads s rs' -> rs = rs'.
Proof. exact (fun H => reads_one s rs H rs'). Qed.
Print Assumptions C183_one_reading.
(** ... a character takes one, two or four bytes ... *)
Theorem C183_size env T rs : Forall scalar rs ->
  zlen (fst (gb_enc (gb_env env T) (text rs))) = text_size T rs /\ zlen rs <= text_size T rs <= 4 * zlen rs.
Proof. exact (gb_size env T rs). Qed.
Print Assumptions C183_size.
(** ... and no text is ever refused, neither written nor read; what is read is UTF-8 without NUL, whatever the bytes. *)
Theorem C183_written env T s : exists d, w_str (gb_env env T) s = Ok d.
Proof. exact (gb_never env T s). Qed.
Print Assumptions C183_written.
Theorem C183_read env T d : exists s rs, text_of (gb_env env T) d = Ok s /\ plain rs /\ s = text rs.
Proof. exact (gb_never_read env T d). Qed.
Print Assumptions C183_read.
(** Character by character: a byte at which no code begins becomes U+FFFD. *)
Theorem C183_heard env T d : bytes_ok d -> exists rs, hears T d rs /\ gb_dec (gb_env env T) d = (text rs, false).
Proof. exact (gb_hears env T d). Qed.
Print Assumptions C183_heard.
Theorem C183_one_hearing T d rs rs' : hears T d rs -> hears T d rs' -> rs = rs'.
Proof. exact (fun H => hears_one T d rs H rs'). Qed.
Print Assumptions C183_one_hearing.
(** A table, "Ü😀" and its codes, and a string that is no UTF-8. *)
Example C183_case : table_ok demo_tab /\ plain demo_runes /\ text demo_runes = [0xc3; 0x9c; 0xf0; 0x9f; 0x98; 0x80] /\
  gb_enc gb_demo (text demo_runes) = ([0x81; 0x9d; 0x94; 0x39; 0xfc; 0x36], false) /\
  gb_dec gb_demo [0x81; 0x9d; 0x94; 0x39; 0xfc; 0x36] = (text demo_runes, false) /\
  gb_dec gb_demo (fst (gb_enc gb_demo [65; 255; 66])) = ([65; 239; 191; 189; 66], false).
Proof. exact (conj demo_tab_ok (conj demo_runes_ok (conj (proj1 demo_text) (conj (proj1 (proj2 demo_text)) (conj (proj2 (proj2 demo_text)) demo_bad))))). Qed.

(** C184. A driver's number of more than 20 bytes is cut off on the way: as many characters arrive as fit, and after them
    nothing, or U+FFFD, a digit that was never sent, U+FFFD, from the character that was cut. *)
Theorem C184_number env0 T x rs : table_ok T -> let env := gb_env env0 T in
  wf env (E0702 (with_number x [])) -> a0702_number x = text rs -> plain rs -> 20 < text_size T rs ->
  exists d i rest, encode env (E0702 x) = Ok d /\
    decode env 0x0702 d = Ok (sent env (E0702 (with_number x (text (firstn i rs ++ rest)))), zlen d) /\ remains rest /\
    text_size T (firstn i rs) <= 20 < text_size T (firstn (S i) rs) /\ (rest = [] <-> text_size T (firstn i rs) = 20).
Proof. exact (cut_0702 env0 T x rs). Qed.
Print Assumptions C184_number.
(** Six characters of four bytes arrive as five; a letter and five of them arrive as the letter, four of them, U+FFFD, the digit 9 and U+FFFD. *)
Example C184_case : table_ok demo_tab /\ wf gb_demo (E0702 (with_number demo_driver [])) /\ plain demo_number /\ text_size demo_tab demo_number = 24 /\
  omap a0702_number (dec_0702 gb_demo (match enc_0702 gb_demo demo_driver with Ok d => d | _ => [] end)) = Ok (text (repeat 0x1f600 5), 36) /\
  omap a0702_number (dec_0702 gb_demo (match enc_0702 gb_demo demo_driver2 with Ok d => d | _ => [] end)) = Ok (text [65; 0x1f600; 0x1f600; 0x1f600; 0x1f600; 0xfffd; 57; 0xfffd], 36).
Proof.
  exact (conj demo_tab_ok (conj (proj1 demo_driver_ok) (conj (proj1 (proj2 demo_driver_ok)) (conj (proj2 (proj2 demo_driver_ok)) demo_driver_cut)))).
Qed.
