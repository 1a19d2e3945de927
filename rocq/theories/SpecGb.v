(** Texts: Unicode scalar values, their UTF-8 (RFC 3629) and what is asked of the tables of GB18030. *)
From Verif Require Import Base EntTerm Gb.

(** a Unicode scalar value *)
Definition scalar (r : Z) : Prop := 0 <= r < 0xd800 \/ 0xe000 <= r <= 0x10ffff.
(** its UTF-8, RFC 3629 section 3 *)
Definition utf8 (r : Z) : bytes :=
  if r <? 128 then [r]
  else if r <? 2048 then [192 + r / 64; 128 + r mod 64]
  else if r <? 65536 then [224 + r / 4096; 128 + r / 64 mod 64; 128 + r mod 64]
  else [240 + r / 262144; 128 + r / 4096 mod 64; 128 + r / 64 mod 64; 128 + r mod 64].
(** the UTF-8 of a text *)
Definition text (rs : list Z) : bytes := concat (map utf8 rs).
(** The characters of any bytes: those whose UTF-8 is there, and U+FFFD for a byte at which that of none begins *)
Inductive reads : bytes -> list Z -> Prop :=
| reads_end : reads [] []
| reads_char r s rs : scalar r -> reads s rs -> reads (utf8 r ++ s) (r :: rs)
| reads_bad b s rs : (forall r t, scalar r -> b :: s <> utf8 r ++ t) -> reads s rs -> reads (b :: s) (0xfffd :: rs).
(** a text of scalar values without NUL *)
Definition plain (rs : list Z) : Prop := Forall (fun r => scalar r /\ r <> 0) rs.
(** first and second byte of a code of two *)
Definition lead (a : Z) : Prop := 129 <= a <= 254.
Definition trail (b : Z) : Prop := 64 <= b <= 126 \/ 128 <= b <= 254.
(** The table of the decoder undoes that of the encoder, and codes are what they should be: two bytes, a number of four
    bytes below 39420, or the byte 0x80. *)
Definition table_ok (T : gbtab) : Prop := forall r, 128 <= r < 65536 -> scalar r ->
  match tb_code T r with
  | One => tb_80 T = r
  | Two a b => lead a /\ trail b /\ tb_two T a b = r
  | Four n => 0 <= n < 39420 /\ tb_four T n = r
  end.
(** the length of the code of a character *)
Definition code_size (T : gbtab) (r : Z) : Z :=
  if r <? 128 then 1 else if r <? 65536 then match tb_code T r with One => 1 | Two _ _ => 2 | Four _ => 4 end else 4.
Definition text_size (T : gbtab) (rs : list Z) : Z := fold_right Z.add 0 (map (code_size T) rs).
(** The number of a code of four bytes, GB 18030 *)
Definition number4 (a b c d : Z) : Z := (((a - 129) * 10 + (b - 48)) * 126 + (c - 129)) * 10 + (d - 48).
(** The code of a character: itself, what the table says, or from U+10000 on four bytes numbered from 189000 on *)
Inductive has_code (T : gbtab) (r : Z) : bytes -> Prop :=
| code_ascii : 0 <= r < 128 -> has_code T r [r]
| code_one : 128 <= r < 65536 -> tb_code T r = One -> has_code T r [128]
| code_two a b : 128 <= r < 65536 -> tb_code T r = Two a b -> has_code T r [a; b]
| code_four a b c d : 128 <= r < 65536 -> tb_code T r = Four (number4 a b c d) -> lead a -> 48 <= b <= 57 -> lead c -> 48 <= d <= 57 -> has_code T r [a; b; c; d]
| code_high a b c d : 65536 <= r -> number4 a b c d = 189000 + (r - 65536) -> lead a -> 48 <= b <= 57 -> lead c -> 48 <= d <= 57 -> has_code T r [a; b; c; d].
(** A code at the beginning of some bytes, what it stands for and its length. The second byte of a code of four may be
    any from 0x30 to 0x3f, where the standard ends at 0x39. *)
Inductive begins (T : gbtab) : bytes -> Z -> nat -> Prop :=
| begins_ascii a s : 0 <= a < 128 -> begins T (a :: s) a 1
| begins_80 s : begins T (128 :: s) (tb_80 T) 1
| begins_two a b s : lead a -> trail b -> begins T (a :: b :: s) (tb_two T a b) 2
| begins_four a b c d s : lead a -> 48 <= b <= 63 -> lead c -> 48 <= d <= 57 -> number4 a b c d < 39420 -> begins T (a :: b :: c :: d :: s) (tb_four T (number4 a b c d)) 4
| begins_high a b c d s : lead a -> 48 <= b <= 63 -> lead c -> 48 <= d <= 57 -> 189000 <= number4 a b c d < 189000 + 1048576 ->
    begins T (a :: b :: c :: d :: s) (65536 + (number4 a b c d - 189000)) 4.
(** The characters of any bytes: those of the codes, and U+FFFD for a byte at which no code begins; what is no scalar value becomes U+FFFD too. *)
Inductive hears (T : gbtab) : bytes -> list Z -> Prop :=
| hears_end : hears T [] []
| hears_code s r k rs : begins T s r k -> scalar r -> hears T (skipn k s) rs -> hears T s (r :: rs)
| hears_none s r k rs : begins T s r k -> ~ scalar r -> hears T (skipn k s) rs -> hears T s (0xfffd :: rs)
| hears_bad b s rs : (forall r k, ~ begins T (b :: s) r k) -> hears T s rs -> hears T (b :: s) (0xfffd :: rs).
(** What is left of a character cut off before its end: nothing, U+FFFD, U+FFFD and a digit, or these and U+FFFD again. *)
Inductive remains : list Z -> Prop :=
| rem_none : remains []
| rem_one : remains [0xfffd]
| rem_two d : 48 <= d <= 57 -> remains [0xfffd; d]
| rem_three d : 48 <= d <= 57 -> remains [0xfffd; d; 0xfffd].
(** a driver's identity with another number *)
Definition with_number (x : t0702) (s : bytes) : t0702 :=
  T0702 (a0702_state x) (a0702_time x) (a0702_ic x) (a0702_name x) s (a0702_company x) (a0702_expiry x).
