(** GB18030 as golang.org/x/text/encoding/simplifiedchinese has it (called at protocol/bufio.go:67-76 and 159-176,
    protocol/params.go:61 and :99 and in the bodies with texts), over the UTF-8 of Go strings. The library's code is
    outside the repository: this is the published gbk.go of v0.3.2 (the version of go.mod) and unicode/utf8. Its tables are a parameter.
    The library works on chunks of its input and output; here the whole input is there at once. *)
From Verif Require Import Base Env.

(** utf8.RuneError, U+FFFD (under protocol/bufio.go:69) *)
Definition rune_error : Z := 0xfffd.
(** a byte 10xxxxxx (unicode/utf8, under protocol/bufio.go:69) *)
Definition cont (lo hi b : Z) : bool := (lo <=? b) && (b <=? hi).
(** utf8.DecodeRune: the rune and the number of its bytes; one byte and U+FFFD if the bytes are no UTF-8 (under protocol/bufio.go:69) *)
Definition decode_rune (s : bytes) : Z * nat :=
  match s with
  | [] => (rune_error, 0%nat)
  | a :: t =>
      if a <? 0x80 then (a, 1%nat)
      else if a <? 0xc2 then (rune_error, 1%nat)
      else if a <? 0xe0 then
        match t with
        | b :: _ => if cont 0x80 0xbf b then ((a - 0xc0) * 64 + (b - 0x80), 2%nat) else (rune_error, 1%nat)
        | _ => (rune_error, 1%nat)
        end
      else if a <? 0xf0 then
        match t with
        | b :: c :: _ =>
            if cont (if a =? 0xe0 then 0xa0 else 0x80) (if a =? 0xed then 0x9f else 0xbf) b && cont 0x80 0xbf c
            then (((a - 0xe0) * 64 + (b - 0x80)) * 64 + (c - 0x80), 3%nat) else (rune_error, 1%nat)
        | _ => (rune_error, 1%nat)
        end
      else if a <? 0xf5 then
        match t with
        | b :: c :: d :: _ =>
            if cont (if a =? 0xf0 then 0x90 else 0x80) (if a =? 0xf4 then 0x8f else 0xbf) b && cont 0x80 0xbf c && cont 0x80 0xbf d
            then ((((a - 0xf0) * 64 + (b - 0x80)) * 64 + (c - 0x80)) * 64 + (d - 0x80), 4%nat) else (rune_error, 1%nat)
        | _ => (rune_error, 1%nat)
        end
      else (rune_error, 1%nat)
  end.
(** utf8.EncodeRune of three bytes (under protocol/bufio.go:163) *)
Definition three_bytes (r : Z) : bytes := [0xe0 + r / 4096; 0x80 + r / 64 mod 64; 0x80 + r mod 64].
(** utf8.EncodeRune: what is no Unicode scalar value becomes U+FFFD (under protocol/bufio.go:163) *)
Definition encode_rune (r : Z) : bytes :=
  if r <? 0 then three_bytes rune_error
  else if r <? 0x80 then [r]
  else if r <? 0x800 then [0xc0 + r / 64; 0x80 + r mod 64]
  else if (0x10ffff <? r) || (0xd800 <=? r) && (r <=? 0xdfff) then three_bytes rune_error
  else if r <? 0x10000 then three_bytes r
  else [0xf0 + r / 262144; 0x80 + r / 4096 mod 64; 0x80 + r / 64 mod 64; 0x80 + r mod 64].

(** What the tables give for a rune from U+0080 to U+FFFF: the byte 0x80, two bytes, or the number of a code of four
    (gbk.go and tables.go of golang.org/x/text, under protocol/bufio.go:69). *)
Inductive gbcode := One | Two (a b : Z) | Four (n : Z).
(** The tables: of the encoder, and of the decoder for two bytes, for numbers of four bytes below 39420 and for the
    byte 0x80 (tables.go of golang.org/x/text, under protocol/bufio.go:69 and :163). *)
Record gbtab := Tab { tb_code : Z -> gbcode; tb_two : Z -> Z -> Z; tb_four : Z -> Z; tb_80 : Z }.

(** a code of four bytes from its number (writeGB18030 of gbk.go, under protocol/bufio.go:69) *)
Definition quad (n : Z) : bytes :=
  [u8 (n / 12600 + 0x81); u8 (n / 1260 mod 10 + 0x30); u8 (n / 10 mod 126 + 0x81); u8 (n mod 10 + 0x30)].
(** one rune (gbkEncoder.Transform of gbk.go, under protocol/bufio.go:69) *)
Definition gb_rune (T : gbtab) (r : Z) : bytes :=
  if r <? 0x80 then [r]
  else if r <? 0x10000 then match tb_code T r with One => [0x80] | Two a b => [a; b] | Four n => quad n end
  else quad (r + 189000 - 0x10000).
(** gbkEncoder.Transform of gbk.go over the whole string, [n] runes at most (under protocol/bufio.go:69); it has no errors *)
Fixpoint enc_run (T : gbtab) (n : nat) (s : bytes) : bytes :=
  match n, s with
  | S n', _ :: _ => let '(r, k) := decode_rune s in gb_rune T r ++ enc_run T n' (skipn k s)
  | _, _ => []
  end.
(** one turn of gbkDecoder.Transform of gbk.go: the rune and the number of bytes read (under protocol/bufio.go:163) *)
Definition gb_step (T : gbtab) (s : bytes) : Z * nat :=
  match s with
  | [] => (rune_error, 0%nat)
  | c0 :: t =>
      if c0 <? 0x80 then (c0, 1%nat)
      else if c0 =? 0x80 then (tb_80 T, 1%nat)
      else if c0 <? 0xff then
        match t with
        | [] => (rune_error, 1%nat)
        | c1 :: t1 =>
            if (0x40 <=? c1) && (c1 <? 0x7f) || (0x80 <=? c1) && (c1 <? 0xff) then (tb_two T c0 c1, 2%nat)
            else if (0x30 <=? c1) && (c1 <? 0x40) then
              match t1 with
              | c2 :: c3 :: _ =>
                  if (c2 <? 0x81) || (0xff <=? c2) || (c3 <? 0x30) || (0x3a <=? c3) then (rune_error, 1%nat)
                  else
                    let r := (((c0 - 0x81) * 10 + (c1 - 0x30)) * 126 + (c2 - 0x81)) * 10 + (c3 - 0x30) in
                    if r <? 39420 then (tb_four T r, 4%nat)
                    else if (189000 <=? r) && (r <? 189000 + 0x100000) then (r - 189000 + 0x10000, 4%nat)
                    else (rune_error, 1%nat)
              | _ => (rune_error, 1%nat)
              end
            else (rune_error, 1%nat)
        end
      else (rune_error, 1%nat)
  end.
(** gbkDecoder.Transform of gbk.go over all the bytes, [n] turns at most (under protocol/bufio.go:163); it has no errors *)
Fixpoint dec_run (T : gbtab) (n : nat) (s : bytes) : bytes :=
  match n, s with
  | S n', _ :: _ => let '(r, k) := gb_step T s in encode_rune r ++ dec_run T n' (skipn k s)
  | _, _ => []
  end.
(** The libraries with GB18030 worked out (protocol/bufio.go:67-76, 159-176). *)
Definition gb_env (env : Env) (T : gbtab) : Env :=
  {| gb_enc := fun s => (enc_run T (length s) s, false); gb_dec := fun d => (dec_run T (length d) d, false);
     tz_off := tz_off env; f2u32 := f2u32 env; gz_enc := gz_enc env; gz_dec := gz_dec env;
     key_size := key_size env; oaep_enc := oaep_enc env; oaep_dec := oaep_dec env |}.
