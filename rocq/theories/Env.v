(** Libraries outside the repository, as parameters of the model. *)
From Verif Require Import Base Bcd GoTime Decimal.

(** One gzip Read call: the bytes produced and how it ended. *)
Inductive gzstat := GzMore | GzEOF | GzErr.

(** The outside functions the code calls: GB18030 text (protocol/bufio.go:67-75 and 159-176), time zones (protocol/helpers.go:120-137), float64 rounding (protocol/t808_0x0200.go) and RSA-OAEP (protocol/helpers.go:14-39) *)
Record Env := {
  (** golang.org/x/text simplifiedchinese.GB18030 encoder/decoder run by
      ioutil.ReadAll: the bytes produced and whether an error ended the run. *)
  gb_enc : bytes -> bytes * bool;
  gb_dec : bytes -> bytes * bool;
  (** offset of time.Local *)
  tz_off : Z;
  (** uint32(f) for a float64 f outside the uint32 range: implementation-specific in Go *)
  f2u32 : Z -> Z;
  (** compress/gzip: output of NewWriter/Write/Close *)
  gz_enc : bytes -> bytes;
  (** compress/gzip: NewReader fails ([None]) or the sequence of results of Read *)
  gz_dec : bytes -> option (list (bytes * gzstat));
  (** crypto/rsa with SHA-1 OAEP: public and private keys are numbered; size
      in bytes; EncryptOAEP of chunk number [i] (the randomness drawn), DecryptOAEP *)
  key_size : Z -> Z;
  oaep_enc : Z -> Z -> bytes -> option bytes;
  oaep_dec : Z -> bytes -> option bytes;
}.

(** Reading/writing text. Writer.WritString without size, protocol/bufio.go:67-76,
    and the same inline sequence ReadAll(transform.NewReader(..NewEncoder())). *)
Definition w_str (env : Env) (s : bytes) : res bytes :=
  let '(d, bad) := gb_enc env s in if bad then Err ErrText else Ok d.

(** [if len(s) > 0 { writer.WritString(s) }] *)
Definition w_str_opt (env : Env) (s : bytes) : res bytes :=
  if 0 <? zlen s then w_str env s else Ok [].

(** decoding of a text field, protocol/bufio.go:159-176 *)
Definition text_of (env : Env) (d : bytes) : res bytes :=
  let '(t, bad) := gb_dec env d in if bad then Err ErrText else Ok (cstr t).

(** Reader.ReadString(size), protocol/bufio.go:159-171 *)
Definition r_str_n (env : Env) (n : Z) : R bytes :=
  rd d <- r_bytes n ; rlift (text_of env d).

(** Reader.ReadString() *)
Definition r_str (env : Env) : R bytes :=
  rd d <- r_all ; rlift (text_of env d).

(** [if reader.Len() > 0 { s = reader.ReadString() }], the field stays "" otherwise *)
Definition r_str_opt (env : Env) : R bytes :=
  rd n <- r_len ; if 0 <? n then r_str env else rret [].

(** Writer.WriteBcdTime, protocol/bufio.go:62-65 *)
Definition w_time (env : Env) (t : gotime) : bytes := to_bcd_time (tz_off env) t.

(** Reader.ReadBcdTime, protocol/bufio.go:143-157 *)
Definition r_time (env : Env) : R gotime :=
  rd b <- r_bytes 6 ; rlift (from_bcd_time (tz_off env) b).

(** [uint32(math.Abs(float64(n)))]: exact below 2^32, otherwise whatever the platform gives *)
Definition abs_u32 (env : Env) (n : Z) : Z :=
  if Z.abs n <? 4294967296 then Z.abs n else u32 (f2u32 env n).

(** A time.Time zero value never written by the decoder (entity fields left untouched). *)
Definition time_zero : gotime := GoTime (-62135596800) 0 0.
