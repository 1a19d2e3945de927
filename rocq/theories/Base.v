(** Base vocabulary of the model: bytes, Go results, fixed-width conversions,
    the [Writer] and [Reader] of protocol/bufio.go. *)
From Coq Require Export ZArith List Lia Bool.
Export ListNotations.
Open Scope Z_scope.

(** Go [[]byte] / [string]: a list of integers 0..255 (both immutable here). *)
Definition bytes := list Z.
(** Go [byte] (uint8), the element type of every buffer, e.g. protocol/bufio.go:13-15 *)
Definition is_byte (b : Z) : Prop := 0 <= b < 256.
(** Go [uint16], e.g. the fields of protocol/header.go:9-21 *)
Definition is_u16 (n : Z) : Prop := 0 <= n < 65536.
(** Go [uint32], e.g. protocol/params.go:12-15 *)
Definition is_u32 (n : Z) : Prop := 0 <= n < 4294967296.
(** Go [uint64], e.g. Header.IccID, protocol/header.go:18 *)
Definition is_u64 (n : Z) : Prop := 0 <= n < 18446744073709551616.
(** Go [[]byte]: every element fits a byte *)
Definition bytes_ok (l : bytes) : Prop := Forall is_byte l.

(** Go [len]. *)
Definition zlen {A} (l : list A) : Z := Z.of_nat (length l).

(** Go conversions [byte(x)], [uint16(x)], [uint32(x)]. *)
Definition u8 (n : Z) : Z := n mod 256.
(** the conversion uint16(n), e.g. protocol/message.go:48, protocol/t808_0x0704.go:20 *)
Definition u16 (n : Z) : Z := n mod 65536.
(** the conversion uint32(n), e.g. protocol/t808_0x0200.go:125-128 *)
Definition u32 (n : Z) : Z := n mod 4294967296.

(** Error values.  errors/errors.go:7-28, protocol/errors.go:7-26, io.EOF,
    io.ErrUnexpectedEOF; [ErrParse] stands for any error of strconv/time
    parsing, [ErrText] for an error of the GB18030 transformer, [ErrGzip] for
    gzip.NewReader, [ErrCrypt] for crypto/rsa, [ErrFuel] is used only by model
    loops and proved unreachable. *)
Inductive goerr :=
| ErrInvalidBody | ErrBodyTooLong | ErrInvalidHeader | ErrNotFoundPrefixID
| ErrInvalidBCDTime | ErrInvalidMessage | ErrInvalidCheckSum
| ErrTypeNotRegistered | ErrInvalidExtraLength | ErrDecryptMessageFailed
| PErrInvalidBody
| ErrEOF | ErrUnexpectedEOF | ErrParse | ErrText | ErrGzip | ErrCrypt
| ErrKey | ErrNotFullPacket | ErrNotExist | ErrClosed | ErrOther | ErrFuel.

(** Outcome of a Go call: value, error, or run-time panic. *)
Inductive res (A : Type) : Type :=
| Ok (a : A)
| Err (e : goerr)
| Panic.
Arguments Ok {A} a.
Arguments Err {A} e.
Arguments Panic {A}.

(** the Go idiom [x, err := f(); if err != nil { return err }], e.g. protocol/message.go:27-30 *)
Definition bind {A B} (r : res A) (k : A -> res B) : res B :=
  match r with Ok a => k a | Err e => Err e | Panic => Panic end.
Notation "'do' x <- e ; k" := (bind e (fun x => k))
  (at level 200, x pattern, e at level 100, k at level 200, right associativity).

(** [protocol.Reader] (protocol/bufio.go:78-81): the state is the unread rest. *)
Definition R (A : Type) : Type := bytes -> res (A * bytes).
(** a read that consumes nothing; the reader is protocol/bufio.go:78-89 *)
Definition rret {A} (a : A) : R A := fun l => Ok (a, l).
(** [return 0, err] after a read, e.g. protocol/t808_0x0704.go:43-46 *)
Definition rfail {A} (e : goerr) : R A := fun _ => Err e.
(** a run-time panic inside a Decode function *)
Definition rpanic {A} : R A := fun _ => Panic.
(** one read after another on the same Reader, as in every Decode, e.g. protocol/t808_0x0704.go:42-52 *)
Definition rbind {A B} (p : R A) (k : A -> R B) : R B :=
  fun l => match p l with Ok (a, l') => k a l' | Err e => Err e | Panic => Panic end.
Notation "'rd' x <- p ; k" := (rbind p (fun x => k))
  (at level 200, x pattern, p at level 100, k at level 200, right associativity).
(** A plain call inside a reader computation. *)
Definition rlift {A} (r : res A) : R A :=
  fun l => match r with Ok a => Ok (a, l) | Err e => Err e | Panic => Panic end.

(** Several decoders replace a reader error by their own: [if err != nil { return 0, ErrX }]. *)
Definition rmap_err {A} (e : goerr) (p : R A) : R A :=
  fun l => match p l with Err _ => Err e | r => r end.

(** Reader.Len, bufio.go:87-89 *)
Definition r_len : R Z := fun l => Ok (zlen l, l).

(** Reader.Read(size), bufio.go:91-105: a size above the rest is an error; a
    negative size makes the slice expression at line 102 panic. *)
Definition r_bytes (n : Z) : R bytes :=
  fun l => if zlen l <? n then Err ErrUnexpectedEOF
           else if n <? 0 then Panic
           else Ok (firstn (Z.to_nat n) l, skipn (Z.to_nat n) l).

(** Reader.Read() without size, bufio.go:91-105 *)
Definition r_all : R bytes := fun l => Ok (l, []).

(** Reader.ReadByte, bufio.go:107-109 *)
Definition r_byte : R Z :=
  fun l => match l with b :: t => Ok (b, t) | [] => Err ErrEOF end.

(** binary.BigEndian.Uint16 on the two bytes read *)
Definition be16 (a b : Z) : Z := a * 256 + b.
(** binary.BigEndian.Uint32, used by protocol/bufio.go:127-141 *)
Definition be32 (a b c d : Z) : Z := ((a * 256 + b) * 256 + c) * 256 + d.

(** Reader.ReadUint16, bufio.go:111-125 *)
Definition r_u16 : R Z :=
  fun l => match l with a :: b :: t => Ok (be16 a b, t) | _ => Err ErrUnexpectedEOF end.

(** Reader.ReadUint32, bufio.go:127-141 *)
Definition r_u32 : R Z :=
  fun l => match l with a :: b :: c :: d :: t => Ok (be32 a b c d, t)
           | _ => Err ErrUnexpectedEOF end.

(** Writer.Write(p), bufio.go:25-29; WriteByte, 43-46 *)
Definition w_byte (b : Z) : bytes := [b].

(** Writer.WriteUint16, bufio.go:48-53 (PutUint16: byte(v>>8), byte(v)) *)
Definition w_u16 (n : Z) : bytes := [u8 (n / 256); u8 n].

(** Writer.WriteUint32, bufio.go:55-60 *)
Definition w_u32 (n : Z) : bytes :=
  [u8 (n / 16777216); u8 (n / 65536); u8 (n / 256); u8 n].

(** Writer.Write(p, size), bufio.go:31-40: truncate or pad with zeros
    ([size] is a non-negative constant at every call site). *)
Definition w_fixed (p : bytes) (n : nat) : bytes :=
  if (n <=? length p)%nat then firstn n p else p ++ repeat 0 (n - length p).

(** bytesToString, helpers.go:56-62 *)
Fixpoint cstr (l : bytes) : bytes :=
  match l with
  | [] => []
  | b :: t => if b =? 0 then [] else b :: cstr t
  end.

(** [return n, nil] where n is [len(data) - reader.Len()]: run a reader
    program over the whole input and report the consumed length. *)
Definition run_count {A} (p : R A) (data : bytes) : res (A * Z) :=
  match p data with
  | Ok (a, rest) => Ok (a, zlen data - zlen rest)
  | Err e => Err e
  | Panic => Panic
  end.

(** Run a reader program, drop the rest and report a fixed count. *)
Definition run_const {A} (p : R A) (n : Z) (data : bytes) : res (A * Z) :=
  match p data with
  | Ok (a, _) => Ok (a, n)
  | Err e => Err e
  | Panic => Panic
  end.

(** [for i := 0; i < n; i++ { x, err := p; list = append(list, x) }] *)
Fixpoint r_list {A} (n : nat) (p : R A) : R (list A) :=
  match n with
  | O => rret []
  | S n' => rd x <- p ; rd xs <- r_list n' p ; rret (x :: xs)
  end.

(** Monadic map for encode loops [for _, x := range xs { ... }]. *)
Fixpoint mapM {A B} (f : A -> res B) (l : list A) : res (list B) :=
  match l with
  | [] => Ok []
  | x :: t => do y <- f x ; do ys <- mapM f t ; Ok (y :: ys)
  end.
