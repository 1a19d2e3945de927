(** The multipart branch of HandleSession with the goroutines of several
    connections interleaved, session_handler.go:63-112 and multipart.go: one step
    per access to the file system.  Multipart.v and Server.v treat the handling of
    a packet as one step.

    Simplifications: the directory listing of filepath.Walk is one step; io.Copy
    of one part into the full file is one step, and so is the reading of the merged
    file by the handler; the directory of a terminal is there once MkdirAll has
    made it, and no file is ever removed. *)
From Verif Require Import Base Multipart.

(** A packet that has been received: MultipartFile (session_handler.go:63-68), number and data *)
Record packet := Packet { pk_up : mpf; pk_seq : Z; pk_data : bytes }.

(** Where the goroutine is.
    [TMkdir]: multipart.go:98-101; [TTrunc], [TFill]: WriteFile opens the file with
    O_TRUNC and O_CREATE, then writes, 104; [TCheck]: IsFull, 37-48; [TOpen]: Merge opens the parts, 52-60;
    [TCreate]: the full file is opened, 74-77; [TCopy]: the parts left to copy, and the offset, 81-85;
    [TRead]: the handler reads the file, 86 and session_handler.go:109-112. *)
Inductive task :=
| TIdle
| TMkdir (p : packet)
| TTrunc (p : packet)
| TFill (p : packet)
| TCheck (m : mpf)
| TOpen (m : mpf)
| TCreate (m : mpf) (names : list bytes)
| TCopy (m : mpf) (names : list bytes) (off : nat)
| TRead (m : mpf).

(** What became of a packet: refused (session_handler.go:81-89), kept (94), or the message was
    handed over with this content (109-112) *)
Inductive outcome := OFail | OKept | OWhole (c : bytes).

(** The goroutine of a connection with the packets that will arrive, and what became of the earlier ones *)
Record thread := Thread { th_todo : list packet; th_at : task; th_out : list outcome }.

(** The directory of the terminal; no files if it is not there *)
Definition dir_of (f : fs) (m : mpf) : dir :=
  match alist_get (fs_dirs f) (root_dir m) with Some d => d | None => [] end.
(** A file of the directory; empty if it is not there *)
Definition get_file (f : fs) (m : mpf) (n : bytes) : bytes :=
  match alist_get (dir_of f m) n with Some c => c | None => [] end.
(** Stores a file in the directory *)
Definition set_file (f : fs) (m : mpf) (n : bytes) (c : bytes) : fs :=
  Fs (fs_priv f) (alist_set (fs_dirs f) (root_dir m) (alist_set (dir_of f m) n c)).
(** write(2) at an offset *)
Definition write_at (off : nat) (c old : bytes) : bytes :=
  firstn off old ++ repeat 0 (off - length old) ++ c ++ skipn (off + length c) old.

(** walkParts as used by IsFull and Merge, multipart.go:108-133: number and name of every part *)
Definition list_parts (f : fs) (m : mpf) : list (Z * bytes) :=
  concat (map (fun nc => match part_seq m (fst nc) with Some s => [(s, fst nc)] | None => [] end) (dir_of f m)).

(** One step of a goroutine *)
Definition thread_step (f : fs) (t : thread) : fs * thread :=
  let go f' k := (f', Thread (th_todo t) k (th_out t)) in
  let done f' o := (f', Thread (th_todo t) TIdle (th_out t ++ [o])) in
  match th_at t with
  | TIdle => match th_todo t with
             | [] => (f, t)
             | p :: r => (f, Thread r (TMkdir p) (th_out t))
             end
  | TMkdir p =>
      if negb (fs_priv f) then done f OFail
      else go (Fs (fs_priv f) (alist_set (fs_dirs f) (root_dir (pk_up p)) (dir_of f (pk_up p)))) (TTrunc p)
  | TTrunc p => go (set_file f (pk_up p) (part_name (pk_up p) (pk_seq p)) []) (TFill p)
  | TFill p =>
      let n := part_name (pk_up p) (pk_seq p) in
      let f' := set_file f (pk_up p) n (write_at 0 (pk_data p) (get_file f (pk_up p) n)) in
      if negb (pk_seq p =? mp_sum (pk_up p)) then done f' OKept else go f' (TCheck (pk_up p))
  | TCheck m =>
      match fold_left (fun set p => filter (fun i => negb (i =? fst p)) set) (list_parts f m) (seq_set (mp_sum m)) with
      | [] => go f (TOpen m)
      | _ => done f OKept
      end
  | TOpen m => go f (TCreate m (map snd (sort_parts (list_parts f m))))
  | TCreate m names => go (set_file f m (full_name m) (get_file f m (full_name m))) (TCopy m names 0)
  | TCopy m [] _ => go f (TRead m)
  | TCopy m (n :: r) off =>
      let c := get_file f m n in
      go (set_file f m (full_name m) (write_at off c (get_file f m (full_name m)))) (TCopy m r (off + length c))
  | TRead m => done f (OWhole (get_file f m (full_name m)))
  end.

(** A goroutine that runs alone *)
Fixpoint steps (k : nat) (f : fs) (t : thread) : fs * thread :=
  match k with
  | O => (f, t)
  | S k' => let '(f', t') := thread_step f t in steps k' f' t'
  end.

(** Several goroutines under a schedule: the number of the one that moves next *)
Fixpoint interleave (sched : list nat) (f : fs) (ts : list thread) : fs * list thread :=
  match sched with
  | [] => (f, ts)
  | i :: r =>
      match nth_error ts i with
      | None => interleave r f ts
      | Some t => let '(f', t') := thread_step f t in interleave r f' (firstn i ts ++ t' :: skipn (S i) ts)
      end
  end.
