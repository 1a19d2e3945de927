(** multipart.go and the multipart branch of HandleSession with I/O errors,
    session_handler.go:79-112: the operating system may let any call fail.
    Multipart.v treats every call but the ones refused by permissions as
    successful.

    Simplifications: the packets are handled one after another (Overlap.v has the
    interleavings); a failing call has no effect but the one stated with the
    fault; reading the merged file by the handler does not fail. *)
From Verif Require Import Base Multipart Overlap.

(** What the operating system does to Write, multipart.go:97-105.
    [WDone]: nothing fails; [WNoDir]: MkdirAll fails, 99-101; [WNoFile]: the
    directory is there, WriteFile cannot open the file, 104; [WShort k]: WriteFile
    opens the file with O_TRUNC and O_CREATE and gets only [k] bytes written, 104. *)
Inductive write_fault := WDone | WNoDir | WNoFile | WShort (k : nat).
(** What it does to filepath.Walk in walkParts, multipart.go:108-135.
    [KDone]: nothing; [KNoList]: the directory cannot be listed: the callback gets
    the error with the FileInfo of the directory and returns nil at 112-114, which
    ends the walk without an error; [KGone]: Lstat of the directory or of a file in
    it fails: the callback gets a nil FileInfo and calls IsDir on it, 112. *)
Inductive walk_fault := KDone | KNoList | KGone.
(** What it does to Merge, multipart.go:51-87.
    [MWalk]: the walk at 53-60; [MNoPart]: a part cannot be opened, 54-57;
    [MNoFull]: the full file cannot be opened for writing, 74-77; [MShort k]:
    io.Copy fails when [k] bytes have been copied, 82-84; [MNoOpen]: the full file
    cannot be opened for reading, 86. *)
Inductive merge_fault := MWalk (k : walk_fault) | MNoPart | MNoFull | MShort (k : nat) | MNoOpen.

(** The faults met while a packet is handled: by Write, IsFull and Merge,
    session_handler.go:81, 92 and 96 *)
Record faults := Faults { io_write : write_fault; io_full : walk_fault; io_merge : merge_fault }.
(** No call fails, session_handler.go:81-96 *)
Definition no_faults : faults := Faults WDone KDone (MWalk KDone).

(** Write, multipart.go:97-105: the files, and whether there was no error.
    Without permission for directories of mode 0644 nothing is written, as in
    [mp_write]. *)
Definition write_io (f : fs) (m : mpf) (seq : Z) (data : bytes) (x : write_fault) : fs * bool :=
  let put d := Fs (fs_priv f) (alist_set (fs_dirs f) (root_dir m) d) in
  if negb (fs_priv f) then (f, false)
  else match x with
       | WDone => (put (alist_set (dir_of f m) (part_name m seq) data), true)
       | WNoDir => (f, false)
       | WNoFile => (put (dir_of f m), false)
       | WShort k => (put (alist_set (dir_of f m) (part_name m seq) (firstn k data)), false)
       end.

(** walkParts, multipart.go:108-135: the parts the callback is called for *)
Definition walk_io (f : fs) (m : mpf) (x : walk_fault) : res (list (Z * bytes)) :=
  match x with
  | KDone => walk_parts f m
  | KNoList => match alist_get (fs_dirs f) (root_dir m) with Some _ => Ok [] | None => Panic end
  | KGone => Panic
  end.

(** IsFull, multipart.go:37-48: the error of the walk is dropped *)
Definition is_full_io (f : fs) (m : mpf) (x : walk_fault) : res bool :=
  do parts <- walk_io f m x ;
  let rest := fold_left (fun set p => filter (fun i => negb (i =? fst p)) set) parts (seq_set (mp_sum m)) in
  Ok (match rest with [] => true | _ => false end).

(** Merge, multipart.go:51-87: the files, and the content of the file that is
    returned, none if there is an error.  The full file is opened without O_TRUNC. *)
Definition merge_io (f : fs) (m : mpf) (x : merge_fault) : res (fs * option bytes) :=
  do parts <- walk_io f m (match x with MWalk k => k | _ => KDone end) ;
  let old := match alist_get (dir_of f m) (full_name m) with Some c => c | None => [] end in
  let new := concat (map snd (sort_parts parts)) in
  let lay c := c ++ skipn (length c) old in
  let put c := Fs (fs_priv f) (alist_set (fs_dirs f) (root_dir m) (alist_set (dir_of f m) (full_name m) c)) in
  Ok (match x with
      | MWalk _ => (put (lay new), Some (lay new))
      | MNoPart | MNoFull => (f, None)
      | MShort k => (put (lay (firstn k new)), None)
      | MNoOpen => (put (lay new), None)
      end).

(** The handling of a packet, session_handler.go:81-112: answered with failure
    (82-89), kept, or the whole message is handed over (109-112).  A packet whose
    merge fails has been answered with success before, 91 and 97-104. *)
Definition packet_io (f : fs) (p : packet) (x : faults) : res (fs * outcome) :=
  let '(f1, ok) := write_io f (pk_up p) (pk_seq p) (pk_data p) (io_write x) in
  if negb ok then Ok (f1, OFail)
  else if negb (pk_seq p =? mp_sum (pk_up p)) then Ok (f1, OKept)
  else
    do full <- is_full_io f1 (pk_up p) (io_full x) ;
    if negb full then Ok (f1, OKept)
    else
      do (f2, c) <- merge_io f1 (pk_up p) (io_merge x) ;
      Ok (f2, match c with Some c => OWhole c | None => OKept end).

(** The packets a server receives one after another, session_handler.go:17-118 *)
Fixpoint io_run (f : fs) (h : list (packet * faults)) : res (fs * list outcome) :=
  match h with
  | [] => Ok (f, [])
  | (p, x) :: t =>
      do (f1, o) <- packet_io f p x ;
      do (f2, os) <- io_run f1 t ;
      Ok (f2, o :: os)
  end.
