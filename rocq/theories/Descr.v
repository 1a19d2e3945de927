(** File descriptors while a packet is handled: session_handler.go:81-112 with
    multipart.go:37-133, statement by statement as far as files are opened and
    closed.  Faults.v says what the failing calls do to the files; here they fail
    because the operating system refuses to open a file.

    Simplifications: of the descriptors only those of one packet are counted,
    others that are open are part of what the operating system decides by;
    creating directories and Lstat open nothing; handlers close what they open;
    a panic ends the process (Crash.v). *)
From Verif Require Import Base Multipart Overlap Faults.

(** Whether open(2) succeeds, by the number of descriptors held and of the calls
    made before; see os.OpenFile at multipart.go:54, 74, 86, ioutil.WriteFile at
    104 and filepath.Walk at 111. *)
Definition os := Z -> Z -> bool.
(** Descriptors held, the most that were held, and calls of open, multipart.go:51-133 *)
Record fds := Fds { fd_held : Z; fd_peak : Z; fd_calls : Z }.
(** Opening a file, multipart.go:54, 74, 86, 104, 111 *)
Definition fd_open (o : os) (t : fds) : fds * bool :=
  if o (fd_held t) (fd_calls t)
  then (Fds (fd_held t + 1) (Z.max (fd_peak t) (fd_held t + 1)) (fd_calls t + 1), true)
  else (Fds (fd_held t) (fd_peak t) (fd_calls t + 1), false).
(** Closing [k] files, multipart.go:62-66 and 78, session_handler.go:112 *)
Definition fd_close (k : Z) (t : fds) : fds := Fds (fd_held t - k) (fd_peak t) (fd_calls t).
(** A file or directory that is opened, used and closed: ioutil.WriteFile at
    multipart.go:104, the reading of names by filepath.Walk at 111 *)
Definition fd_once (o : os) (t : fds) : fds * bool :=
  let '(t1, ok) := fd_open o t in (if ok then fd_close 1 t1 else t1, ok).
(** The callback of Merge for each part, multipart.go:53-60: how many have been
    opened, and whether all *)
Fixpoint fd_parts (o : os) (t : fds) (k : Z) (parts : list (Z * bytes)) : fds * Z * bool :=
  match parts with
  | [] => (t, k, true)
  | _ :: l => let '(t1, ok) := fd_open o t in if ok then fd_parts o t1 (k + 1) l else (t1, k, false)
  end.

(** Merge, multipart.go:51-87: [cp] is the number of bytes after which io.Copy
    fails, if it does.  The deferred calls close the parts (62-66) and the full
    file (78); the file opened at 86 is returned open.  If the directory cannot
    be listed there are no parts: nothing is copied, the full file is created. *)
Definition merge_fd (o : os) (f : fs) (m : mpf) (cp : option nat) (t : fds) : res (fs * option bytes * fds) :=
  let '(t1, listed) := fd_once o t in
  do parts <- walk_io f m (if listed then KDone else KNoList) ;
  let '(t2, k, all) := fd_parts o t1 0 parts in
  if negb all then do (f', c) <- merge_io f m MNoPart ; Ok (f', c, fd_close k t2)
  else
    let '(t3, wr) := fd_open o t2 in
    if negb wr then do (f', c) <- merge_io f m MNoFull ; Ok (f', c, fd_close k t3)
    else
      match (if listed then cp else None) with
      | Some n => do (f', c) <- merge_io f m (MShort n) ; Ok (f', c, fd_close k (fd_close 1 t3))
      | None =>
          let '(t4, rdr) := fd_open o t3 in
          do (f', c) <- merge_io f m (if rdr then MWalk (if listed then KDone else KNoList) else if listed then MNoOpen else MShort 0) ;
          Ok (f', c, fd_close k (fd_close 1 t4))
      end.

(** The handling of a packet, session_handler.go:81-112; Write refused by
    permissions has not opened anything, multipart.go:99-101. *)
Definition packet_fd (o : os) (f : fs) (p : packet) (cp : option nat) (t : fds) : res (fs * outcome * fds) :=
  let '(t1, wrote) := if fs_priv f then fd_once o t else (t, false) in
  let '(f1, ok) := write_io f (pk_up p) (pk_seq p) (pk_data p) (if wrote then WDone else WNoFile) in
  if negb ok then Ok (f1, OFail, t1)
  else if negb (pk_seq p =? mp_sum (pk_up p)) then Ok (f1, OKept, t1)
  else
    let '(t2, listed) := fd_once o t1 in
    do full <- is_full_io f1 (pk_up p) (if listed then KDone else KNoList) ;
    if negb full then Ok (f1, OKept, t2)
    else
      do (f2c, t3) <- merge_fd o f1 (pk_up p) cp t2 ;
      let '(f2, c) := f2c in
      match c with
      | Some c => Ok (f2, OWhole c, fd_close 1 t3)
      | None => Ok (f2, OKept, t3)
      end.
