(** Entries of the file system that are visited while uploads are looked for. *)
From Verif Require Import Base Multipart.

(** filepath.Walk over the files of a directory, called at multipart.go:111-132: the number of calls of the function, and what [part_seq] finds.
    [walk_parts] with a counter *)
Fixpoint walk_files (m : mpf) (d : dir) : Z * list (Z * bytes) :=
  match d with
  | [] => (0, [])
  | nc :: t => let '(k, l) := walk_files m t in
               (1 + k, match part_seq m (fst nc) with Some s => (s, snd nc) :: l | None => l end)
  end.
(** walkParts, multipart.go:108-133: the directory itself is visited first *)
Definition walk_n (f : fs) (m : mpf) : res (Z * list (Z * bytes)) :=
  match alist_get (fs_dirs f) (root_dir m) with
  | None => Panic
  | Some d => let '(k, l) := walk_files m d in Ok (1 + k, l)
  end.
(** IsFull, multipart.go:37-48, with the counter *)
Definition is_full_n (f : fs) (m : mpf) : res (Z * bool) :=
  do (n, parts) <- walk_n f m ;
  let rest := fold_left (fun set p => filter (fun i => negb (i =? fst p)) set) parts (seq_set (mp_sum m)) in
  Ok (n, match rest with [] => true | _ => false end).
(** Merge, multipart.go:51-87, with the counter *)
Definition merge_n (f : fs) (m : mpf) : res (Z * bytes * fs) :=
  do (n, parts) <- walk_n f m ;
  match alist_get (fs_dirs f) (root_dir m) with
  | None => Panic
  | Some d =>
      let old := match alist_get d (full_name m) with Some c => c | None => [] end in
      let new := concat (map snd (sort_parts parts)) in
      let content := new ++ skipn (length new) old in
      Ok (n, content, Fs (fs_priv f) (alist_set (fs_dirs f) (root_dir m) (alist_set d (full_name m) content)))
  end.
(** A packet, session_handler.go:82-106: written, looked for if it is the last, merged if all are there *)
Definition packet_n (f : fs) (p : mpf * Z * bytes) : res (Z * fs) :=
  let '(m, s, data) := p in
  do f1 <- mp_write f m s data ;
  if negb (s =? mp_sum m) then Ok (0, f1)
  else do (n, full) <- is_full_n f1 m ;
       if full then do (k, _, f2) <- merge_n f1 m ; Ok (n + k, f2) else Ok (n, f1).
(** Packets one after the other, session_handler.go:34-108 *)
Fixpoint packets_n (f : fs) (ps : list (mpf * Z * bytes)) : res (Z * fs) :=
  match ps with
  | [] => Ok (0, f)
  | p :: t => do (n, f1) <- packet_n f p ; do (k, f2) <- packets_n f1 t ; Ok (n + k, f2)
  end.
