(** multipart.go over a file system: directory name -> (file name -> content).
    Only directories below os.TempDir()/go808 and only files made by this API
    exist; I/O errors other than missing permissions are not modelled. *)
From Verif Require Import Base Bcd.

(** A directory: file names (characters) and contents. *)
Definition dir := list (bytes * bytes).
(** [fs_dirs]: directories below TempDir/go808 by name; [fs_priv]: the process
    may use a directory whose mode is 0644, i.e. without the x bit (root may). *)
Record fs := Fs { fs_priv : bool; fs_dirs : list (bytes * dir) }.

(** Go string equality *)
Fixpoint beq (a b : bytes) : bool :=
  match a, b with
  | [], [] => true
  | x :: s, y :: t => (x =? y) && beq s t
  | _, _ => false
  end.
(** lookup of a file or directory by name (the file system is modelled, see the header) *)
Fixpoint alist_get {A} (l : list (bytes * A)) (k : bytes) : option A :=
  match l with
  | [] => None
  | (k', v) :: t => if beq k' k then Some v else alist_get t k
  end.
(** creating or replacing a file by name, multipart.go:97-105 *)
Fixpoint alist_set {A} (l : list (bytes * A)) (k : bytes) (v : A) : list (bytes * A) :=
  match l with
  | [] => [(k, v)]
  | (k', v') :: t => if beq k' k then (k, v) :: t else (k', v') :: alist_set t k v
  end.

(** MultipartFile, multipart.go:29-34 *)
Record mpf := Mpf { mp_icc : Z; mp_msgid : Z; mp_tag : Z; mp_sum : Z }.

(** the separator of part names, multipart.go:97-105 *)
Definition dash : Z := 45.
(** the separator before the extension, multipart.go:97-105 *)
Definition dot : Z := 46.
Definition s_part : bytes := [46; 112; 97; 114; 116].          (* ".part" *)
Definition s_full : bytes := [46; 102; 117; 108; 108].         (* ".full" *)

(** rootDir, multipart.go:90-94 (the last path element) *)
Definition root_dir (m : mpf) : bytes := format_uint (mp_icc m).
(** multipart.go:103 *)
Definition part_name (m : mpf) (seq : Z) : bytes :=
  format_uint (mp_msgid m) ++ [dash] ++ format_uint (mp_tag m) ++ [dash] ++ format_uint seq ++ s_part.
(** multipart.go:73 *)
Definition full_name (m : mpf) : bytes :=
  format_uint (mp_msgid m) ++ [dash] ++ format_uint (mp_tag m) ++ s_full.

(** filepath.Ext: from the last dot on, or empty *)
Fixpoint ext (s : bytes) : bytes :=
  match s with
  | [] => []
  | c :: t => match ext t with
              | [] => if c =? dot then s else []
              | e => e
              end
  end.

(** strings.Split(s, sep) for a one-character separator *)
Fixpoint split_on (sep : Z) (s : bytes) : list bytes :=
  match s with
  | [] => [[]]
  | c :: t => if c =? sep then [] :: split_on sep t
              else match split_on sep t with
                   | h :: r => (c :: h) :: r
                   | [] => [[c]]
                   end
  end.

(** strconv.Atoi with the error ignored, called at multipart.go:125 and :130: 0 on a syntax error, 2^63-1 when out of range.  The characters are read one by one, and
    reading ends with the range error as soon as the number exceeds 64 bits, whatever follows (an element of the split contains no minus sign). *)
Fixpoint atoi_from (n : Z) (s : bytes) : Z :=
  match s with
  | [] => Z.min n 9223372036854775807
  | c :: t =>
      if is_digit_char c then
        if 18446744073709551615 <? n * 10 + (c - 48) then 9223372036854775807 else atoi_from (n * 10 + (c - 48)) t
      else 0
  end.
(** strconv.Atoi, called at multipart.go:125 and :130 *)
Definition atoi (s : bytes) : Z :=
  match (match s with c :: t => if c =? 43 then t else s | [] => s end) with
  | [] => 0
  | s' => atoi_from 0 s'
  end.

(** The callback of walkParts, multipart.go:111-132, on one file name: the
    sequence number if the file is a part of this upload *)
Definition part_seq (m : mpf) (name : bytes) : option Z :=
  if negb (beq (ext name) s_part) then None
  else match split_on dash (hd [] (split_on dot name)) with
       | [a; b; c] =>
           if negb (beq a (format_uint (mp_msgid m))) then None
           else if negb (u32 (atoi b) =? mp_tag m) then None
           else Some (u16 (atoi c))
       | _ => None
       end.

(** walkParts, multipart.go:108-133: (sequence number, content) of every part.
    filepath.Walk visits the files in name order, here in directory order; the
    callers are insensitive to that order (IsFull) or sort (Merge).  A missing
    directory makes Walk call the callback with a nil FileInfo: line 112 panics. *)
Definition walk_parts (f : fs) (m : mpf) : res (list (Z * bytes)) :=
  match alist_get (fs_dirs f) (root_dir m) with
  | None => Panic
  | Some d =>
      Ok (concat (map (fun nc => match part_seq m (fst nc) with
                                 | Some s => [(s, snd nc)]
                                 | None => []
                                 end) d))
  end.

(** multipart.go:38-41: the set 1..Sum *)
Definition seq_set (sum : Z) : list Z := map Z.of_nat (seq 1 (Z.to_nat sum)).

(** IsFull, multipart.go:37-48 *)
Definition is_full (f : fs) (m : mpf) : res bool :=
  do parts <- walk_parts f m ;
  let rest := fold_left (fun set p => filter (fun i => negb (i =? fst p)) set) parts (seq_set (mp_sum m)) in
  Ok (match rest with [] => true | _ => false end).

(** Write, multipart.go:97-105: MkdirAll creates missing directories with mode
    0644, which an unprivileged process cannot enter; WriteFile truncates. *)
Definition mp_write (f : fs) (m : mpf) (seq : Z) (data : bytes) : res fs :=
  if negb (fs_priv f) then Err ErrOther
  else
    let d := match alist_get (fs_dirs f) (root_dir m) with Some d => d | None => [] end in
    Ok (Fs (fs_priv f) (alist_set (fs_dirs f) (root_dir m) (alist_set d (part_name m seq) data))).

(** sort.Sort by seq, multipart.go:24-26, 80 *)
Fixpoint insert_part (p : Z * bytes) (l : list (Z * bytes)) : list (Z * bytes) :=
  match l with
  | [] => [p]
  | q :: t => if fst q <? fst p then q :: insert_part p t else p :: l
  end.
(** sort.Sort(partFileSlice), multipart.go:22-26 and 51-87 *)
Definition sort_parts (l : list (Z * bytes)) : list (Z * bytes) := fold_right insert_part [] l.

(** Merge, multipart.go:51-87: the content of the file that is returned, and the
    file system.  The file is opened without O_TRUNC: bytes beyond the new
    content stay. *)
Definition mp_merge (f : fs) (m : mpf) : res (bytes * fs) :=
  do parts <- walk_parts f m ;
  match alist_get (fs_dirs f) (root_dir m) with
  | None => Panic
  | Some d =>
      let old := match alist_get d (full_name m) with Some c => c | None => [] end in
      let new := concat (map snd (sort_parts parts)) in
      let content := new ++ skipn (length new) old in
      Ok (content, Fs (fs_priv f) (alist_set (fs_dirs f) (root_dir m) (alist_set d (full_name m) content)))
  end.
