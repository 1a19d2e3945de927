(** What becomes of one upload when calls of the operating system fail: numbered
    pieces and a merged content, without directories, names and sorting. *)
From Coq Require Import Sorted.
From Verif Require Import Base Multipart Overlap Faults SpecMulti.

Definition packet_ok (p : packet) : Prop := mpf_ok (pk_up p) /\ is_u16 (pk_seq p).
Definition attempt : Type := packet * faults.
Definition attempt_ok (a : attempt) : Prop := packet_ok (fst a).

(** What an attempt to write leaves in the file of the part; none if the file is not opened *)
Definition leaves (data : bytes) (w : write_fault) : option bytes :=
  match w with WDone => Some data | WShort k => Some (firstn k data) | WNoDir | WNoFile => None end.

(** The pieces in ascending order of their numbers, a later piece replacing an earlier one *)
Fixpoint put_piece (s : Z) (c : bytes) (l : list (Z * bytes)) : list (Z * bytes) :=
  match l with
  | [] => [(s, c)]
  | (s', c') :: t => if s =? s' then (s, c) :: t else if s <? s' then (s, c) :: l else (s', c') :: put_piece s c t
  end.
(** Every number 1..n has a piece. *)
Definition complete (n : Z) (l : list (Z * bytes)) : bool := forallb (fun i => existsb (fun p => fst p =? i) l) (upto n).

(** An upload: its pieces, and what the merges so far have left, if anything *)
Record upload := Upload { ul_pieces : list (Z * bytes); ul_full : option bytes }.
Definition new_upload : upload := Upload [] None.
(** What an attempt does to its own upload; none: the process dies *)
Definition merging (m : merge_fault) (u : upload) : option (upload * outcome) :=
  let old := match ul_full u with Some c => c | None => [] end in
  let all := concat (map snd (ul_pieces u)) in
  let left c := Upload (ul_pieces u) (Some c) in
  match m with
  | MWalk KDone => Some (left (over all old), OWhole (over all old))
  | MWalk KNoList => Some (left old, OWhole old)
  | MWalk KGone => None
  | MNoPart | MNoFull => Some (u, OKept)
  | MShort k => Some (left (over (firstn k all) old), OKept)
  | MNoOpen => Some (left (over all old), OKept)
  end.
Definition upload_step (u : upload) (a : attempt) : option (upload * outcome) :=
  let (p, x) := a in
  match leaves (pk_data p) (io_write x) with
  | None => Some (u, OFail)
  | Some c =>
      let u1 := Upload (put_piece (pk_seq p) c (ul_pieces u)) (ul_full u) in
      match io_write x with
      | WDone =>
          if negb (pk_seq p =? mp_sum (pk_up p)) then Some (u1, OKept)
          else match io_full x with
               | KGone => None
               | KNoList => if mp_sum (pk_up p) =? 0 then merging (io_merge x) u1 else Some (u1, OKept)
               | KDone => if complete (mp_sum (pk_up p)) (ul_pieces u1) then merging (io_merge x) u1 else Some (u1, OKept)
               end
      | _ => Some (u1, OFail)
      end
  end.
Fixpoint upload_run (u : upload) (h : list attempt) : option (upload * list outcome) :=
  match h with
  | [] => Some (u, [])
  | a :: t => match upload_step u a with
              | None => None
              | Some (u1, o) => match upload_run u1 t with None => None | Some (u2, os) => Some (u2, o :: os) end
              end
  end.

(** The attempts that belong to an upload, and their outcomes *)
Definition of_upload (m : mpf) (a : attempt) : bool := same_upload (pk_up (fst a)) m.
Definition own (m : mpf) (h : list attempt) : list attempt := filter (of_upload m) h.
Definition own_outcomes (m : mpf) (h : list attempt) (os : list outcome) : list outcome :=
  map snd (filter (fun ao => of_upload m (fst ao)) (combine h os)).

(** What the file of part [s] holds: what the last attempt left that opened it *)
Definition held (h : list attempt) (m : mpf) (s : Z) : option bytes :=
  fold_left (fun acc (a : attempt) =>
    if of_upload m a && (pk_seq (fst a) =? s) then
      match leaves (pk_data (fst a)) (io_write (snd a)) with Some c => Some c | None => acc end
    else acc) h None.
(** The attempt may have changed the merged file: it is the last packet of the upload and was written. *)
Definition may_merge (m : mpf) (a : attempt) : Prop :=
  of_upload m a = true /\ io_write (snd a) = WDone /\ pk_seq (fst a) = mp_sum (pk_up (fst a)).
(** The parts in the order of their numbers with what their files hold *)
Definition held_in_order (h : list attempt) (m : mpf) (l : list (Z * bytes)) : Prop :=
  StronglySorted (fun a b => fst a < fst b) l /\ forall s c, In (s, c) l <-> is_u16 s /\ held h m s = Some c.
(** The last packet of an upload is written, and the directory or a file of it is lost while it is walked. *)
Definition losing (a : attempt) : Prop :=
  io_write (snd a) = WDone /\ pk_seq (fst a) = mp_sum (pk_up (fst a)) /\ (io_full (snd a) = KGone \/ (io_full (snd a) <> KGone /\ io_merge (snd a) = MWalk KGone)).
