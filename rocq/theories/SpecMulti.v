(** Multipart uploads, independently of files and their names. *)
From Coq Require Import Sorted.
From Verif Require Import Base Multipart.

(** The fields of a MultipartFile are in the range of their Go types. *)
Definition mpf_ok (m : mpf) : Prop := 0 <= mp_icc m < 2 ^ 64 /\ is_u16 (mp_msgid m) /\ is_u32 (mp_tag m) /\ is_u16 (mp_sum m).
(** An upload is identified by terminal, message ID and tag. *)
Definition same_upload (a b : mpf) : bool := (mp_icc a =? mp_icc b) && (mp_msgid a =? mp_msgid b) && (mp_tag a =? mp_tag b).

(** Calls of the multipart API that change files *)
Inductive mop := MWrite (m : mpf) (s : Z) (data : bytes) | MMerge (m : mpf).
Definition mop_ok (o : mop) : Prop := match o with MWrite m s _ => mpf_ok m /\ is_u16 s | MMerge m => mpf_ok m end.
(** A sequence of calls: the files, and what the merges returned (latest first) *)
Fixpoint mrun (f : fs) (outs : list (mpf * bytes)) (ops : list mop) : res (fs * list (mpf * bytes)) :=
  match ops with
  | [] => Ok (f, outs)
  | MWrite m s d :: t => do f' <- mp_write f m s d ; mrun f' outs t
  | MMerge m :: t => do (c, f') <- mp_merge f m ; mrun f' ((m, c) :: outs) t
  end.
Definition empty_fs : fs := Fs true [].

(** The data last written for part [s] of an upload *)
Definition written (ops : list mop) (m : mpf) (s : Z) : option bytes :=
  fold_left (fun acc o => match o with
                          | MWrite m' s' d => if same_upload m' m && (s' =? s) then Some d else acc
                          | MMerge _ => acc
                          end) ops None.
(** Something has been written for the terminal. *)
Definition touched (ops : list mop) (icc : Z) : Prop := exists m s d, In (MWrite m s d) ops /\ mp_icc m = icc.
(** What the latest merge of this upload returned *)
Fixpoint last_merge (outs : list (mpf * bytes)) (m : mpf) : option bytes :=
  match outs with
  | [] => None
  | (m', c) :: t => if same_upload m' m then Some c else last_merge t m
  end.
(** The parts of an upload in the order of their numbers *)
Definition parts_in_order (ops : list mop) (m : mpf) (l : list (Z * bytes)) : Prop :=
  StronglySorted (fun a b => fst a < fst b) l /\ forall s c, In (s, c) l <-> is_u16 s /\ written ops m s = Some c.
(** [new] laid over the beginning of [old] *)
Definition over (new old : bytes) : bytes := new ++ skipn (length new) old.

(** 1, 2, ..., n *)
Definition upto (n : Z) : list Z := map Z.of_nat (seq 1 (Z.to_nat n)).
(** All parts 1..Sum of an upload have been written. *)
Definition all_written (ops : list mop) (m : mpf) : Prop := forall i, 1 <= i <= mp_sum m -> written ops m i <> None.
(** Exactly the parts 1..Sum have been written. *)
Definition exactly_written (ops : list mop) (m : mpf) : Prop := forall i, is_u16 i -> written ops m i <> None <-> 1 <= i <= mp_sum m.
Definition data_of (ops : list mop) (m : mpf) (i : Z) : bytes := match written ops m i with Some c => c | None => [] end.
(** An operation on another upload *)
Definition foreign (m : mpf) (o : mop) : Prop := match o with MWrite m' _ _ => same_upload m' m = false | MMerge m' => same_upload m' m = false end.
(** Every merge comes after some write for the same terminal. *)
Definition merges_after_writes (ops : list mop) : Prop := forall pre m post, ops = pre ++ MMerge m :: post -> touched pre (mp_icc m).

(** The content of a merged file, without files: all parts in order, over what
    the previous merge of the upload gave. *)
Inductive merged : list mop -> mpf -> bytes -> Prop :=
| merged_first h m l : Forall (fun o => match o with MMerge m' => same_upload m' m = false | _ => True end) h ->
    parts_in_order h m l -> merged h m (concat (map snd l))
| merged_again h m' h2 m l old : same_upload m' m = true ->
    Forall (fun o => match o with MMerge m' => same_upload m' m = false | _ => True end) h2 ->
    merged h m old -> parts_in_order (h ++ MMerge m' :: h2) m l ->
    merged (h ++ MMerge m' :: h2) m (over (concat (map snd l)) old).
