(** Uploads under faults and crashes, specification: what the files of an upload hold, from what happened. *)
From Coq Require Import Sorted.
From Verif Require Import Base Multipart Overlap SpecMulti Crash.

(** A packet with fields in the range of their types *)
Definition bop_ok (o : bop) : Prop :=
  match o with BConnect ps => Forall (fun p => mpf_ok (pk_up p) /\ is_u16 (pk_seq p)) ps | _ => True end.

(** [new] written into [old] from byte [off] on; a gap is filled with zeros *)
Definition patched (off : nat) (new old : bytes) : bytes :=
  firstn off (old ++ repeat 0 off) ++ new ++ skipn (off + length new) old.

(** The file of part [i] of an upload: none if it was never opened *)
Definition part_of (hs : list (nat * happening)) (m : mpf) (i : Z) : option bytes :=
  fold_left (fun acc h => match snd h with
    | HOpen m' i' => if same_upload m' m && (i' =? i) then Some [] else acc
    | HWrite m' i' d _ => if same_upload m' m && (i' =? i) then Some (over d (match acc with Some c => c | None => [] end)) else acc
    | _ => acc
    end) hs None.
(** The full file of an upload; empty if there is none *)
Definition full_of (hs : list (nat * happening)) (m : mpf) : bytes :=
  fold_left (fun acc h => match snd h with
    | HLay m' off d => if same_upload m' m then patched off d acc else acc
    | _ => acc
    end) hs [].

(** It changes the file of the part *)
Definition writes (m : mpf) (i : Z) (h : happening) : Prop :=
  match h with
  | HOpen m' i' | HWrite m' i' _ _ => same_upload m' m = true /\ i' = i
  | _ => False
  end.
(** It changes a file of the upload *)
Definition changes (m : mpf) (h : happening) : Prop :=
  match h with
  | HOpen m' _ | HWrite m' _ _ _ | HLay m' _ _ => same_upload m' m = true
  | _ => False
  end.
(** The latest packet of the part was written undisturbed, whole, and answered with success. *)
Definition settled_part (hs : list (nat * happening)) (m : mpf) (i : Z) (d : bytes) : Prop :=
  exists a j m1 b m2 c, hs = a ++ (j, HOpen m1 i) :: b ++ (j, HWrite m2 i d true) :: c /\
    same_upload m1 m = true /\ same_upload m2 m = true /\
    (forall h, In h (b ++ c) -> ~ writes m i (snd h)).
(** The parts of an upload in the order of their numbers *)
Definition parts_sorted (hs : list (nat * happening)) (m : mpf) (l : list (Z * bytes)) : Prop :=
  StronglySorted (fun a b => fst a < fst b) l /\ forall s c, In (s, c) l <-> is_u16 s /\ part_of hs m s = Some c.

(** All packets of an upload, in order, from number [k] on *)
Fixpoint packets_from (m : mpf) (k : Z) (ds : list bytes) : list packet :=
  match ds with [] => [] | d :: r => Packet m k d :: packets_from m (k + 1) r end.
(** The parts of an upload after all its packets were sent again *)
Definition parts_again (hs : list (nat * happening)) (m : mpf) (ds : list bytes) (l : list (Z * bytes)) : Prop :=
  StronglySorted (fun a b => fst a < fst b) l /\
  forall s c, In (s, c) l <-> is_u16 s /\ if (1 <=? s) && (s <=? zlen ds) then nth_error ds (Z.to_nat (s - 1)) = Some c else part_of hs m s = Some c.
