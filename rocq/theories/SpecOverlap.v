(** Overlapping uploads, specification. *)
From Verif Require Import Base Multipart Overlap SpecMulti.

(** A packet with fields in the range of their types *)
Definition packet_ok (p : packet) : Prop := mpf_ok (pk_up p) /\ is_u16 (pk_seq p).
(** Goroutines that have not begun *)
Definition fresh (ps : list packet) : thread := Thread ps TIdle [].
(** No upload is received on two connections. *)
Definition apart (pss : list (list packet)) : Prop :=
  forall i j a b p q, nth_error pss i = Some a -> nth_error pss j = Some b -> i <> j -> In p a -> In q b ->
    same_upload (pk_up p) (pk_up q) = false.
(** How often a goroutine moves *)
Definition moves (i : nat) (sched : list nat) : nat := count_occ Nat.eq_dec sched i.
(** Names are unique in every directory. *)
Definition fs_ok (f : fs) : Prop := forall r d, alist_get (fs_dirs f) r = Some d -> NoDup (map fst d).

(** A packet handled in one step, in terms of the calls of multipart.go *)
Definition at_once (f : fs) (p : packet) (f' : fs) (o : outcome) : Prop :=
  match mp_write f (pk_up p) (pk_seq p) (pk_data p) with
  | Ok f1 =>
      if pk_seq p =? mp_sum (pk_up p) then
        exists full, is_full f1 (pk_up p) = Ok full /\
        if full then exists c, mp_merge f1 (pk_up p) = Ok (c, f') /\ o = OWhole c
        else f' = f1 /\ o = OKept
      else f' = f1 /\ o = OKept
  | _ => f' = f /\ o = OFail
  end.
(** Packets one after the other *)
Inductive in_turn : fs -> list packet -> fs -> list outcome -> Prop :=
| TurnEnd f : in_turn f [] f []
| TurnNext f p f1 o ps f2 os : at_once f p f1 o -> in_turn f1 ps f2 os -> in_turn f (p :: ps) f2 (o :: os).

(** The connections receive packets in this order: the numbers of the connections, and the packets *)
Inductive served : list (list packet) -> list nat -> list packet -> Prop :=
| ServedEnd pss : served pss [] []
| ServedNext a p r b order ps : served (a ++ r :: b) order ps -> served (a ++ (p :: r) :: b) (length a :: order) (p :: ps).
(** The outcomes of one connection *)
Definition picked (i : nat) (order : list nat) (os : list outcome) : list outcome :=
  map snd (filter (fun x => Nat.eqb (fst x) i) (combine order os)).
(** No files yet, and the permission to use the directories *)
Definition root_fs : fs := Fs true [].
