(** Which files of a directory count as parts of an upload, read off the names character by character, independently of how the names are taken apart. *)
From Verif Require Import Base Multipart.

(** Digits, and the number they are read as *)
Inductive numeral : bytes -> Z -> Prop :=
| num_one d : 0 <= d <= 9 -> numeral [48 + d] d
| num_more s n d : numeral s n -> 0 <= d <= 9 -> numeral (s ++ [48 + d]) (10 * n + d).
(** The usual way to write a number: without leading zeros *)
Definition usual (s : bytes) (n : Z) : Prop := numeral s n /\ (s = [48] \/ hd 0 s <> 48).

(** What characters without a sign are read as: their value, at most the largest signed 64-bit number; that number too where a beginning already exceeds
    64 bits, whatever follows; otherwise 0. *)
Inductive amounts : bytes -> Z -> Prop :=
| am_small s n : numeral s n -> n < 2 ^ 63 -> amounts s n
| am_large s n : numeral s n -> 2 ^ 63 <= n -> amounts s (2 ^ 63 - 1)
| am_excess p q n : numeral p n -> 2 ^ 64 <= n -> amounts (p ++ q) (2 ^ 63 - 1)
| am_none s : (forall n, ~ numeral s n) -> (forall p q n, s = p ++ q -> numeral p n -> n < 2 ^ 64) -> amounts s 0.
(** The same, where a plus sign may come first *)
Definition read_as (s : bytes) (v : Z) : Prop := (exists t, s = 43 :: t /\ amounts t v) \/ ((forall t, s <> 43 :: t) /\ amounts s v).

(** Neither a dot nor a dash *)
Definition unmarked (s : bytes) : Prop := ~ In 45 s /\ ~ In 46 s.
(** From the first dot on, the name of a part: ".part", or anything between that dot and a final ".part" *)
Definition part_end (t : bytes) : Prop := t = [46; 112; 97; 114; 116] \/ exists mid, t = 46 :: mid ++ [46; 112; 97; 114; 116].
(** A file of this name counts as part [k] of the upload: before the first dot there are three texts with dashes between them, the message ID as it is usually written,
    something read as the tag modulo 2^32, and something read as [k] modulo 2^16. *)
Definition counts (m : mpf) (name : bytes) (k : Z) : Prop :=
  exists a b c t x y, name = a ++ [45] ++ b ++ [45] ++ c ++ t /\ unmarked a /\ unmarked b /\ unmarked c /\ part_end t /\
    usual a (mp_msgid m) /\ read_as b x /\ x mod 2 ^ 32 = mp_tag m /\ read_as c y /\ k = y mod 2 ^ 16.
(** The parts found among some files: one for each file that counts, in the same order *)
Inductive gathers (m : mpf) : dir -> list (Z * bytes) -> Prop :=
| g_nil : gathers m [] []
| g_part name data d k l : counts m name k -> gathers m d l -> gathers m ((name, data) :: d) ((k, data) :: l)
| g_other name data d l : (forall k, ~ counts m name k) -> gathers m d l -> gathers m ((name, data) :: d) l.
(** The files of a terminal are [d]: those in the directory whose name is the terminal's number. *)
Definition files_of (f : fs) (icc : Z) (d : dir) : Prop := NoDup (map fst (fs_dirs f)) /\ exists name, usual name icc /\ In (name, d) (fs_dirs f).
