(** C190: which files count as parts of an upload. *)
From Verif Require Import Base Multipart SpecMulti SpecParts ProofParts DemoParts.

(** The parts found in a terminal's directory are exactly the files whose names count, with the numbers their names give. *)
Theorem C190_walk : forall f m d, 0 <= mp_msgid m -> files_of f (mp_icc m) d -> exists l, walk_parts f m = Ok l /\ gathers m d l.
Proof. exact walk_gathers. Qed.
Print Assumptions C190_walk.

(** A name counts as at most one number, and that is a 16-bit number. *)
Theorem C190_one : forall m name k k', counts m name k -> counts m name k' -> k = k' /\ is_u16 k.
Proof. exact counts_one. Qed.
Print Assumptions C190_one.

(** The upload is full exactly when for every number from 1 to the declared sum some file counts as it. *)
Theorem C190_full : forall f m d, 0 <= mp_msgid m -> files_of f (mp_icc m) d ->
  exists b, is_full f m = Ok b /\ (b = true <-> forall i, 1 <= i <= mp_sum m -> exists name data, In (name, data) d /\ counts m name i).
Proof. exact full_counts. Qed.
Print Assumptions C190_full.

(** A part just written is a file that counts as that part of that upload and as nothing else. *)
Theorem C190_stored : forall f m s data f', mpf_ok m -> is_u16 s -> NoDup (map fst (fs_dirs f)) -> mp_write f m s data = Ok f' ->
  exists d name, files_of f' (mp_icc m) d /\ In (name, data) d /\
    (forall m' k, 0 <= mp_msgid m' -> counts m' name k <-> mp_msgid m' = mp_msgid m /\ mp_tag m' = mp_tag m /\ k = s).
Proof. exact write_counts. Qed.
Print Assumptions C190_stored.

(** Files this package never writes count too: a number with a plus sign, no number at all, a tag too large by 2^32, a second extension, and a number beyond 64 bits. *)
Example C190_odd : counts up7 name_plus 3 /\ counts up7 name_x 0 /\ counts up7 name_tag 2 /\ counts up7 name_dots 1 /\ counts up7 name_long 65535 /\
  (forall k, ~ counts up7 name_zero k) /\ (forall k, ~ counts up7 name_full k).
Proof. exact odd_counts. Qed.
(** Three of them make an upload full of which nothing was ever received. *)
Example C190_odd_full : files_of odd_fs (mp_icc up7) odd_files /\ is_full odd_fs up7 = Ok true /\ walk_parts odd_fs up7 = Ok [(3, [2]); (0, [3]); (2, [4]); (1, [5]); (65535, [6])].
Proof. exact odd_full. Qed.
Example C190_write_case : mpf_ok up7 /\ NoDup (map fst (fs_dirs odd_fs)) /\ exists f', mp_write odd_fs up7 2 [9; 9] = Ok f'.
Proof. exact odd_write. Qed.
