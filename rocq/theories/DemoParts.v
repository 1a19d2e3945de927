(** Names of files that are, or are not, parts of the upload with tag 7 of message 0x0040 by terminal 5. *)
From Verif Require Import Base LibBase Bcd Multipart SpecMulti SpecParts ProofParts.
Definition up7 : mpf := Mpf 5 64 7 3.
(** "64-7-+3.part" *)
Definition name_plus : bytes := [54; 52; 45; 55; 45; 43; 51; 46; 112; 97; 114; 116].
(** "64-7-x.part" *)
Definition name_x : bytes := [54; 52; 45; 55; 45; 120; 46; 112; 97; 114; 116].
(** "64-4294967303-2.part" *)
Definition name_tag : bytes := [54; 52; 45; 52; 50; 57; 52; 57; 54; 55; 51; 48; 51; 45; 50; 46; 112; 97; 114; 116].
(** "64-7-1.x.part" *)
Definition name_dots : bytes := [54; 52; 45; 55; 45; 49; 46; 120; 46; 112; 97; 114; 116].
(** "064-7-1.part" *)
Definition name_zero : bytes := [48; 54; 52; 45; 55; 45; 49; 46; 112; 97; 114; 116].
(** "64-7-99999999999999999999x.part" *)
Definition name_long : bytes := [54; 52; 45; 55; 45] ++ repeat 57 20 ++ [120; 46; 112; 97; 114; 116].
(** "64-7.full" *)
Definition name_full : bytes := [54; 52; 45; 55; 46; 102; 117; 108; 108].
Definition odd_files : dir := [(name_zero, [1]); (name_plus, [2]); (name_x, [3]); (name_tag, [4]); (name_dots, [5]); (name_long, [6]); (name_full, [7])].
Definition odd_fs : fs := Fs true [([53], odd_files)].
Lemma up7_msg : 0 <= mp_msgid up7. Proof. cbn. lia. Qed.
Lemma odd_counts : counts up7 name_plus 3 /\ counts up7 name_x 0 /\ counts up7 name_tag 2 /\ counts up7 name_dots 1 /\ counts up7 name_long 65535 /\
  (forall k, ~ counts up7 name_zero k) /\ (forall k, ~ counts up7 name_full k).
Proof.
  repeat match goal with |- _ /\ _ => split end; try (apply part_seq_counts; [exact up7_msg|vm_compute; reflexivity]); apply part_seq_none; try exact up7_msg; vm_compute; reflexivity.
Qed.
Lemma odd_of : files_of odd_fs (mp_icc up7) odd_files.
Proof. split; [repeat constructor; intros []|]. exists [53]. split; [|left; reflexivity]. split; [apply (num_one 5); lia|right; cbn; lia]. Qed.
Lemma odd_full : files_of odd_fs (mp_icc up7) odd_files /\ is_full odd_fs up7 = Ok true /\ walk_parts odd_fs up7 = Ok [(3, [2]); (0, [3]); (2, [4]); (1, [5]); (65535, [6])].
Proof. split; [exact odd_of|]. split; vm_compute; reflexivity. Qed.
Lemma odd_write : mpf_ok up7 /\ NoDup (map fst (fs_dirs odd_fs)) /\ exists f', mp_write odd_fs up7 2 [9; 9] = Ok f'.
Proof. split; [unfold mpf_ok, is_u16, is_u32; cbn; lia|]. split; [repeat constructor; intros []|]. eexists. vm_compute. reflexivity. Qed.
