(** What uploads leave in the file system, counted from the calls alone. *)
From Verif Require Import Base Multipart SpecMulti.

(** Terminal, message ID, tag and number of the parts written *)
Definition part_keys (ops : list mop) : list (Z * Z * Z * Z) :=
  concat (map (fun o => match o with MWrite m s _ => [(mp_icc m, mp_msgid m, mp_tag m, s)] | MMerge _ => [] end) ops).
(** Terminal, message ID and tag of the uploads merged *)
Definition full_keys (ops : list mop) : list (Z * Z * Z) :=
  concat (map (fun o => match o with MWrite _ _ _ => [] | MMerge m => [(mp_icc m, mp_msgid m, mp_tag m)] end) ops).
(** Equality of keys can be decided. *)
Definition part_dec : forall a b : Z * Z * Z * Z, {a = b} + {a <> b}.
Proof. repeat decide equality. Defined.
Definition full_dec : forall a b : Z * Z * Z, {a = b} + {a <> b}.
Proof. repeat decide equality. Defined.
(** The bytes of a part, and of a merged upload *)
Definition part_size (ops : list mop) (k : Z * Z * Z * Z) : Z :=
  let '(i, g, t, s) := k in match written ops (Mpf i g t 0) s with Some c => zlen c | None => 0 end.
Definition full_size (outs : list (mpf * bytes)) (k : Z * Z * Z) : Z :=
  let '(i, g, t) := k in match last_merge outs (Mpf i g t 0) with Some c => zlen c | None => 0 end.
Definition total (l : list Z) : Z := fold_right Z.add 0 l.

(** The files of all directories, and their bytes *)
Definition files (f : fs) : Z := total (map (fun nd => zlen (snd nd)) (fs_dirs f)).
Definition volume (f : fs) : Z := total (map (fun nd => total (map (fun nc => zlen (snd nc)) (snd nd))) (fs_dirs f)).
(** There is a file of this name in this directory. *)
Definition there (f : fs) (dn n : bytes) : Prop := exists d c, In (dn, d) (fs_dirs f) /\ In (n, c) d.
(** Every upload written to has been merged after its last part came. *)
Definition at_rest (ops : list mop) : Prop := forall pre m s d post, ops = pre ++ MWrite m s d :: post -> exists m', In (MMerge m') post /\ same_upload m' m = true.
