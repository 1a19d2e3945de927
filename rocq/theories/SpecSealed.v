(** What an encrypted body is on the wire: pieces, each padded and raised to a power as RFC 8017 asks, one after another. *)
From Verif Require Import Base SpecRsa SpecSha.

(** A text in pieces of [k] bytes; the last may be shorter, none is empty. *)
Inductive pieces (k : Z) : bytes -> list bytes -> Prop :=
| pieces_none : pieces k [] []
| pieces_last p : 0 < zlen p < k -> pieces k p [p]
| pieces_more p m ps : zlen p = k -> pieces k m ps -> pieces k (p ++ m) (p :: ps).

(** [c] is the piece [p] for the modulus [n] of [k] bytes and the exponent [e], padded with a seed. *)
Definition sealed_piece (n e k : Z) (seed p c : bytes) : Prop :=
  bytes_ok c /\ zlen c = k /\ exists em, encoding k seed p em /\ number c = number em ^ e mod n.
(** [c] is the text [d] in pieces, each padded with a seed of its own. *)
Definition sealed (n e k : Z) (seed : Z -> bytes) (d c : bytes) : Prop :=
  exists ps cs, pieces (k - 42) d ps /\ c = concat cs /\ length cs = length ps /\
    forall i, (i < length ps)%nat -> sealed_piece n e k (seed (Z.of_nat i)) (nth i ps []) (nth i cs []).

(** With the exponent [x], [c] is read as the piece [p]. *)
Definition opened_piece (n x k : Z) (c p : bytes) : Prop :=
  number c <= n /\ exists em seed, bytes_ok em /\ zlen em = k /\ number em = number c ^ x mod n /\
    bytes_ok seed /\ length seed = 20%nat /\ encoding k seed p em.
(** With the exponent [x], [c] is read as the text [d]. *)
Definition opened (n x k : Z) (c d : bytes) : Prop :=
  exists cs ps, pieces k c cs /\ d = concat ps /\ Forall2 (opened_piece n x k) cs ps.
