(** What the accesses to the key are measured by. *)
From Verif Require Import Base Env Message Codec PubKey.

(** The next statement of a goroutine stores the key: for some key in the field the field is another one afterwards. *)
Definition stores (env : Env) (s : kstate) (i : nat) : Prop := exists key, k_key (fst (kstep env (Kst key (k_at s)) (KMove i))) <> key.
(** The next statement of a goroutine loads the key: what it does next or observes depends on the field. *)
Definition loads (env : Env) (s : kstate) (i : nat) : Prop :=
  exists key key', k_at (fst (kstep env (Kst key (k_at s)) (KMove i))) i <> k_at (fst (kstep env (Kst key' (k_at s)) (KMove i))) i \/
    snd (kstep env (Kst key (k_at s)) (KMove i)) <> snd (kstep env (Kst key' (k_at s)) (KMove i)).
(** A goroutine has reported nothing. *)
Definition silent (i : nat) (evs : list kevent) : Prop := forall m r, ~ In (KWrote i m r) evs.
