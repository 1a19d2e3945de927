(** Serial numbers and pending requests under every interleaving. *)
From Coq Require Import Permutation.
From Verif Require Import Base LibBase Bits Env EntTerm EntPlat Registry Message Session SpecSession Demo.

(** ** nextID *)
Lemma serial_range k : 1 <= serial k <= 255.
Proof. unfold serial. pose proof (Nat.mod_upper_bound k 255). lia. Qed.
Lemma serial_next k : next_serial (serial k) = serial (S k).
Proof.
  unfold next_serial, serial. pose proof (Nat.div_mod_eq k 255). pose proof (Nat.mod_upper_bound k 255 ltac:(discriminate)).
  destruct (Z.eqb_spec (Z.of_nat (k mod 255) + 1) 255).
  - assert (E : (S k mod 255 = 0)%nat). { symmetry. apply (Nat.mod_unique (S k) 255 (S (k / 255))); lia. } rewrite E. reflexivity.
  - assert (E : (S k mod 255 = S (k mod 255))%nat). { symmetry. apply (Nat.mod_unique (S k) 255 (k / 255)); lia. } rewrite E. lia.
Qed.
Lemma serial_inj i j : (i <= j < i + 255)%nat -> serial i = serial j -> i = j.
Proof.
  unfold serial. intros. pose proof (Nat.div_mod_eq i 255). pose proof (Nat.div_mod_eq j 255). assert ((i mod 255 = j mod 255)%nat) by lia.
  assert (i / 255 = j / 255)%nat; [|lia]. pose proof (Nat.mod_upper_bound i 255 ltac:(discriminate)). nia.
Qed.
(** Serial numbers handed out, latest first. *)
Fixpoint countdown (k : nat) : list Z := match k with O => [] | S j => serial j :: countdown j end.
Definition last_drawn (l : list Z) : Z := match l with [] => 0 | n :: _ => n end.
Lemma countdown_next k : next_serial (last_drawn (countdown k)) = serial k.
Proof. destruct k; [reflexivity|]. apply serial_next. Qed.
Definition ninv (c : ncfg) : Prop := map snd (n_out c) = countdown (length (n_out c)) /\ n_next c = last_drawn (map snd (n_out c)).
Lemma nstep_inv c i : ninv c -> ninv (nstep c i).
Proof.
  intros (A & B). unfold nstep. destruct (nth_error (n_threads c) i) as [[|id]|]; [split; auto| |split; auto].
  destruct (Z.eqb_spec (n_next c) id); [|split; auto]. subst id. split; cbn [n_out n_next map snd length countdown last_drawn]; auto.
  rewrite B, A, countdown_next. reflexivity.
Qed.
Lemma nrun_inv sched : forall c, ninv c -> ninv (nrun c sched).
Proof. induction sched; cbn; intros; auto. apply IHsched, nstep_inv; auto. Qed.
Lemma countdown_nth n k : (k < n)%nat -> nth_error (rev (countdown n)) k = Some (serial k).
Proof.
  induction n; intros H; [lia|]. cbn [countdown rev]. assert (L : length (rev (countdown n)) = n). { rewrite rev_length. clear. induction n; cbn; lia. }
  destruct (Nat.eq_dec k n) as [->|]; [rewrite nth_error_app2, L, Nat.sub_diag by lia; reflexivity|]. rewrite nth_error_app1 by lia. apply IHn. lia.
Qed.
(** C30: the k-th serial number handed out, whoever gets it. *)
Lemma serials threads sched k i n : nth_error (rev (n_out (nrun (NCfg 0 (repeat NLoad threads) []) sched))) k = Some (i, n) -> n = serial k.
Proof.
  set (c := nrun _ sched). intros H. assert (I : ninv c) by (apply nrun_inv; split; reflexivity). destruct I as (A & _).
  assert (K : (k < length (n_out c))%nat) by (rewrite <- rev_length; apply nth_error_Some; congruence).
  pose proof (countdown_nth _ _ K) as C. rewrite <- A, <- map_rev, nth_error_map, H in C. cbn in C. congruence.
Qed.

(** ** Progress of nextID: a failed attempt means that another call succeeded. *)
Definition is_stale (next : Z) (t : nthread) : bool := match t with NCas id => negb (next =? id) | NLoad => false end.
Definition stale (next : Z) (l : list nthread) : nat := length (filter (is_stale next) l).
Lemma stale_le next l : (stale next l <= length l)%nat.
Proof. unfold stale. induction l; cbn; [lia|]. destruct (is_stale next a); cbn; lia. Qed.
Lemma set_thread_len l : forall i x, length (set_thread l i x) = length l.
Proof. induction l; intros [|i] x; cbn; auto. Qed.
Lemma stale_set next l : forall i x y, nth_error l i = Some x ->
  (stale next (set_thread l i y) + (if is_stale next x then 1 else 0) =
   stale next l + (if is_stale next y then 1 else 0))%nat.
Proof.
  unfold stale. induction l as [|a l IH]; intros [|i] x y H; try discriminate; cbn [set_thread filter].
  - injection H as ->. destruct (is_stale next x), (is_stale next y); cbn [length]; lia.
  - specialize (IH i x y H). destruct (is_stale next a); cbn [length]; lia.
Qed.
Lemma nstep_len c i : length (n_threads (nstep c i)) = length (n_threads c).
Proof.
  unfold nstep. destruct (nth_error (n_threads c) i) as [[|id]|]; auto; [apply set_thread_len|]. destruct (_ =? _); apply set_thread_len.
Qed.
Lemma nfails_bound sched : forall c, (nfails c sched + stale (n_next (nrun c sched)) (n_threads (nrun c sched)) + length (n_threads c) * length (n_out c) <=
  length (n_threads c) * length (n_out (nrun c sched)) + stale (n_next c) (n_threads c))%nat.
Proof.
  induction sched as [|i sched IH]; intros c; cbn [nfails nrun fold_left]; [lia|]. specialize (IH (nstep c i)). rewrite nstep_len in IH. unfold nrun in *.
  set (r := fold_left nstep sched (nstep c i)) in *. clearbody r. 
  enough ((if fails_at c i then 1 else 0) + stale (n_next (nstep c i)) (n_threads (nstep c i)) + length (n_threads c) * length (n_out c) <=
    length (n_threads c) * length (n_out (nstep c i)) + stale (n_next c) (n_threads c))%nat by (destruct (fails_at c i); lia).
  clear IH r. unfold fails_at, nstep. destruct (nth_error (n_threads c) i) as [[|id]|] eqn:E; try lia.
  - cbn [n_next n_threads n_out]. pose proof (stale_set (n_next c) _ i NLoad (NCas (n_next c)) E) as S. cbn [is_stale] in S. rewrite Z.eqb_refl in S. cbn [negb] in S. lia.
  - destruct (Z.eqb_spec (n_next c) id); cbn [negb n_next n_threads n_out length].
    + pose proof (stale_le (next_serial id) (set_thread (n_threads c) i NLoad)) as L. rewrite set_thread_len in L. nia.
    + pose proof (stale_set (n_next c) _ i (NCas id) NLoad E) as S. cbn [is_stale] in S. replace (n_next c =? id) with false in S by lia. cbn [negb] in S. lia.
Qed.
Lemma stale_loads next n : stale next (repeat NLoad n) = O. Proof. unfold stale. induction n; cbn; auto. Qed.
Lemma lock_free threads sched : let c0 := NCfg 0 (repeat NLoad threads) [] in
  (nfails c0 sched <= threads * length (n_out (nrun c0 sched)))%nat.
Proof.
  intros c0. pose proof (nfails_bound sched c0) as H. assert (S : stale (n_next c0) (n_threads c0) = O) by apply stale_loads.
  assert (L : length (n_threads c0) = threads) by apply repeat_length. rewrite S, L in H. assert (O : n_out c0 = []) by reflexivity. rewrite O in H. cbn [length] in H. lia.
Qed.
