(** Overlapping uploads do not disturb each other. *)
From Verif Require Import Base LibBase Bcd LibBcd Multipart LibMulti SpecMulti ProofMulti Overlap SpecOverlap.

(** ** The files of an upload *)
Definition belongs (m : mpf) (n : bytes) : bool := match part_seq m n with Some _ => true | None => beq n (full_name m) end.
Definition mine (m : mpf) (f : fs) : dir := filter (fun e => belongs m (fst e)) (dir_of f m).

Lemma filter_set (P : bytes -> bool) (l : dir) n c :
  filter (fun e => P (fst e)) (alist_set l n c) = if P n then alist_set (filter (fun e => P (fst e)) l) n c else filter (fun e => P (fst e)) l.
Proof.
  induction l as [|[k v] l IH]; cbn [alist_set filter fst].
  - destruct (P n); reflexivity.
  - destruct (beq_spec k n) as [->|N]; cbn [filter fst].
    + destruct (P n); [|reflexivity]. cbn [alist_set]. rewrite beq_refl. reflexivity.
    + rewrite IH. destruct (P k) eqn:K, (P n); auto. cbn [alist_set]. destruct (beq_spec k n); [contradiction|reflexivity].
Qed.
Lemma filter_get (P : bytes -> bool) (l : dir) n : P n = true -> alist_get (filter (fun e => P (fst e)) l) n = alist_get l n.
Proof.
  intros H. induction l as [|[k v] l IH]; [reflexivity|]. cbn [filter fst alist_get]. destruct (P k) eqn:K; cbn [alist_get]; destruct (beq_spec k n) as [->|N]; auto. congruence.
Qed.
Lemma dir_set f m n c m' : dir_of (set_file f m n c) m' = if beq (root_dir m) (root_dir m') then alist_set (dir_of f m') n c else dir_of f m'.
Proof.
  unfold dir_of at 1, set_file. cbn [fs_dirs]. rewrite alist_get_set. destruct (beq_spec (root_dir m) (root_dir m')) as [E|]; [|reflexivity].
  unfold dir_of. rewrite E. reflexivity.
Qed.
Lemma mine_set f m n c m' : mine m' (set_file f m n c) = if beq (root_dir m) (root_dir m') && belongs m' n then alist_set (mine m' f) n c else mine m' f.
Proof.
  unfold mine. rewrite dir_set. destruct (beq (root_dir m) (root_dir m')); cbn [andb]; [|reflexivity]. apply (filter_set (belongs m')).
Qed.
Lemma mine_mkdir f m m' : mine m' (Fs (fs_priv f) (alist_set (fs_dirs f) (root_dir m) (dir_of f m))) = mine m' f.
Proof.
  unfold mine, dir_of at 1. cbn [fs_dirs]. rewrite alist_get_set. destruct (beq_spec (root_dir m) (root_dir m')) as [E|]; [|reflexivity].
  unfold dir_of. rewrite E. reflexivity.
Qed.
Lemma mine_get f m n : belongs m n = true -> get_file f m n = match alist_get (mine m f) n with Some c => c | None => [] end.
Proof. intros B. unfold get_file, mine. rewrite (filter_get (belongs m)) by exact B. reflexivity. Qed.
Lemma mine_parts f m : list_parts f m = concat (map (fun nc => match part_seq m (fst nc) with Some s => [(s, fst nc)] | None => [] end) (mine m f)).
Proof.
  unfold list_parts, mine. induction (dir_of f m) as [|[n c] d IH]; [reflexivity|]. cbn [map concat filter fst]. rewrite IH. unfold belongs at 1 2. destruct (part_seq m n) eqn:P.
  - cbn [map concat fst]. rewrite P. reflexivity.
  - destruct (beq n (full_name m)); [|reflexivity]. cbn [map concat fst]. rewrite P. reflexivity.
Qed.
Lemma belongs_part m s : mpf_ok m -> is_u16 s -> belongs m (part_name m s) = true.
Proof.
  intros (_ & I & T & _) S. unfold belongs, is_u16, is_u32 in *. rewrite part_seq_part by lia. rewrite !Z.eqb_refl. reflexivity.
Qed.
Lemma belongs_full m : belongs m (full_name m) = true.
Proof. unfold belongs. destruct (part_seq m (full_name m)); [reflexivity|apply beq_refl]. Qed.
Lemma root_inj m m' : mpf_ok m -> mpf_ok m' -> root_dir m = root_dir m' -> mp_icc m = mp_icc m'.
Proof. intros (I & _) (I' & _) E. apply icc_inj; auto; lia. Qed.
Lemma foreign_part m m' s : mpf_ok m -> mpf_ok m' -> is_u16 s -> same_upload m m' = false -> beq (root_dir m) (root_dir m') && belongs m' (part_name m s) = false.
Proof.
  intros M M' S D. destruct (beq_spec (root_dir m) (root_dir m')) as [E|]; [|reflexivity]. cbn [andb]. apply root_inj in E; auto.
  unfold belongs. pose proof (named_seq m' (part_name m s) M' (or_introl (ex_intro _ m (ex_intro _ s (conj M (conj S eq_refl)))))) as Q.
  destruct (part_seq m' (part_name m s)) as [s'|].
  - destruct Q as (S' & Q). apply part_inj in Q as (Q1 & Q2 & _); auto. unfold same_upload in D. rewrite E, Q1, Q2, !Z.eqb_refl in D. discriminate.
  - destruct (beq_spec (part_name m s) (full_name m')) as [F|]; [|reflexivity]. apply part_not_full in F; auto. contradiction.
Qed.
Lemma foreign_full m m' : mpf_ok m -> mpf_ok m' -> same_upload m m' = false -> beq (root_dir m) (root_dir m') && belongs m' (full_name m) = false.
Proof.
  intros M M' D. destruct (beq_spec (root_dir m) (root_dir m')) as [E|]; [|reflexivity]. cbn [andb]. apply root_inj in E; auto.
  unfold belongs. pose proof M as (_ & I & T & _). unfold is_u16, is_u32 in *. rewrite part_seq_full by lia.
  destruct (beq_spec (full_name m) (full_name m')) as [F|]; [|reflexivity]. apply full_inj' in F as (Q1 & Q2); auto. unfold same_upload in D. rewrite E, Q1, Q2, !Z.eqb_refl in D. discriminate.
Qed.

(** ** Goroutines *)
Section Own.
Variable O : packet -> Prop.
Hypothesis OK : forall p, O p -> packet_ok p.
Definition upload (m : mpf) : Prop := exists p, O p /\ pk_up p = m.
Definition tinv (t : thread) : Prop :=
  Forall O (th_todo t) /\
  match th_at t with
  | TIdle => True
  | TMkdir p | TTrunc p | TFill p => O p
  | TCheck m | TOpen m | TRead m => upload m
  | TCreate m ns | TCopy m ns _ => upload m /\ Forall (fun n => belongs m n = true) ns
  end.
Definition agree (f g : fs) : Prop := fs_priv f = fs_priv g /\ forall m, upload m -> mine m f = mine m g.
Lemma agree_refl f : agree f f.
Proof. split; auto. Qed.

Lemma agree_set f g m n c : agree f g -> agree (set_file f m n c) (set_file g m n c).
Proof. intros [P A]. split; [exact P|]. intros m' U. rewrite !mine_set, (A m' U). reflexivity. Qed.
Lemma agree_get f g m n : agree f g -> upload m -> belongs m n = true -> get_file f m n = get_file g m n.
Proof. intros [_ A] U B. rewrite !mine_get, (A m U) by exact B. reflexivity. Qed.
Lemma agree_parts f g m : agree f g -> upload m -> list_parts f m = list_parts g m.
Proof. intros [_ A] U. rewrite !mine_parts, (A m U). reflexivity. Qed.
Lemma sort_forall (P : Z * bytes -> Prop) l : Forall P l -> Forall P (sort_parts l).
Proof. intros H. eapply Permutation.Permutation_Forall; [apply sort_perm|exact H]. Qed.
Lemma parts_belong f m : Forall (fun p => belongs m (snd p) = true) (list_parts f m).
Proof.
  unfold list_parts. apply Forall_forall. intros [s n] H. apply in_concat in H as (l & L & I). apply in_map_iff in L as ([k v] & <- & _). cbn [fst] in I.
  unfold belongs. cbn [snd]. destruct (part_seq m k) eqn:E; [|contradiction]. destruct I as [I|[]]. injection I as _ <-. rewrite E. reflexivity.
Qed.
Lemma own_step f g t : agree f g -> tinv t ->
  snd (thread_step f t) = snd (thread_step g t) /\ agree (fst (thread_step f t)) (fst (thread_step g t)) /\ tinv (snd (thread_step f t)).
Proof.
  intros A [I1 I2]. destruct t as [todo a out]. cbn [th_todo th_at] in *. unfold thread_step. cbn [th_todo th_at th_out].
  destruct a as [|p|p|p|m|m|m ns|m ns off|m]; cbn [fst snd].
  - destruct todo as [|p r]; cbn [fst snd]; (split; [reflexivity|]; split; [exact A|]); split; cbn [th_todo th_at]; auto; [exact (Forall_inv_tail I1)|exact (Forall_inv I1)].
  - rewrite (proj1 A). destruct (negb (fs_priv g)) eqn:E; cbn [fst snd]; (split; [reflexivity|]; split; [|split; cbn [th_todo th_at]; auto]); [exact A|].
    split; [reflexivity|]. intros m' U. rewrite <- (proj1 A) at 1. rewrite !mine_mkdir. apply A, U.
  - split; [reflexivity|]. split; [apply agree_set, A|split; auto].
  - destruct (OK p I2) as [M S]. pose proof (ex_intro _ p (conj I2 eq_refl) : upload (pk_up p)) as U.
    rewrite (agree_get f g _ _ A U (belongs_part _ _ M S)). destruct (negb _); cbn [fst snd]; (split; [reflexivity|]; split; [apply agree_set, A|split; cbn [th_todo th_at]; auto]).
  - rewrite (agree_parts f g m A I2). destruct (fold_left _ _ _); cbn [fst snd]; (split; [reflexivity|]; split; [exact A|split; cbn [th_todo th_at]; auto]).
  - rewrite (agree_parts f g m A I2). split; [reflexivity|]. split; [exact A|]. split; cbn [th_todo th_at]; auto. split; auto.
    apply Forall_map, sort_forall, parts_belong.
  - destruct I2 as [U B]. rewrite (agree_get f g m _ A U (belongs_full m)). split; [reflexivity|]. split; [apply agree_set, A|split; cbn [th_todo th_at]; auto].
  - destruct I2 as [U B]. destruct ns as [|n r]; cbn [fst snd]; [split; [reflexivity|]; split; [exact A|split; cbn [th_todo th_at]; auto]|].
    rewrite (agree_get f g m n A U (Forall_inv B)), (agree_get f g m _ A U (belongs_full m)). split; [reflexivity|]. split; [apply agree_set, A|].
    split; cbn [th_todo th_at]; auto. split; auto. exact (Forall_inv_tail B).
  - rewrite (agree_get f g m _ A I2 (belongs_full m)). split; [reflexivity|]. split; [exact A|split; cbn [th_todo th_at]; auto].
Qed.
End Own.

Lemma other_step (O O' : packet -> Prop) f t : (forall p, O p -> packet_ok p) -> (forall p, O' p -> packet_ok p) ->
  (forall p q, O p -> O' q -> same_upload (pk_up p) (pk_up q) = false) -> tinv O t ->
  fs_priv (fst (thread_step f t)) = fs_priv f /\ forall m, upload O' m -> mine m (fst (thread_step f t)) = mine m f.
Proof.
  intros K K' D [_ I]. destruct t as [todo a out]. cbn [th_at] in I. unfold thread_step. cbn [th_todo th_at th_out].
  assert (P : forall p n c m, O p -> upload O' m -> n = part_name (pk_up p) (pk_seq p) -> mine m (set_file f (pk_up p) n c) = mine m f).
  { intros p n c m Hp (q & Hq & <-) ->. rewrite mine_set. destruct (K p Hp) as [M S], (K' q Hq) as [M' _]. rewrite foreign_part; auto. }
  assert (F : forall m n c m', upload O m -> upload O' m' -> n = full_name m -> mine m' (set_file f m n c) = mine m' f).
  { intros m n c m' (p & Hp & <-) (q & Hq & <-) ->. rewrite mine_set. destruct (K p Hp) as [M S], (K' q Hq) as [M' _]. rewrite foreign_full; auto. }
  destruct a as [|p|p|p|m|m|m ns|m ns off|m]; cbn [fst snd].
  - destruct todo; split; auto.
  - destruct (negb (fs_priv f)); cbn [fst]; split; auto. intros. apply mine_mkdir.
  - split; [reflexivity|]. intros. apply P; auto.
  - destruct (negb _); cbn [fst]; (split; [reflexivity|]; intros; apply P; auto).
  - destruct (fold_left _ _ _); cbn [fst]; auto.
  - auto.
  - destruct I as [U B]. split; [reflexivity|]. intros. apply F; auto.
  - destruct I as [U B]. destruct ns; cbn [fst]; [auto|]. split; [reflexivity|]. intros. apply F; auto.
  - auto.
Qed.

(** ** Schedules *)
Definition owner (pss : list (list packet)) (i : nat) (p : packet) : Prop := exists ps, nth_error pss i = Some ps /\ In p ps.
Definition together (pss : list (list packet)) (f : fs) (ts : list thread) (g : nat -> fs) : Prop :=
  forall i t, nth_error ts i = Some t -> tinv (owner pss i) t /\ agree (owner pss i) f (g i).
Lemma nth_replace {A} (l : list A) i x y : nth_error l i = Some x -> forall j, nth_error (firstn i l ++ y :: skipn (S i) l) j = if Nat.eqb j i then Some y else nth_error l j.
Proof.
  revert i. induction l as [|a l IH]; intros [|i] E j; try discriminate; cbn [firstn skipn app].
  - destruct j; reflexivity.
  - destruct j; [reflexivity|]. cbn [nth_error]. rewrite IH by exact E. reflexivity.
Qed.
Lemma schedule pss : Forall (Forall packet_ok) pss -> apart pss -> forall sched f ts g, together pss f ts g ->
  forall i t, nth_error ts i = Some t -> nth_error (snd (interleave sched f ts)) i = Some (snd (steps (moves i sched) (g i) t)).
Proof.
  intros K D. assert (OK : forall i p, owner pss i p -> packet_ok p).
  { intros i p (ps & E & I). apply nth_error_In in E. rewrite Forall_forall in K. pose proof (K ps E) as Q. rewrite Forall_forall in Q. auto. }
  assert (AP : forall i j p q, i <> j -> owner pss i p -> owner pss j q -> same_upload (pk_up p) (pk_up q) = false).
  { intros i j p q N (a & Ea & Ia) (b & Eb & Ib). exact (D i j a b p q Ea Eb N Ia Ib). }
  induction sched as [|j r IH]; intros f ts g T i t E; cbn [interleave]; [exact E|].
  destruct (nth_error ts j) as [tj|] eqn:Ej.
  - destruct (thread_step f tj) as [f' tj'] eqn:ES. destruct (T j tj Ej) as [Ij Aj].
    destruct (own_step _ (OK j) f (g j) tj Aj Ij) as (S1 & S2 & S3). rewrite ES in S1, S2, S3. cbn [fst snd] in S1, S2, S3.
    set (g' := fun k => if Nat.eqb k j then fst (thread_step (g j) tj) else g k).
    assert (T' : together pss f' (firstn j ts ++ tj' :: skipn (S j) ts) g').
    { intros k tk Ek. rewrite (nth_replace _ _ _ _ Ej) in Ek. unfold g'. destruct (Nat.eqb_spec k j) as [->|N].
      - injection Ek as <-. split; [exact S3|exact S2].
      - destruct (T k tk Ek) as [Ik Ak]. split; [exact Ik|].
        destruct (other_step (owner pss j) (owner pss k) f tj (OK j) (OK k) (fun p q => AP j k p q (not_eq_sym N)) Ij) as [Q1 Q2]. rewrite ES in Q1, Q2. cbn [fst] in Q1, Q2.
        destruct Ak as [P1 P2]. split; [congruence|]. intros m U. rewrite Q2 by exact U. apply P2, U. }
    unfold moves. cbn [count_occ]. destruct (Nat.eq_dec j i) as [->|N].
    + rewrite Ej in E. injection E as ->. rewrite (IH f' _ g' T' i tj'); [|rewrite (nth_replace _ _ _ _ Ej), Nat.eqb_refl; reflexivity].
      cbn [steps]. unfold g'. rewrite Nat.eqb_refl. destruct (thread_step (g i) t) as [x y] eqn:Q. cbn [fst snd] in *. subst y. reflexivity.
    + rewrite (IH f' _ g' T' i t).
      * unfold g'. destruct (Nat.eqb_spec i j); [congruence|]. reflexivity.
      * rewrite (nth_replace _ _ _ _ Ej). destruct (Nat.eqb_spec i j); [congruence|exact E].
  - unfold moves. cbn [count_occ]. destruct (Nat.eq_dec j i) as [->|N]; [congruence|]. apply IH; auto.
Qed.
Lemma isolated pss f sched i ps : Forall (Forall packet_ok) pss -> apart pss -> nth_error pss i = Some ps ->
  nth_error (snd (interleave sched f (map fresh pss))) i = Some (snd (steps (moves i sched) f (fresh ps))).
Proof.
  intros K D E. apply (schedule pss K D sched f (map fresh pss) (fun _ => f)).
  - intros j t Ej. split; [|apply agree_refl]. rewrite nth_error_map in Ej. destruct (nth_error pss j) as [qs|] eqn:Q; [|discriminate]. injection Ej as <-.
    split; [|exact I]. apply Forall_forall. intros p Hp. exists qs. auto.
  - rewrite nth_error_map, E. reflexivity.
Qed.
