(** A connection on its own handles its packets one after the other. *)
From Verif Require Import Base LibBase Bcd LibBcd Multipart LibMulti SpecMulti ProofMulti Overlap SpecOverlap ProofOverlap.

Lemma steps_app a : forall b f t, steps (a + b) f t = let '(f', t') := steps a f t in steps b f' t'.
Proof. induction a as [|a IH]; intros b f t; [reflexivity|]. cbn [Nat.add steps]. destruct (thread_step f t) as [f' t']. apply IH. Qed.
Lemma steps_then a b f t f1 t1 r : steps a f t = (f1, t1) -> steps b f1 t1 = r -> steps (a + b) f t = r.
Proof. intros A B. rewrite steps_app, A. exact B. Qed.
Lemma steps_end k f os : steps k f (Thread [] TIdle os) = (f, Thread [] TIdle os).
Proof. induction k as [|k IH]; [reflexivity|]. cbn [steps]. unfold thread_step. cbn [th_at th_todo]. exact IH. Qed.

(** ** Files *)
Lemma alist_set_set {A} (l : list (bytes * A)) k a b : alist_set (alist_set l k a) k b = alist_set l k b.
Proof.
  induction l as [|[k' v] l IH]; cbn [alist_set]; [rewrite beq_refl; reflexivity|].
  destruct (beq k' k) eqn:E; cbn [alist_set]; [rewrite beq_refl; reflexivity|]. rewrite E, IH. reflexivity.
Qed.
Lemma set_set f m n a b : set_file (set_file f m n a) m n b = set_file f m n b.
Proof. unfold set_file at 1. rewrite dir_set, beq_refl. unfold set_file. cbn [fs_priv fs_dirs]. rewrite !alist_set_set. reflexivity. Qed.
Lemma set_mkdir f m n c : set_file (Fs (fs_priv f) (alist_set (fs_dirs f) (root_dir m) (dir_of f m))) m n c = set_file f m n c.
Proof. unfold set_file, dir_of. cbn [fs_priv fs_dirs]. rewrite alist_get_set, beq_refl, alist_set_set. reflexivity. Qed.
Lemma get_set f m n c n' : get_file (set_file f m n c) m n' = if beq n n' then c else get_file f m n'.
Proof. unfold get_file. rewrite dir_set, beq_refl, alist_get_set. destruct (beq n n'); reflexivity. Qed.
Lemma dir_nodup f m : fs_ok f -> NoDup (map fst (dir_of f m)).
Proof. intros K. unfold dir_of. destruct (alist_get (fs_dirs f) (root_dir m)) eqn:E; [eapply K; eauto|constructor]. Qed.
Lemma set_ok f m n c : fs_ok f -> fs_ok (set_file f m n c).
Proof.
  intros K r d H. unfold set_file in H. cbn [fs_dirs] in H. rewrite alist_get_set in H. destruct (beq _ _); [|eapply K; eauto]. injection H as <-.
  apply alist_set_nodup, dir_nodup, K.
Qed.
Lemma write_set f m s data : fs_priv f = true -> mp_write f m s data = Ok (set_file f m (part_name m s) data).
Proof. intros P. unfold mp_write, set_file, dir_of. rewrite P. reflexivity. Qed.
Lemma present f m n c : alist_get (fs_dirs (set_file f m n c)) (root_dir m) = Some (alist_set (dir_of f m) n c).
Proof. unfold set_file. cbn [fs_dirs]. rewrite alist_get_set, beq_refl. reflexivity. Qed.

(** ** Parts *)
Lemma insert_map (g : bytes -> bytes) p l : insert_part (fst p, g (snd p)) (map (fun q => (fst q, g (snd q))) l) = map (fun q => (fst q, g (snd q))) (insert_part p l).
Proof. induction l as [|q l IH]; [reflexivity|]. cbn [map insert_part fst]. destruct (fst q <? fst p); [|reflexivity]. cbn [map]. rewrite IH. reflexivity. Qed.
Lemma sort_map (g : bytes -> bytes) l : sort_parts (map (fun q => (fst q, g (snd q))) l) = map (fun q => (fst q, g (snd q))) (sort_parts l).
Proof. unfold sort_parts. induction l as [|p l IH]; [reflexivity|]. cbn [map fold_right]. rewrite IH. apply insert_map. Qed.
Lemma strike_map (g : bytes -> bytes) l : forall set,
  fold_left (fun set (p : Z * bytes) => filter (fun i => negb (i =? fst p)) set) (map (fun q => (fst q, g (snd q))) l) set =
  fold_left (fun set (p : Z * bytes) => filter (fun i => negb (i =? fst p)) set) l set.
Proof. induction l as [|p l IH]; intros set; [reflexivity|]. cbn [map fold_left fst]. apply IH. Qed.
Lemma walk_list f m d : fs_ok f -> alist_get (fs_dirs f) (root_dir m) = Some d ->
  walk_parts f m = Ok (map (fun q => (fst q, get_file f m (snd q))) (list_parts f m)).
Proof.
  intros K E. unfold walk_parts. rewrite E. f_equal. unfold list_parts, get_file. assert (D : dir_of f m = d) by (unfold dir_of; rewrite E; reflexivity). rewrite D.
  pose proof (K _ _ E) as N. assert (H : forall n c, In (n, c) d -> alist_get d n = Some c) by (intros; apply alist_in_get; auto).
  clear D N. revert H. generalize (alist_get d). intros look H. induction d as [|[n c] d' IH] in H |- *; [reflexivity|].
  cbn [map concat fst snd]. rewrite map_app, <- IH by (intros; apply H; right; assumption). f_equal.
  destruct (part_seq m n); [|reflexivity]. cbn [map fst snd]. rewrite (H n c) by (left; reflexivity). reflexivity.
Qed.
Lemma parts_names f m : mpf_ok m -> Forall (fun n => n <> full_name m) (map snd (sort_parts (list_parts f m))).
Proof.
  intros (_ & I & T & _). unfold is_u16, is_u32 in *. apply Forall_map, sort_forall. unfold list_parts. apply Forall_forall. intros [s n] H.
  apply in_concat in H as (l & L & J). apply in_map_iff in L as ([k v] & <- & _). cbn [fst] in J. cbn [snd].
  destruct (part_seq m k) eqn:E; [|contradiction]. destruct J as [J|[]]. injection J as _ <-. intros ->. rewrite part_seq_full in E by lia. discriminate.
Qed.

(** ** Copying *)
Lemma write_in (off : nat) (c x : bytes) : (off <= length x)%nat -> write_at off c x = firstn off x ++ c ++ skipn (off + length c) x.
Proof. intros H. unfold write_at. replace (off - length x)%nat with 0%nat by lia. reflexivity. Qed.
Lemma skipn_plus {A} (a b : nat) (l : list A) : skipn (a + b) l = skipn b (skipn a l).
Proof. revert l. induction a as [|a IH]; intros l; [reflexivity|]. destruct l; [rewrite !skipn_nil; reflexivity|]. cbn [Nat.add skipn]. apply IH. Qed.
Lemma firstn_pre {A} (a b : list A) : firstn (length a) (a ++ b) = a.
Proof. rewrite firstn_app, Nat.sub_diag, firstn_all, firstn_O, app_nil_r. reflexivity. Qed.
Lemma skipn_pre {A} (a b : list A) : skipn (length a) (a ++ b) = b.
Proof. rewrite skipn_app, Nat.sub_diag, skipn_all. reflexivity. Qed.
Lemma copy_steps f m todo out : forall ns x off, Forall (fun n => n <> full_name m) ns -> (off <= length x)%nat ->
  steps (S (length ns)) (set_file f m (full_name m) x) (Thread todo (TCopy m ns off) out) =
  (let c := concat (map (get_file f m) ns) in set_file f m (full_name m) (firstn off x ++ c ++ skipn (off + length c) x), Thread todo (TRead m) out).
Proof.
  induction ns as [|n ns IH]; intros x off N H; cbn zeta.
  - cbn [length steps map concat]. unfold thread_step. cbn [th_at th_todo th_out app length]. rewrite Nat.add_0_r, firstn_skipn. reflexivity.
  - pose proof (Forall_inv N) as Nn. cbn beta in Nn.
    assert (G : get_file (set_file f m (full_name m) x) m n = get_file f m n).
    { rewrite get_set. destruct (beq_spec (full_name m) n); [congruence|reflexivity]. }
    cbn [length]. remember (S (length ns)) as k eqn:Ek. cbn [steps]. unfold thread_step. cbn [th_at th_todo th_out]. rewrite G, get_set, beq_refl, set_set, write_in by exact H.
    set (c := get_file f m n). subst k.
    assert (L : length (firstn off x ++ c) = (off + length c)%nat) by (rewrite app_length, firstn_length; lia).
    rewrite IH; [|exact (Forall_inv_tail N)|rewrite app_assoc, app_length, L; lia].
    cbn zeta. cbn [map concat]. fold c. set (r := concat (map (get_file f m) ns)). rewrite (app_assoc (firstn off x)). rewrite <- L at 1. rewrite firstn_pre.
    rewrite skipn_plus. rewrite <- L at 1. rewrite skipn_pre, <- skipn_plus, app_length, Nat.add_assoc, <- !app_assoc. reflexivity.
Qed.

(** ** One packet *)
Lemma one_step k f t f1 t1 r : thread_step f t = (f1, t1) -> steps k f1 t1 = r -> steps (S k) f t = r.
Proof. intros A B. cbn [steps]. rewrite A. exact B. Qed.
Lemma packet_alone f p todo out : fs_ok f -> packet_ok p ->
  exists k f' o, at_once f p f' o /\ fs_ok f' /\ steps k f (Thread (p :: todo) TIdle out) = (f', Thread todo TIdle (out ++ [o])).
Proof.
  intros K [M SQ]. destruct (fs_priv f) eqn:P.
  2:{ exists 2%nat, f, OFail. unfold at_once, mp_write. rewrite P. cbn [negb]. split; [auto|]. split; [exact K|].
      cbn [steps]. unfold thread_step at 1. cbn [th_at th_todo th_out]. unfold thread_step. cbn [th_at th_todo th_out]. rewrite P. reflexivity. }
  set (m := pk_up p). set (f1 := set_file f m (part_name m (pk_seq p)) (pk_data p)).
  assert (K1 : fs_ok f1) by (apply set_ok, K).
  assert (H3 : steps 3 f (Thread (p :: todo) TIdle out) = (set_file f m (part_name m (pk_seq p)) [], Thread todo (TFill p) out)).
  { cbn [steps]. unfold thread_step at 1. cbn [th_at th_todo th_out]. unfold thread_step at 1. cbn [th_at th_todo th_out]. rewrite P. cbn [negb].
    unfold thread_step. cbn [th_at th_todo th_out]. fold m. rewrite <- P, set_mkdir. reflexivity. }
  assert (F : thread_step (set_file f m (part_name m (pk_seq p)) []) (Thread todo (TFill p) out) =
              if negb (pk_seq p =? mp_sum m) then (f1, Thread todo TIdle (out ++ [OKept])) else (f1, Thread todo (TCheck m) out)).
  { unfold thread_step. cbn [th_at th_todo th_out]. fold m. rewrite get_set, beq_refl, set_set. rewrite write_in by (cbn; lia). cbn [firstn app]. rewrite skipn_nil, app_nil_r. reflexivity. }
  unfold at_once. rewrite write_set by exact P. fold m f1. destruct (Z.eqb_spec (pk_seq p) (mp_sum m)) as [E|E]; cbn [negb] in F.
  2:{ exists (3 + 1)%nat, f1, OKept. split; [auto|]. split; [exact K1|]. apply (steps_then _ _ _ _ _ _ _ H3). eapply one_step; [exact F|reflexivity]. }
  pose proof (present f m (part_name m (pk_seq p)) (pk_data p)) as D. fold f1 in D. set (d := alist_set (dir_of f m) (part_name m (pk_seq p)) (pk_data p)) in D.
  pose proof (walk_list f1 m d K1 D) as W. unfold is_full, mp_merge. rewrite W. cbn [bind]. rewrite strike_map.
  destruct (fold_left _ (list_parts f1 m) (seq_set (mp_sum m))) as [|z zs] eqn:C.
  2:{ exists (3 + 2)%nat, f1, OKept. split; [exists false; auto|]. split; [exact K1|]. apply (steps_then _ _ _ _ _ _ _ H3).
      eapply one_step; [exact F|]. eapply one_step; [unfold thread_step; cbn [th_at th_todo th_out]; rewrite C; reflexivity|reflexivity]. }
  rewrite D, sort_map. set (ns := map snd (sort_parts (list_parts f1 m))). set (old := get_file f1 m (full_name m)).
  set (c := concat (map (get_file f1 m) ns)).
  assert (CE : concat (map snd (map (fun q => (fst q, get_file f1 m (snd q))) (sort_parts (list_parts f1 m)))) = c).
  { unfold c, ns. rewrite !map_map. reflexivity. }
  rewrite CE. set (f2 := set_file f1 m (full_name m) (c ++ skipn (length c) old)).
  exists (3 + (S (S (S (S (S (length ns) + 1))))))%nat, f2, (OWhole (c ++ skipn (length c) old)). split; [|split].
  - exists true. split; [reflexivity|]. exists (c ++ skipn (length c) old). split; [|reflexivity].
    assert (O : match alist_get d (full_name m) with Some c0 => c0 | None => [] end = old) by (unfold old, get_file, dir_of; rewrite D; reflexivity).
    rewrite O. unfold f2, set_file at 1. unfold dir_of. rewrite D. reflexivity.
  - apply set_ok, K1.
  - apply (steps_then _ _ _ _ _ _ _ H3). eapply one_step; [exact F|].
    eapply one_step; [unfold thread_step; cbn [th_at th_todo th_out]; rewrite C; reflexivity|].
    eapply one_step; [unfold thread_step; cbn [th_at th_todo th_out]; fold ns; reflexivity|].
    eapply one_step; [unfold thread_step; cbn [th_at th_todo th_out]; fold old; reflexivity|].
    eapply steps_then; [apply copy_steps; [apply parts_names, M|lia]|]. cbn zeta. fold c. cbn [firstn app Nat.add]. fold f2.
    eapply one_step; [unfold thread_step; cbn [th_at th_todo th_out]; unfold f2 at 2; rewrite get_set, beq_refl; reflexivity|reflexivity].
Qed.

(** ** All packets *)
Lemma packets_alone ps : Forall packet_ok ps -> forall f out, fs_ok f ->
  exists k f' os, in_turn f ps f' os /\ steps k f (Thread ps TIdle out) = (f', Thread [] TIdle (out ++ os)).
Proof.
  induction ps as [|p ps IH]; intros A f out K.
  - exists 0%nat, f, []. split; [constructor|]. rewrite app_nil_r. reflexivity.
  - destruct (packet_alone f p ps out K (Forall_inv A)) as (k & f1 & o & A1 & K1 & S1).
    destruct (IH (Forall_inv_tail A) f1 (out ++ [o]) K1) as (k2 & f2 & os & A2 & S2).
    exists (k + k2)%nat, f2, (o :: os). split; [econstructor; eauto|]. rewrite (steps_then _ _ _ _ _ _ _ S1 S2), <- app_assoc. reflexivity.
Qed.
Lemma alone ps f : Forall packet_ok ps -> fs_ok f ->
  exists k f' os, in_turn f ps f' os /\ forall k', (k <= k')%nat -> steps k' f (fresh ps) = (f', Thread [] TIdle os).
Proof.
  intros A K. destruct (packets_alone ps A f [] K) as (k & f' & os & T & S). exists k, f', os. split; [exact T|]. intros k' L.
  replace k' with (k + (k' - k))%nat by lia. apply (steps_then _ _ _ _ _ _ _ S). apply steps_end.
Qed.
Lemma turn_unique f ps f1 os1 : in_turn f ps f1 os1 -> forall f2 os2, in_turn f ps f2 os2 -> f1 = f2 /\ os1 = os2.
Proof.
  induction 1 as [f|f p f1 o ps f2 os A T IH]; intros g os' H; inversion H; subst; [auto|].
  assert (Q : f1 = f3 /\ o = o0).
  { unfold at_once in *. destruct (mp_write f (pk_up p) (pk_seq p) (pk_data p)) as [g1| |]; [|intuition congruence|intuition congruence].
    destruct (pk_seq p =? mp_sum (pk_up p)); [|intuition congruence]. destruct A as (b & B1 & B2), H3 as (b' & B1' & B2'). rewrite B1 in B1'. injection B1' as <-.
    destruct b; [|intuition congruence]. destruct B2 as (c & C1 & C2), B2' as (c' & C1' & C2'). rewrite C1 in C1'. injection C1' as <- <-. split; congruence. }
  destruct Q as [<- <-]. destruct (IH _ _ H6) as [<- <-]. auto.
Qed.
Lemma overlapped pss f i ps : Forall (Forall packet_ok) pss -> apart pss -> fs_ok f -> nth_error pss i = Some ps ->
  exists k f' os, in_turn f ps f' os /\ forall sched, (k <= moves i sched)%nat ->
    nth_error (snd (interleave sched f (map fresh pss))) i = Some (Thread [] TIdle os).
Proof.
  intros A D K E. assert (B : Forall packet_ok ps) by (rewrite Forall_forall in A; eapply A, nth_error_In, E).
  destruct (alone ps f B K) as (k & f' & os & T & S). exists k, f', os. split; [exact T|]. intros sched L.
  rewrite (isolated pss f sched i ps A D E), (S _ L). reflexivity.
Qed.
