(** Proofs for C202 and C203: entries visited. *)
From Coq Require Import Permutation.
From Verif Require Import Base LibBase Bcd LibBcd Multipart Walk LibMulti SpecMulti ProofMulti ProofMulti2 SpecStock ProofStock SpecWalk Overlap SpecOverlap.

(** ** The counters change nothing *)
Lemma files_erase m d : walk_files m d = (zlen d, concat (map (fun nc => match part_seq m (fst nc) with Some s => [(s, snd nc)] | None => [] end) d)).
Proof.
  induction d as [|nc d IH]; [reflexivity|]. cbn [walk_files map concat]. rewrite IH, zlen_cons. destruct (part_seq m (fst nc)); cbn [app]; reflexivity.
Qed.
Lemma walk_erase f m : walk_n f m = match alist_get (fs_dirs f) (root_dir m) with Some d => do l <- walk_parts f m ; Ok (1 + zlen d, l) | None => Panic end.
Proof. unfold walk_n, walk_parts. destruct (alist_get _ _) as [d|]; [|reflexivity]. rewrite files_erase. reflexivity. Qed.
Lemma full_erase f m : (do (_, b) <- is_full_n f m ; Ok b) = is_full f m.
Proof. unfold is_full_n, is_full. rewrite walk_erase. unfold walk_parts. destruct (alist_get _ _); reflexivity. Qed.
Lemma merge_erase f m : (do (_, c, f') <- merge_n f m ; Ok (c, f')) = mp_merge f m.
Proof. unfold merge_n, mp_merge. rewrite walk_erase. unfold walk_parts. destruct (alist_get _ _); reflexivity. Qed.

(** ** The files of a directory *)
Lemma perm_filter {A} (p : A -> bool) a b : Permutation a b -> Permutation (filter p a) (filter p b).
Proof.
  induction 1 as [|x a b H IH|x y a|a b c H IH H' IH']; cbn [filter]; auto.
  - destruct (p x); auto.
  - destruct (p x), (p y); auto. apply perm_swap.
  - eapply Permutation_trans; eauto.
Qed.
Lemma filter_none {A} (p : A -> bool) l : (forall x, In x l -> p x = false) -> filter p l = [].
Proof. induction l as [|x l IH]; intros H; [reflexivity|]. cbn [filter]. rewrite (H x) by (left; auto). apply IH. intros; apply H; right; auto. Qed.
Lemma filter_all {A} (p : A -> bool) l : (forall x, In x l -> p x = true) -> filter p l = l.
Proof. induction l as [|x l IH]; intros H; [reflexivity|]. cbn [filter]. rewrite (H x) by (left; auto). f_equal. apply IH. intros; apply H; right; auto. Qed.
Lemma filter_map {A B} (p : B -> bool) (h : A -> B) (q : A -> bool) l : (forall x, In x l -> p (h x) = q x) -> filter p (map h l) = map h (filter q l).
Proof.
  induction l as [|x l IH]; intros H; [reflexivity|]. cbn [map filter]. rewrite (H x) by (left; auto). rewrite IH by (intros; apply H; right; auto). destruct (q x); reflexivity.
Qed.
Definition in_dir (dn : bytes) (e : bytes * bytes * bytes) : bool := beq (fst (fst e)) dn.
Lemma entries_dir f dn d : NoDup (map fst (fs_dirs f)) -> alist_get (fs_dirs f) dn = Some d -> zlen (filter (in_dir dn) (entries f)) = zlen d.
Proof.
  unfold entries. induction (fs_dirs f) as [|[n x] l IH]; intros N G; [discriminate|]. cbn [alist_get] in G. cbn [map concat fst snd] in *. inversion N as [|? ? N1 N2]; subst. rewrite filter_app.
  destruct (beq_spec n dn) as [->|D].
  - injection G as ->. rewrite filter_all, (filter_none _ (concat _)), app_nil_r; [unfold zlen; rewrite map_length; reflexivity| |].
    + intros e I. apply in_concat in I as (k & K & I). apply in_map_iff in K as ([y z] & <- & K). apply in_map_iff in I as ([u v] & <- & _). unfold in_dir. cbn [fst snd].
      destruct (beq_spec y dn) as [->|]; [|reflexivity]. exfalso. apply N1. apply in_map_iff. exists (dn, z). auto.
    + intros e I. apply in_map_iff in I as ([u v] & <- & _). unfold in_dir. cbn [fst snd]. apply beq_refl.
  - rewrite filter_none; [apply IH; auto|]. intros e I. apply in_map_iff in I as ([u v] & <- & _). unfold in_dir. cbn [fst snd]. destruct (beq_spec n dn); congruence.
Qed.
Lemma same_icc i j : 0 <= i -> 0 <= j -> beq (format_uint i) (format_uint j) = (i =? j).
Proof. intros I J. destruct (beq_spec (format_uint i) (format_uint j)) as [E|E]; [apply icc_inj in E; auto; lia|]. symmetry. apply Z.eqb_neq. congruence. Qed.
Lemma dir_held ops f outs icc d : Forall mop_ok ops -> 0 <= icc -> mrun empty_fs [] ops = Ok (f, outs) -> alist_get (fs_dirs f) (format_uint icc) = Some d -> 1 + zlen d = held ops icc.
Proof.
  intros O I R G. assert (DV : dinv f) by (eapply dinv_run; [exact O| |exact R]; split; [constructor|intros ? ? []]).
  rewrite <- (entries_dir f _ d (proj1 DV) G). unfold zlen. rewrite (Permutation_length (perm_filter _ _ _ (stock_perm _ _ _ O R))). unfold expected. rewrite filter_app, app_length.
  rewrite (filter_map _ (part_entry ops) (part_of icc)), (filter_map _ (full_entry outs) (full_of icc)), !map_length; [unfold held, zlen; lia| |].
  - intros [[i g] t] X. apply nodup_In in X. apply full_keys_ok in X; auto. destruct X as (X & _). cbn [mp_icc] in X. unfold in_dir, full_of. cbn [full_entry fst snd]. apply same_icc; lia.
  - intros [[[i g] t] s] X. apply nodup_In in X. apply part_keys_ok in X; auto. destruct X as ((X & _) & _). cbn [mp_icc] in X. unfold in_dir, part_of. cbn [part_entry fst snd]. apply same_icc; lia.
Qed.

(** ** A walk, and packets *)
Lemma walked ops f outs m : Forall mop_ok ops -> mpf_ok m -> touched ops (mp_icc m) -> mrun empty_fs [] ops = Ok (f, outs) ->
  exists l, walk_parts f m = Ok l /\ walk_n f m = Ok (held ops (mp_icc m), l).
Proof.
  intros O M T R. pose proof M as ((I & _) & _). destruct (minv_of _ _ _ O R) as (_ & V). specialize (V (mp_icc m) I). unfold root_dir in *.
  rewrite walk_erase. unfold walk_parts, root_dir. destruct (alist_get (fs_dirs f) (format_uint (mp_icc m))) as [d|] eqn:G; [|tauto]. eexists. split; [reflexivity|]. cbn [bind].
  rewrite (dir_held _ _ _ _ _ O I R G). reflexivity.
Qed.
Lemma full_walks ops f outs m : Forall mop_ok ops -> mpf_ok m -> touched ops (mp_icc m) -> mrun empty_fs [] ops = Ok (f, outs) ->
  is_full_n f m = Ok (held ops (mp_icc m), complete_now ops m).
Proof.
  intros O M T R. destruct (full_answers _ _ _ _ O M T R) as (b & F & B). destruct (walked _ _ _ _ O M T R) as (l & _ & W). rewrite <- full_erase in F. unfold is_full_n in *. rewrite W in *. cbn [bind] in *.
  injection F as F. rewrite F. f_equal. f_equal. apply Bool.eq_iff_eq_true. rewrite B. unfold complete_now, all_written. rewrite forallb_forall. unfold upto. split.
  - intros H i I. apply in_map_iff in I as (k & <- & I). apply in_seq in I. specialize (H (Z.of_nat k) ltac:(lia)). destruct (written ops m (Z.of_nat k)); congruence.
  - intros H i I. assert (J : In i (map Z.of_nat (seq 1 (Z.to_nat (mp_sum m))))) by (apply in_map_iff; exists (Z.to_nat i); split; [lia|apply in_seq; lia]).
    specialize (H i J). destruct (written ops m i); congruence.
Qed.
Lemma merge_walks ops f outs m : Forall mop_ok ops -> mpf_ok m -> touched ops (mp_icc m) -> mrun empty_fs [] ops = Ok (f, outs) ->
  exists c f', merge_n f m = Ok (held ops (mp_icc m), c, f') /\ mp_merge f m = Ok (c, f').
Proof.
  intros O M T R. destruct (merge_exact _ _ _ _ O M T R) as (l & f' & _ & E). destruct (walked _ _ _ _ O M T R) as (l' & _ & W). pose proof (merge_erase f m) as K. rewrite E in K.
  eexists _, f'. split; [|exact E]. unfold merge_n in *. rewrite W in *. cbn [bind] in *. destruct (alist_get _ _); [|discriminate]. cbn [bind] in K. injection K as <- <-. reflexivity.
Qed.
Lemma packets_from ps : forall h f outs, Forall mop_ok h -> Forall packet_fits ps -> mrun empty_fs [] h = Ok (f, outs) ->
  exists f' outs', packets_n f ps = Ok (cost_from h ps, f') /\ mrun f outs (calls_from h ps) = Ok (f', outs').
Proof.
  induction ps as [|[[m s] d] ps IH]; intros h f outs O P R; [exists f, outs; split; reflexivity|]. inversion P as [|? ? MS P']; subst. destruct MS as (M & S). cbn [packets_n packet_n cost_from calls_from].
  assert (W : exists f1, mp_write f m s d = Ok f1) by (unfold mp_write; destruct (minv_of _ _ _ O R) as (-> & _); cbn [negb]; eauto). destruct W as (f1 & W). rewrite W. cbn [bind].
  set (h1 := h ++ [MWrite m s d]). assert (R1 : mrun empty_fs [] h1 = Ok (f1, outs)) by (unfold h1; rewrite mrun_app, R; cbn [bind mrun]; rewrite W; reflexivity).
  assert (O1 : Forall mop_ok h1) by (apply Forall_app; split; [exact O|constructor; [split; auto|constructor]]).
  assert (T : touched h1 (mp_icc m)) by (exists m, s, d; split; [apply in_app_iff; right; left; reflexivity|reflexivity]).
  rewrite (full_walks _ _ _ _ O1 M T R1). cbn [bind]. cbn [app mrun]. destruct (s =? mp_sum m); cbn [negb andb].
  - destruct (complete_now h1 m).
    + destruct (merge_walks _ _ _ _ O1 M T R1) as (c & f2 & E & E'). rewrite E. cbn [bind].
      assert (R2 : mrun empty_fs [] (h1 ++ [MMerge m]) = Ok (f2, (m, c) :: outs)) by (rewrite mrun_app, R1; cbn [bind mrun]; rewrite E'; reflexivity).
      assert (O2 : Forall mop_ok (h1 ++ [MMerge m])) by (apply Forall_app; split; [exact O1|constructor; [exact M|constructor]]).
      destruct (IH _ _ _ O2 P' R2) as (f' & outs' & A & B). exists f', outs'. rewrite A, W. cbn [bind app mrun]. rewrite E'. cbn [bind].
      replace (h ++ [MWrite m s d; MMerge m]) with (h1 ++ [MMerge m]) by (unfold h1; rewrite <- app_assoc; reflexivity). split; [do 2 f_equal; lia|exact B].
    + destruct (IH _ _ _ O1 P' R1) as (f' & outs' & A & B). exists f', outs'. cbn [bind]. rewrite A, W. cbn [bind app mrun]. fold h1. rewrite app_nil_r. split; [reflexivity|exact B].
  - destruct (IH _ _ _ O1 P' R1) as (f' & outs' & A & B). exists f', outs'. cbn [bind]. rewrite A, W. cbn [bind app mrun]. fold h1. rewrite app_nil_r. split; [reflexivity|exact B].
Qed.
Lemma packets_cost ps : Forall packet_fits ps -> exists f outs, packets_n empty_fs ps = Ok (cost_from [] ps, f) /\ mrun empty_fs [] (calls_from [] ps) = Ok (f, outs).
Proof. intros P. exact (packets_from ps [] empty_fs [] (Forall_nil _) P eq_refl). Qed.

(** ** n uploads of one packet each *)
Definition singles (n : nat) : list (mpf * Z * bytes) := map (fun i => (up i, 1, [7])) (seq 0 n).
Lemma nodup_rounds n : nodup part_dec (part_keys (rounds n)) = part_keys (rounds n) /\ nodup full_dec (full_keys (rounds n)) = full_keys (rounds n).
Proof.
  destruct (rounds_keys n) as (-> & ->). split; apply nodup_fixed_point, NoDup_map_in; try apply seq_NoDup; intros x y _ _ E; injection E as E; lia.
Qed.
Lemma rounds_snoc n : rounds (S n) = rounds n ++ round n.
Proof. unfold rounds. rewrite seq_S, map_app, concat_app. cbn [Nat.add map concat]. rewrite app_nil_r. reflexivity. Qed.
Lemma held_round n : held (rounds n ++ [MWrite (up n) 1 [7]]) 1 = 2 * Z.of_nat n + 2.
Proof.
  destruct (nodup_rounds (S n)) as (A & _). destruct (nodup_rounds n) as (_ & B).
  assert (E1 : part_keys (rounds n ++ [MWrite (up n) 1 [7]]) = part_keys (rounds (S n))).
  { rewrite rounds_snoc. unfold part_keys. rewrite !map_app, !concat_app. reflexivity. }
  assert (E2 : full_keys (rounds n ++ [MWrite (up n) 1 [7]]) = full_keys (rounds n)).
  { unfold full_keys. rewrite map_app, concat_app. cbn [map concat]. rewrite !app_nil_r. reflexivity. }
  unfold held. rewrite E1, E2, A, B. destruct (rounds_keys (S n)) as (-> & _). destruct (rounds_keys n) as (_ & ->).
  rewrite !filter_all by (intros x I; apply in_map_iff in I as (k & <- & _); reflexivity). unfold zlen. rewrite !map_length, !seq_length. lia.
Qed.
Lemma complete_round n : complete_now (rounds n ++ [MWrite (up n) 1 [7]]) (up n) = true.
Proof.
  unfold complete_now. replace (upto (mp_sum (up n))) with [1] by reflexivity. cbn [forallb]. rewrite written_snoc.
  assert (E : same_upload (up n) (up n) && (1 =? 1) = true) by (unfold same_upload; rewrite !Z.eqb_refl; reflexivity). rewrite E. reflexivity.
Qed.
Lemma singles_from k : forall n, cost_from (rounds n) (map (fun i => (up i, 1, [7])) (seq n k)) = 2 * Z.of_nat k * (2 * Z.of_nat n + Z.of_nat k + 1) /\
  calls_from (rounds n) (map (fun i => (up i, 1, [7])) (seq n k)) = concat (map round (seq n k)).
Proof.
  induction k as [|k IH]; intros n; [split; reflexivity|]. cbn [seq map cost_from calls_from concat]. rewrite complete_round. change (mp_sum (up n)) with 1. change (mp_icc (up n)) with 1. rewrite Z.eqb_refl, held_round. cbn [andb].
  replace ((rounds n ++ [MWrite (up n) 1 [7]]) ++ [MMerge (up n)]) with (rounds (S n)) by (rewrite rounds_snoc, <- app_assoc; reflexivity).
  change (MWrite (up n) 1 [7] :: [MMerge (up n)]) with (round n). rewrite <- rounds_snoc. destruct (IH (S n)) as (-> & ->). split; [lia|reflexivity].
Qed.
Lemma singles_cost n : 0 <= n <= 2 ^ 32 -> exists ps f, Forall packet_fits ps /\ zlen ps = n /\ Forall (fun p => let '(m, s, d) := p in mp_sum m = 1 /\ s = 1 /\ zlen d = 1) ps /\
  at_rest (calls_from [] ps) /\ packets_n empty_fs ps = Ok (2 * n * (n + 1), f).
Proof.
  intros N. exists (singles (Z.to_nat n)). assert (P : Forall packet_fits (singles (Z.to_nat n))).
  { apply Forall_forall. intros p I. apply in_map_iff in I as (i & <- & I). apply in_seq in I. split; [apply up_ok; lia|unfold is_u16; lia]. }
  destruct (packets_cost _ P) as (f & outs & E & _). destruct (singles_from (Z.to_nat n) 0) as (C & K). unfold singles in *. change (rounds 0) with (@nil mop) in *. rewrite C in E. exists f.
  split; [exact P|]. split; [unfold zlen; rewrite map_length, seq_length; lia|]. split; [apply Forall_forall; intros p I; apply in_map_iff in I as (i & <- & I); auto|]. split; [rewrite K; apply rounds_rest|].
  rewrite E. do 2 f_equal. lia.
Qed.

(** ** The most there can be *)
Lemma filter_len {A} (p : A -> bool) l : zlen (filter p l) <= zlen l.
Proof. induction l as [|x l IH]; cbn [filter]; [lia|]. destruct (p x); rewrite !zlen_cons; lia. Qed.
Lemma nodup_len {A} (dec : forall a b : A, {a = b} + {a <> b}) l : zlen (nodup dec l) <= zlen l.
Proof. induction l as [|x l IH]; cbn [nodup]; [lia|]. destruct (in_dec dec x l); rewrite !zlen_cons; lia. Qed.
Lemma held_most ops icc : held ops icc <= 1 + zlen (part_keys ops) + zlen (full_keys ops).
Proof.
  unfold held. pose proof (filter_len (part_of icc) (nodup part_dec (part_keys ops))). pose proof (nodup_len part_dec (part_keys ops)).
  pose proof (filter_len (full_of icc) (nodup full_dec (full_keys ops))). pose proof (nodup_len full_dec (full_keys ops)). lia.
Qed.
Lemma held_least ops icc : 1 <= held ops icc.
Proof. unfold held. pose proof (zlen_nonneg (filter (part_of icc) (nodup part_dec (part_keys ops)))). pose proof (zlen_nonneg (filter (full_of icc) (nodup full_dec (full_keys ops)))). lia. Qed.
Lemma keys_write h m s d : zlen (part_keys (h ++ [MWrite m s d])) = zlen (part_keys h) + 1 /\ zlen (full_keys (h ++ [MWrite m s d])) = zlen (full_keys h).
Proof. unfold part_keys, full_keys. rewrite !map_app, !concat_app. cbn [map concat]. rewrite !zlen_app. split; [reflexivity|]. cbn. lia. Qed.
Lemma keys_merge h m : zlen (part_keys (h ++ [MMerge m])) = zlen (part_keys h) /\ zlen (full_keys (h ++ [MMerge m])) = zlen (full_keys h) + 1.
Proof. unfold part_keys, full_keys. rewrite !map_app, !concat_app. cbn [map concat]. rewrite !zlen_app. split; [cbn; lia|reflexivity]. Qed.
Lemma cost_most ps : forall h a, zlen (part_keys h) + zlen (full_keys h) <= a -> cost_from h ps <= 2 * zlen ps * a + 2 * zlen ps * (zlen ps + 1).
Proof.
  induction ps as [|[[m s] d] ps IH]; intros h a H; [unfold zlen; cbn [length cost_from]; lia|]. cbn [cost_from]. rewrite zlen_cons. set (h1 := h ++ [MWrite m s d]).
  destruct (keys_write h m s d) as (K1 & K2). fold h1 in K1, K2. pose proof (held_most h1 (mp_icc m)) as L. pose proof (held_least h1 (mp_icc m)) as L'. pose proof (zlen_nonneg ps) as N.
  assert (R : cost_from (h1 ++ (if (s =? mp_sum m) && complete_now h1 m then [MMerge m] else [])) ps <= 2 * zlen ps * (a + 2) + 2 * zlen ps * (zlen ps + 1)).
  { apply IH. destruct ((s =? mp_sum m) && complete_now h1 m); [destruct (keys_merge h1 m) as (-> & ->); lia|rewrite app_nil_r; lia]. }
  assert (C : (if s =? mp_sum m then if complete_now h1 m then 2 * held h1 (mp_icc m) else held h1 (mp_icc m) else 0) <= 2 * (a + 2)) by (destruct (s =? mp_sum m), (complete_now h1 m); lia).
  nia.
Qed.
Lemma packets_most ps n f : Forall packet_fits ps -> packets_n empty_fs ps = Ok (n, f) -> n <= 2 * zlen ps * (zlen ps + 1).
Proof.
  intros P E. destruct (packets_cost ps P) as (f' & outs & E' & _). rewrite E' in E. injection E as <- _. pose proof (cost_most ps [] 0 ltac:(cbv; congruence)). lia.
Qed.

(** ** The packets are handled as in the rest of the model *)
Lemma packet_once f p n f' : packet_n f p = Ok (n, f') -> exists o, at_once f (Packet (fst (fst p)) (snd (fst p)) (snd p)) f' o.
Proof.
  destruct p as [[m s] d]. cbn [packet_n fst snd]. unfold at_once. cbn [pk_up pk_seq pk_data]. destruct (mp_write f m s d) as [f1| |]; cbn [bind]; try discriminate.
  destruct (s =? mp_sum m); cbn [negb]; [|intros E; injection E as _ <-; eauto]. rewrite <- full_erase, <- merge_erase. destruct (is_full_n f1 m) as [[k b]| |]; cbn [bind]; try discriminate.
  destruct b.
  - destruct (merge_n f1 m) as [[[j c] f2]| |]; cbn [bind]; try discriminate. intros E. injection E as _ <-. eexists. exists true. split; [reflexivity|]. exists c. split; reflexivity.
  - intros E. injection E as _ <-. eexists. exists false. split; [reflexivity|]. split; reflexivity.
Qed.
Lemma packets_turn ps : forall f n f', packets_n f ps = Ok (n, f') -> exists os, in_turn f (map (fun p => Packet (fst (fst p)) (snd (fst p)) (snd p)) ps) f' os.
Proof.
  induction ps as [|p ps IH]; intros f n f' E; cbn [packets_n map] in *; [injection E as _ <-; eexists; constructor|].
  destruct (packet_n f p) as [[k f1]| |] eqn:E1; cbn [bind] in E; try discriminate. destruct (packets_n f1 ps) as [[j f2]| |] eqn:E2; cbn [bind] in E; try discriminate. injection E as _ <-.
  destruct (packet_once _ _ _ _ E1) as (o & O). destruct (IH _ _ _ E2) as (os & T). eexists. econstructor; eauto.
Qed.
