(** Multipart files: reachable directories and what the queries report. *)
From Coq Require Import Sorted Permutation.
From Verif Require Import Base LibBase Bcd LibBcd Multipart LibMulti SpecMulti.

(** ** Names again *)
Lemma part_inj m s m' s' : mpf_ok m -> mpf_ok m' -> is_u16 s -> is_u16 s' -> part_name m s = part_name m' s' -> mp_msgid m = mp_msgid m' /\ mp_tag m = mp_tag m' /\ s = s'.
Proof.
  intros (_ & I & T & _) (_ & I' & T' & _) S S' E. unfold is_u16, is_u32 in *. pose proof (part_seq_part m m s ltac:(lia) ltac:(lia) ltac:(lia) ltac:(lia)) as A.
  rewrite E, (part_seq_part m m' s') in A by lia. rewrite !Z.eqb_refl in A. cbn [andb] in A.
  destruct (Z.eqb_spec (mp_msgid m') (mp_msgid m)), (Z.eqb_spec (mp_tag m') (mp_tag m)); cbn [andb] in A; try discriminate. injection A as A. auto.
Qed.
Lemma part_not_full m s m' : mpf_ok m -> mpf_ok m' -> is_u16 s -> part_name m s <> full_name m'.
Proof.
  intros (_ & I & T & _) (_ & I' & T' & _) S E. unfold is_u16, is_u32 in *. pose proof (part_seq_part m m s ltac:(lia) ltac:(lia) ltac:(lia) ltac:(lia)) as A.
  rewrite E, part_seq_full in A by lia. rewrite !Z.eqb_refl in A. discriminate.
Qed.
Lemma full_inj' m m' : mpf_ok m -> mpf_ok m' -> full_name m = full_name m' -> mp_msgid m = mp_msgid m' /\ mp_tag m = mp_tag m'.
Proof. intros (_ & I & T & _) (_ & I' & T' & _) E. unfold is_u16, is_u32 in *. apply full_inj; auto; lia. Qed.

(** ** The invariant *)
Definition named (n : bytes) : Prop := (exists m s, mpf_ok m /\ is_u16 s /\ n = part_name m s) \/ (exists m, mpf_ok m /\ n = full_name m).
Definition dir_ok (pre : list mop) (outs : list (mpf * bytes)) (icc : Z) (d : dir) : Prop :=
  NoDup (map fst d) /\ (forall n c, In (n, c) d -> named n) /\
  (forall m s, mpf_ok m -> is_u16 s -> mp_icc m = icc -> alist_get d (part_name m s) = written pre m s) /\
  (forall m, mpf_ok m -> mp_icc m = icc -> alist_get d (full_name m) = last_merge outs m).
Definition minv (pre : list mop) (f : fs) (outs : list (mpf * bytes)) : Prop :=
  fs_priv f = true /\
  forall icc, 0 <= icc ->
    match alist_get (fs_dirs f) (format_uint icc) with
    | None => ~ touched pre icc /\ (forall m, mp_icc m = icc -> last_merge outs m = None)
    | Some d => touched pre icc /\ dir_ok pre outs icc d
    end.

Lemma same_upload_spec a b : reflect (mp_icc a = mp_icc b /\ mp_msgid a = mp_msgid b /\ mp_tag a = mp_tag b) (same_upload a b).
Proof.
  unfold same_upload. destruct (Z.eqb_spec (mp_icc a) (mp_icc b)), (Z.eqb_spec (mp_msgid a) (mp_msgid b)), (Z.eqb_spec (mp_tag a) (mp_tag b)); cbn [andb]; constructor; tauto.
Qed.
Lemma written_snoc pre o m s : written (pre ++ [o]) m s =
  match o with MWrite m' s' d => if same_upload m' m && (s' =? s) then Some d else written pre m s | MMerge _ => written pre m s end.
Proof. unfold written. rewrite fold_left_app. reflexivity. Qed.
Lemma touched_snoc pre o icc : touched (pre ++ [o]) icc <-> touched pre icc \/ exists m s d, o = MWrite m s d /\ mp_icc m = icc.
Proof.
  unfold touched. split.
  - intros (m & s & d & I & E). apply in_app_iff in I. destruct I as [I|[->|[]]]; [left; eauto|right; eauto].
  - intros [(m & s & d & I & E)|(m & s & d & -> & E)]; exists m, s, d; split; auto; apply in_app_iff; cbn; auto.
Qed.
Lemma untouched_written pre m s : ~ touched pre (mp_icc m) -> written pre m s = None.
Proof.
  induction pre as [|o pre IH] using rev_ind; intros H; [reflexivity|]. rewrite written_snoc. rewrite touched_snoc in H.
  destruct o as [m' s' d|]; [|apply IH; tauto]. destruct (same_upload_spec m' m) as [[E _]|]; cbn [andb]; [|apply IH; tauto].
  exfalso. apply H. right. eauto.
Qed.
Lemma written_touched pre m s c : written pre m s = Some c -> touched pre (mp_icc m).
Proof.
  induction pre as [|o pre IH] using rev_ind; [discriminate|]. rewrite written_snoc, touched_snoc.
  destruct o as [m' s' d|]; [|auto]. destruct (same_upload_spec m' m) as [[E _]|]; cbn [andb]; [|auto]. intros _. right. eauto.
Qed.
Lemma minv_init : minv [] empty_fs [].
Proof. split; [reflexivity|]. intros icc H. cbn. split; auto. intros (m & s & d & [] & _). Qed.

Lemma icc_inj a b : 0 <= a -> 0 <= b -> format_uint a = format_uint b -> a = b.
Proof. intros. apply format_uint_inj; auto. Qed.

Lemma write_step pre f outs m s data f' : minv pre f outs -> mpf_ok m -> is_u16 s -> mp_write f m s data = Ok f' -> minv (pre ++ [MWrite m s data]) f' outs.
Proof.
  intros (P & I) M S W. unfold mp_write in W. rewrite P in W. cbn [negb] in W. injection W as <-. split; [reflexivity|]. cbn [fs_dirs].
  pose proof M as (Mi & _). intros icc Hi. rewrite alist_get_set. unfold root_dir at 1.
  destruct (beq_spec (format_uint (mp_icc m)) (format_uint icc)) as [E|E].
  - apply icc_inj in E; [|lia|lia]. split; [apply touched_snoc; right; eauto|]. unfold root_dir. specialize (I (mp_icc m) ltac:(lia)).
    assert (D : exists d, match alist_get (fs_dirs f) (format_uint (mp_icc m)) with Some d => d | None => [] end = d /\ dir_ok pre outs (mp_icc m) d).
    { destruct (alist_get _ _) as [d|]; [exists d; tauto|]. exists []. split; auto. destruct I as [NT LM]. split; [constructor|]. split; [intros ? ? []|]. cbn [alist_get].
      split; [intros m' s' _ _ Em; symmetry; apply untouched_written; congruence|intros m' _ Em; symmetry; apply LM; auto]. }
    destruct D as (d & -> & ND & NM & WR & LM). split; [apply alist_set_nodup; auto|]. split; [|split].
    + intros n c H. apply alist_set_in in H. destruct H as [H|H]; [injection H as -> _; left; eauto|eauto].
    + intros m' s' M' S' Em. rewrite alist_get_set, written_snoc, WR by (auto; congruence).
      destruct (beq_spec (part_name m s) (part_name m' s')) as [En|En].
      * apply part_inj in En; auto. destruct En as (A & B & C). destruct (same_upload_spec m m') as [_|X]; [|exfalso; apply X; repeat split; congruence].
        replace (s =? s') with true by lia. reflexivity.
      * destruct (same_upload_spec m m') as [(A & B & C)|]; cbn [andb]; auto. destruct (Z.eqb_spec s s') as [->|]; auto.
        exfalso. apply En. unfold part_name. rewrite B, C. reflexivity.
    + intros m' M' Em. rewrite alist_get_set, LM by (auto; congruence). destruct (beq_spec (part_name m s) (full_name m')) as [En|]; auto.
      apply part_not_full in En; tauto.
  - specialize (I icc Hi). assert (mp_icc m <> icc) by congruence. destruct (alist_get _ _) as [d|].
    + destruct I as (T & ND & NM & WR & LM). split; [apply touched_snoc; auto|]. split; auto. split; auto. split; auto. intros m' s' M' S' Em. rewrite written_snoc, WR by auto.
      destruct (same_upload_spec m m') as [(A & _)|]; cbn [andb]; auto. congruence.
    + destruct I as (T & LM). split; auto. rewrite touched_snoc. intros [X|(m' & s' & d & X & Y)]; auto. injection X as -> -> ->. auto.
Qed.

Lemma merge_step pre f outs m c f' : minv pre f outs -> mpf_ok m -> mp_merge f m = Ok (c, f') -> minv (pre ++ [MMerge m]) f' ((m, c) :: outs).
Proof.
  intros (P & I) M W. unfold mp_merge in W. destruct (walk_parts f m) as [parts| |]; cbn [bind] in W; try discriminate. pose proof M as (Mi & _).
  unfold root_dir in W. pose proof (I (mp_icc m) ltac:(lia)) as Im. destruct (alist_get (fs_dirs f) (format_uint (mp_icc m))) as [d|] eqn:G; [|discriminate].
  remember (concat (map snd (sort_parts parts))) as new eqn:En.
  assert (Ef : f' = Fs (fs_priv f) (alist_set (fs_dirs f) (format_uint (mp_icc m)) (alist_set d (full_name m) c))) by congruence. clear W. subst f'. split; auto. cbn [fs_dirs].
  intros icc Hi. rewrite alist_get_set. destruct Im as (T & ND & NM & WR & LM).
  destruct (beq_spec (format_uint (mp_icc m)) (format_uint icc)) as [E|E].
  - apply icc_inj in E; [|lia|lia]. subst icc. split; [apply touched_snoc; auto|]. split; [apply alist_set_nodup; auto|]. split; [|split].
    + intros n x H. apply alist_set_in in H. destruct H as [H|H]; [injection H as -> _; right; eauto|eauto].
    + intros m' s' M' S' Em. rewrite alist_get_set, written_snoc, WR by auto. destruct (beq_spec (full_name m) (part_name m' s')) as [X|]; auto.
      symmetry in X. apply part_not_full in X; tauto.
    + intros m' M' Em. rewrite alist_get_set, LM by auto. cbn [last_merge]. destruct (beq_spec (full_name m) (full_name m')) as [X|X].
      * apply full_inj' in X; auto. destruct X. destruct (same_upload_spec m m') as [_|Y]; auto. exfalso. apply Y. repeat split; congruence.
      * destruct (same_upload_spec m m') as [(A & B & C)|]; auto. exfalso. apply X. unfold full_name. rewrite B, C. reflexivity.
  - specialize (I icc Hi). assert (mp_icc m <> icc) by congruence. destruct (alist_get _ (format_uint icc)) as [d'|].
    + destruct I as (T' & ND' & NM' & WR' & LM'). split; [apply touched_snoc; auto|]. split; auto. split; auto. split.
      * intros. rewrite written_snoc. auto.
      * intros m' M' Em. cbn [last_merge]. destruct (same_upload_spec m m') as [(A & _)|]; auto. congruence.
    + destruct I as (T' & LM'). split; [rewrite touched_snoc; intros [X|(? & ? & ? & X & _)]; [auto|discriminate]|].
      intros m' Em. cbn [last_merge]. destruct (same_upload_spec m m') as [(A & _)|]; auto. congruence.
Qed.

Lemma minv_run ops : Forall mop_ok ops -> forall pre f outs f' outs', minv pre f outs -> mrun f outs ops = Ok (f', outs') -> minv (pre ++ ops) f' outs'.
Proof.
  induction 1 as [|o ops O H IH]; intros pre f outs f' outs' V R; [injection R as <- <-; rewrite app_nil_r; auto|].
  replace (pre ++ o :: ops) with ((pre ++ [o]) ++ ops) by (rewrite <- app_assoc; reflexivity). destruct o as [m s d|m]; cbn [mrun] in R.
  - destruct (mp_write f m s d) as [g| |] eqn:W; cbn [bind] in R; try discriminate. eapply IH; [|exact R]. eapply write_step; eauto; apply O.
  - destruct (mp_merge f m) as [[c g]| |] eqn:W; cbn [bind] in R; try discriminate. eapply IH; [|exact R]. eapply merge_step; eauto.
Qed.

(** ** Walking a directory *)
Definition parts_of (m : mpf) (d : dir) : list (Z * bytes) :=
  concat (map (fun nc => match part_seq m (fst nc) with Some s => [(s, snd nc)] | None => [] end) d).
Lemma parts_of_cons m n c d : parts_of m ((n, c) :: d) = match part_seq m n with Some s => (s, c) :: parts_of m d | None => parts_of m d end.
Proof. unfold parts_of. cbn [map concat fst snd]. destruct (part_seq m n); reflexivity. Qed.
Lemma named_seq m n : mpf_ok m -> named n -> match part_seq m n with Some s => is_u16 s /\ n = part_name m s | None => forall s, is_u16 s -> n <> part_name m s end.
Proof.
  intros M [(m' & s' & M' & S' & ->)|(m' & M' & ->)]; pose proof M as (_ & I & T & _); pose proof M' as (_ & I' & T' & _); unfold is_u16, is_u32 in *.
  - rewrite part_seq_part by lia. destruct (Z.eqb_spec (mp_msgid m') (mp_msgid m)) as [A|A]; [destruct (Z.eqb_spec (mp_tag m') (mp_tag m)) as [B|B]|]; cbn [andb].
    + split; auto. unfold part_name. rewrite A, B. reflexivity.
    + intros s S E. apply part_inj in E; auto. lia.
    + intros s S E. apply part_inj in E; auto. lia.
  - rewrite part_seq_full by lia. intros s S E. symmetry in E. apply part_not_full in E; auto.
Qed.
Lemma parts_of_in m d : mpf_ok m -> (forall n c, In (n, c) d -> named n) -> forall s c, In (s, c) (parts_of m d) <-> is_u16 s /\ In (part_name m s, c) d.
Proof.
  intros M. induction d as [|[n x] d IH]; intros N s c; [cbn; tauto|]. rewrite parts_of_cons. pose proof (named_seq m n M (N n x (or_introl eq_refl))) as Q.
  specialize (IH ltac:(intros ? ? ?; eapply N; right; eauto) s c). cbn [In]. destruct (part_seq m n) as [s'|]; cbn [In]; rewrite IH.
  - destruct Q as (S' & ->). split.
    + intros [E|E]; [injection E as -> ->; auto|tauto].
    + intros (S & [E|E]); auto. left. assert (E1 : part_name m s' = part_name m s) by congruence. apply part_inj in E1; auto. destruct E1 as (_ & _ & ->). congruence.
  - split; [tauto|]. intros (S & [E|E]); auto. exfalso. apply (Q s S). congruence.
Qed.
Lemma parts_of_nodup m d : mpf_ok m -> (forall n c, In (n, c) d -> named n) -> NoDup (map fst d) -> NoDup (map fst (parts_of m d)).
Proof.
  intros M. induction d as [|[n x] d IH]; intros N D; [constructor|]. rewrite parts_of_cons. pose proof (named_seq m n M (N n x (or_introl eq_refl))) as Q.
  cbn [map fst] in D. inversion D; subst. assert (N' : forall n c, In (n, c) d -> named n) by (intros; eapply N; right; eauto).
  destruct (part_seq m n) as [s'|]; auto. cbn [map fst]. constructor; auto. intros X. apply in_map_iff in X. destruct X as ([s c] & E & X). cbn [fst] in E. subst s.
  apply parts_of_in in X; auto. destruct X as (S & X). destruct Q as (_ & ->). apply H1. change (part_name m s') with (fst (part_name m s', c)). apply in_map. auto.
Qed.

(** ** Sorting *)
Definition slt (a b : Z * bytes) : Prop := fst a < fst b.
Lemma insert_perm p l : Permutation (p :: l) (insert_part p l).
Proof. induction l as [|q l IH]; cbn [insert_part]; auto. destruct (fst q <? fst p); auto. rewrite <- IH. apply perm_swap. Qed.
Lemma sort_perm l : Permutation l (sort_parts l).
Proof. induction l as [|p l IH]; cbn [sort_parts fold_right]; auto. fold (sort_parts l). rewrite <- insert_perm. auto. Qed.
Lemma insert_sorted p l : StronglySorted slt l -> ~ In (fst p) (map fst l) -> StronglySorted slt (insert_part p l).
Proof.
  induction 1 as [|q l S IH F]; intros N; cbn [insert_part]; [repeat constructor|]. cbn [map In] in N. destruct (Z.ltb_spec (fst q) (fst p)).
  - constructor; [apply IH; tauto|]. eapply Permutation_Forall; [apply insert_perm|]. constructor; auto.
  - assert (slt p q) by (unfold slt; lia). constructor; [constructor; auto|]. constructor; auto. eapply Forall_impl; [|exact F]. unfold slt in *. intros. lia.
Qed.
Lemma sort_sorted l : NoDup (map fst l) -> StronglySorted slt (sort_parts l).
Proof.
  induction l as [|p l IH]; intros N; [constructor|]. cbn [map] in N. inversion N; subst. cbn [sort_parts fold_right]. fold (sort_parts l). apply insert_sorted; auto.
  intros X. apply H1. eapply Permutation_in; [|exact X]. apply Permutation_map. symmetry. apply sort_perm.
Qed.
Lemma sorted_unique l : StronglySorted slt l -> forall l', StronglySorted slt l' -> (forall p, In p l <-> In p l') -> l = l'.
Proof.
  induction 1 as [|p l S IH F]; intros l' S' E.
  - destruct l' as [|q l']; auto. exfalso. apply (E q). left. reflexivity.
  - destruct S' as [|q l' S' F']; [exfalso; apply (E p); left; reflexivity|]. rewrite Forall_forall in F, F'.
    assert (p = q). { destruct (proj1 (E p) (or_introl eq_refl)) as [|X]; auto. destruct (proj2 (E q) (or_introl eq_refl)) as [|Y]; auto. apply F in Y. apply F' in X. unfold slt in *. lia. }
    subst q. f_equal. apply IH; auto. intros x. specialize (E x). cbn [In] in E. split; intros X.
    + destruct (proj1 E (or_intror X)) as [->|]; auto. apply F in X. unfold slt in X. lia.
    + destruct (proj2 E (or_intror X)) as [->|]; auto. apply F' in X. unfold slt in X. lia.
Qed.

(** ** The queries *)
Lemma walk_ok pre f outs m : minv pre f outs -> mpf_ok m -> touched pre (mp_icc m) ->
  exists d, alist_get (fs_dirs f) (format_uint (mp_icc m)) = Some d /\ walk_parts f m = Ok (parts_of m d) /\ dir_ok pre outs (mp_icc m) d /\
    NoDup (map fst (parts_of m d)) /\ forall s c, In (s, c) (parts_of m d) <-> is_u16 s /\ written pre m s = Some c.
Proof.
  intros (P & I) M T. pose proof M as (Mi & _). specialize (I (mp_icc m) ltac:(lia)). unfold walk_parts, root_dir. destruct (alist_get _ _) as [d|]; [|tauto].
  destruct I as (_ & D). exists d. split; [auto|]. split; [reflexivity|]. split; auto. destruct D as (ND & NM & WR & LM). split; [apply parts_of_nodup; auto|].
  intros s c. rewrite parts_of_in by auto. split; intros (S & H); split; auto.
  - rewrite <- WR by auto. apply alist_in_get; auto.
  - apply alist_get_in. rewrite WR; auto.
Qed.
Lemma walk_missing pre f outs m : minv pre f outs -> mpf_ok m -> ~ touched pre (mp_icc m) -> walk_parts f m = Panic.
Proof.
  intros (P & I) M T. pose proof M as (Mi & _). specialize (I (mp_icc m) ltac:(lia)). unfold walk_parts, root_dir. destruct (alist_get _ _) as [d|]; tauto.
Qed.

Lemma strike parts : forall set i, In i (fold_left (fun set (p : Z * bytes) => filter (fun i => negb (i =? fst p)) set) parts set) <-> In i set /\ forall c, ~ In (i, c) parts.
Proof.
  induction parts as [|[s c] parts IH]; intros set i; cbn [fold_left]; [cbn; intuition|]. rewrite IH, filter_In. cbn [fst In]. split.
  - intros ((A & B) & C). split; auto. intros x [E|E]; [injection E as -> _; lia|eapply C; eauto].
  - intros (A & B). split; [|intros x X; eapply B; eauto]. split; auto. destruct (Z.eqb_spec i s) as [->|]; auto. exfalso. eapply B; left; reflexivity.
Qed.
Lemma in_seq_set n i : 0 <= n -> In i (seq_set n) <-> 1 <= i <= n.
Proof.
  intros N. unfold seq_set. rewrite in_map_iff. split.
  - intros (k & <- & H). apply in_seq in H. lia.
  - intros H. exists (Z.to_nat i). split; [lia|]. apply in_seq. lia.
Qed.
Lemma full_query pre f outs m : minv pre f outs -> mpf_ok m -> touched pre (mp_icc m) ->
  exists b, is_full f m = Ok b /\ (b = true <-> forall i, 1 <= i <= mp_sum m -> written pre m i <> None).
Proof.
  intros V M T. destruct (walk_ok _ _ _ _ V M T) as (d & _ & W & _ & _ & MEM). unfold is_full. rewrite W. cbn [bind]. eexists. split; [reflexivity|].
  pose proof M as (_ & _ & _ & SU). pose proof (strike (parts_of m d) (seq_set (mp_sum m))) as ST. unfold is_u16 in SU.
  destruct (fold_left _ _ _) as [|i0 rest]; split; try discriminate; auto.
  - intros _ i R E. assert (X : In i []); [|destruct X]. apply ST. split; [apply in_seq_set; lia|]. intros c C. apply MEM in C. destruct C. congruence.
  - intros H. exfalso. destruct (proj1 (ST i0) (or_introl eq_refl)) as (A & B). apply in_seq_set in A; [|lia]. specialize (H i0 A). destruct (written pre m i0) as [c|] eqn:E; [|congruence].
    apply (B c). apply MEM. split; auto. unfold is_u16. lia.
Qed.
Lemma merge_query pre f outs m : minv pre f outs -> mpf_ok m -> touched pre (mp_icc m) ->
  exists l f', parts_in_order pre m l /\ mp_merge f m = Ok (over (concat (map snd l)) (match last_merge outs m with Some c => c | None => [] end), f').
Proof.
  intros V M T. destruct (walk_ok _ _ _ _ V M T) as (d & G & W & D & ND & MEM). unfold mp_merge. rewrite W. unfold root_dir. rewrite G. cbn [bind].
  destruct D as (_ & _ & _ & LM). rewrite LM by auto. exists (sort_parts (parts_of m d)). eexists. split; [|reflexivity].
  split; [apply sort_sorted; auto|]. intros s c. rewrite <- MEM. pose proof (sort_perm (parts_of m d)). split; apply Permutation_in; auto. symmetry. auto.
Qed.
Lemma query_missing pre f outs m : minv pre f outs -> mpf_ok m -> ~ touched pre (mp_icc m) -> is_full f m = Panic /\ mp_merge f m = Panic.
Proof. intros V M T. pose proof (walk_missing _ _ _ _ V M T) as W. unfold is_full, mp_merge. rewrite W. auto. Qed.
