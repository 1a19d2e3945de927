(** The files of a server whose calls may fail hold what the uploads say. *)
From Coq Require Import Sorted Permutation.
From Verif Require Import Base LibBase Bcd Multipart Overlap Faults LibMulti SpecMulti ProofMulti SpecFaults.

(** ** Pieces *)
Fixpoint piece (s : Z) (l : list (Z * bytes)) : option bytes :=
  match l with [] => None | (s', c) :: t => if s' =? s then Some c else piece s t end.
Lemma piece_in l s c : StronglySorted slt l -> In (s, c) l <-> piece s l = Some c.
Proof.
  induction 1 as [|[s' c'] l S IH F]; cbn [piece In]; [split; [tauto|discriminate]|]. rewrite Forall_forall in F. destruct (Z.eqb_spec s' s) as [->|N].
  - split; [|intros E; left; congruence]. intros [E|E]; [congruence|]. apply F in E. unfold slt in E. cbn in E. lia.
  - rewrite <- IH. split; [intros [E|E]; [congruence|auto]|auto].
Qed.
Lemma put_in s c l p : In p (put_piece s c l) -> p = (s, c) \/ In p l.
Proof.
  induction l as [|[s' c'] l IH]; cbn [put_piece In]; [intuition|]. intros H. destruct (s =? s') eqn:A; [destruct H; auto|].
  destruct (s <? s'); cbn [In] in H; [intuition|]. destruct H as [|H]; auto. apply IH in H. tauto.
Qed.
Lemma put_sorted s c l : StronglySorted slt l -> StronglySorted slt (put_piece s c l).
Proof.
  induction 1 as [|[s' c'] l S IH F]; cbn [put_piece]; [repeat constructor|]. destruct (Z.eqb_spec s s') as [->|N]; [constructor; auto|].
  destruct (Z.ltb_spec s s').
  - constructor; [constructor; auto|]. constructor; [exact H|]. eapply Forall_impl; [|exact F]. unfold slt. cbn. lia.
  - constructor; auto. rewrite Forall_forall in *. intros p P. apply put_in in P. destruct P as [->|P]; [unfold slt; cbn; lia|auto].
Qed.
Lemma put_piece_get s c l i : StronglySorted slt l -> piece i (put_piece s c l) = if s =? i then Some c else piece i l.
Proof.
  induction 1 as [|[s' c'] l S IH F]; cbn [put_piece piece]; [reflexivity|]. destruct (Z.eqb_spec s s') as [->|N]; cbn [piece]; [destruct (s' =? i); auto|].
  destruct (Z.ltb_spec s s'); cbn [piece]; [reflexivity|]. rewrite IH. destruct (Z.eqb_spec s' i), (Z.eqb_spec s i); auto; lia.
Qed.
Lemma complete_iff n l : 0 <= n -> StronglySorted slt l -> complete n l = true <-> forall i, 1 <= i <= n -> piece i l <> None.
Proof.
  intros N S. unfold complete. rewrite forallb_forall. split.
  - intros H i R E. specialize (H i (proj2 (in_seq_set n i N) R)). apply existsb_exists in H. destruct H as ([s c] & I & Q). cbn in Q. apply Z.eqb_eq in Q. subst s.
    apply piece_in in I; auto. congruence.
  - intros H i I. apply (in_seq_set n i N) in I. specialize (H i I). destruct (piece i l) as [c|] eqn:E; [|congruence]. apply existsb_exists. exists (i, c).
    split; [apply piece_in; auto|cbn; lia].
Qed.

(** ** The invariant *)
Definition ul_ok (u : upload) : Prop := StronglySorted slt (ul_pieces u) /\ Forall (fun p => is_u16 (fst p)) (ul_pieces u).
Definition holds (U : mpf -> upload) (icc : Z) (d : dir) : Prop :=
  NoDup (map fst d) /\ (forall n c, In (n, c) d -> named n) /\
  (forall m s, mpf_ok m -> is_u16 s -> mp_icc m = icc -> alist_get d (part_name m s) = piece s (ul_pieces (U m))) /\
  (forall m, mpf_ok m -> mp_icc m = icc -> alist_get d (full_name m) = ul_full (U m)).
Definition finv (f : fs) (U : mpf -> upload) : Prop :=
  fs_priv f = true /\ (forall m m', same_upload m m' = true -> U m = U m') /\ (forall m, ul_ok (U m)) /\
  forall icc, 0 <= icc ->
    match alist_get (fs_dirs f) (format_uint icc) with
    | None => forall m, mp_icc m = icc -> U m = new_upload
    | Some d => holds U icc d
    end.
Definition upd (m : mpf) (u : upload) (U : mpf -> upload) (m' : mpf) : upload := if same_upload m m' then u else U m'.

Lemma same_refl m : same_upload m m = true.
Proof. unfold same_upload. rewrite !Z.eqb_refl. reflexivity. Qed.
Lemma same_tr a b c : same_upload a b = true -> same_upload a c = same_upload b c.
Proof. unfold same_upload. lia. Qed.
Lemma same_sym a b : same_upload a b = same_upload b a.
Proof. unfold same_upload. lia. Qed.
Lemma finv_ext f U U' : (forall m, U' m = U m) -> finv f U -> finv f U'.
Proof.
  intros E (P & C & K & D). split; auto. split; [intros; rewrite !E; auto|]. split; [intros; rewrite E; auto|]. intros icc Hi. specialize (D icc Hi).
  destruct (alist_get _ _) as [d|]; [|intros; rewrite E; auto]. destruct D as (A & B & W & F). split; auto. split; auto. split; intros; rewrite E; auto.
Qed.
Lemma upd_same f U m : finv f U -> finv f (upd m (U m) U).
Proof. intros V. eapply finv_ext; [|exact V]. intros m'. unfold upd. destruct (same_upload m m') eqn:E; auto. apply V. auto. Qed.
Lemma finv_init : finv empty_fs (fun _ => new_upload).
Proof. split; [reflexivity|]. split; auto. split; [split; constructor|]. intros icc H. cbn. auto. Qed.
Lemma dir_holds f U m : finv f U -> mpf_ok m -> holds U (mp_icc m) (dir_of f m).
Proof.
  intros (P & C & K & D) M. pose proof M as (Mi & _). specialize (D (mp_icc m) ltac:(lia)). unfold dir_of, root_dir. destruct (alist_get _ _) as [d|]; auto.
  split; [constructor|]. split; [intros ? ? []|]. cbn [alist_get]. split; intros; rewrite D; auto.
Qed.
(** Replacing the directory of a terminal *)
Lemma put_dir f U m u d : finv f U -> mpf_ok m -> ul_ok u -> holds (upd m u U) (mp_icc m) d ->
  finv (Fs (fs_priv f) (alist_set (fs_dirs f) (root_dir m) d)) (upd m u U).
Proof.
  intros (P & C & K & D) M Ku H. pose proof M as (Mi & _). split; auto. split.
  { intros a b E. unfold upd. rewrite (same_sym m a), (same_sym m b), (same_tr _ _ m E). destruct (same_upload b m); auto. }
  split; [intros a; unfold upd; destruct (same_upload m a); auto|]. cbn [fs_dirs]. intros icc Hi. rewrite alist_get_set. unfold root_dir.
  destruct (beq_spec (format_uint (mp_icc m)) (format_uint icc)) as [E|E].
  - apply icc_inj in E; [|lia|lia]. subst icc. auto.
  - assert (N : mp_icc m <> icc) by congruence. specialize (D icc Hi). assert (Q : forall a, mp_icc a = icc -> upd m u U a = U a).
    { intros a A. unfold upd. destruct (same_upload_spec m a) as [(X & _)|]; auto. congruence. }
    destruct (alist_get _ _) as [d'|]; [|intros; rewrite Q; auto]. destruct D as (A & B & W & F). split; auto. split; auto. split; intros; rewrite Q; auto.
Qed.
Lemma put_part f U m s c : finv f U -> mpf_ok m -> is_u16 s ->
  finv (Fs (fs_priv f) (alist_set (fs_dirs f) (root_dir m) (alist_set (dir_of f m) (part_name m s) c)))
    (upd m (Upload (put_piece s c (ul_pieces (U m))) (ul_full (U m))) U).
Proof.
  intros V M S. destruct (dir_holds _ _ _ V M) as (ND & NM & WR & FU). pose proof V as (_ & C & K & _). apply put_dir; auto.
  { destruct (K m) as (A & B). split; cbn; [apply put_sorted; auto|]. rewrite Forall_forall in *. intros p I. apply put_in in I. destruct I as [->|I]; auto. }
  split; [apply alist_set_nodup; auto|]. split; [|split].
  - intros n x H. apply alist_set_in in H. destruct H as [H|H]; [injection H as -> _; left; eauto|eauto].
  - intros m' s' M' S' Em. rewrite alist_get_set, WR by auto. unfold upd. destruct (same_upload_spec m m') as [(A & B & D)|N].
    + cbn [ul_pieces]. rewrite put_piece_get by apply K. rewrite (C m' m) by (unfold same_upload; lia).
      destruct (beq_spec (part_name m s) (part_name m' s')) as [En|En]; destruct (Z.eqb_spec s s') as [->|Ns]; auto.
      * apply part_inj in En; auto. lia.
      * exfalso. apply En. unfold part_name. rewrite B, D. reflexivity.
    + destruct (beq_spec (part_name m s) (part_name m' s')) as [En|En]; auto. apply part_inj in En; auto. exfalso. apply N. intuition congruence.
  - intros m' M' Em. rewrite alist_get_set, FU by auto. destruct (beq_spec (part_name m s) (full_name m')) as [En|]; [apply part_not_full in En; tauto|].
    unfold upd. destruct (same_upload m m') eqn:E; auto. cbn [ul_full]. rewrite (C _ _ E). reflexivity.
Qed.
Lemma put_full f U m c : finv f U -> mpf_ok m ->
  finv (Fs (fs_priv f) (alist_set (fs_dirs f) (root_dir m) (alist_set (dir_of f m) (full_name m) c))) (upd m (Upload (ul_pieces (U m)) (Some c)) U).
Proof.
  intros V M. destruct (dir_holds _ _ _ V M) as (ND & NM & WR & FU). pose proof V as (_ & C & K & _). apply put_dir; auto.
  { apply (K m). }
  split; [apply alist_set_nodup; auto|]. split; [|split].
  - intros n x H. apply alist_set_in in H. destruct H as [H|H]; [injection H as -> _; right; eauto|eauto].
  - intros m' s' M' S' Em. rewrite alist_get_set, WR by auto. destruct (beq_spec (full_name m) (part_name m' s')) as [X|]; [symmetry in X; apply part_not_full in X; tauto|].
    unfold upd. destruct (same_upload m m') eqn:E; auto. cbn [ul_pieces]. rewrite (C _ _ E). reflexivity.
  - intros m' M' Em. rewrite alist_get_set, FU by auto. unfold upd. destruct (beq_spec (full_name m) (full_name m')) as [X|X].
    + apply full_inj' in X; auto. destruct (same_upload_spec m m') as [_|Y]; auto. exfalso. apply Y. intuition congruence.
    + destruct (same_upload_spec m m') as [(A & B & D)|]; auto. exfalso. apply X. unfold full_name. rewrite B, D. reflexivity.
Qed.
Lemma put_none f U m : finv f U -> mpf_ok m -> finv (Fs (fs_priv f) (alist_set (fs_dirs f) (root_dir m) (dir_of f m))) (upd m (U m) U).
Proof.
  intros V M. pose proof V as (_ & C & K & _). apply put_dir; auto. destruct (dir_holds _ _ _ V M) as (ND & NM & WR & FU).
  assert (Q : forall m', upd m (U m) U m' = U m') by (intros m'; unfold upd; destruct (same_upload m m') eqn:E; auto).
  split; auto. split; auto. split; intros; rewrite Q; auto.
Qed.

(** ** Walking *)
Lemma walk_pieces f U m d : finv f U -> mpf_ok m -> alist_get (fs_dirs f) (root_dir m) = Some d ->
  exists l, walk_parts f m = Ok l /\ sort_parts l = ul_pieces (U m) /\ forall p, In p l <-> In p (ul_pieces (U m)).
Proof.
  intros V M G. pose proof (dir_holds _ _ _ V M) as (ND & NM & WR & FU). unfold dir_of in *. rewrite G in *. pose proof V as (_ & _ & K & _). destruct (K m) as (SS & RG).
  rewrite Forall_forall in RG. unfold walk_parts. rewrite G. exists (parts_of m d). split; [reflexivity|].
  assert (MEM : forall p, In p (parts_of m d) <-> In p (ul_pieces (U m))).
  { intros [s c]. rewrite parts_of_in, (piece_in _ _ _ SS) by auto. split.
    - intros (S & I). rewrite <- (WR m s M S eq_refl). apply alist_in_get; auto.
    - intros E. assert (S : is_u16 s) by (apply (RG (s, c)), piece_in; auto). split; auto. apply alist_get_in. rewrite WR; auto. }
  split; auto. apply sorted_unique; auto; [apply sort_sorted, parts_of_nodup; auto|]. intros p. rewrite <- MEM. split; apply Permutation_in; [symmetry|]; apply sort_perm.
Qed.
Lemma full_pieces f U m d : finv f U -> mpf_ok m -> alist_get (fs_dirs f) (root_dir m) = Some d -> is_full_io f m KDone = Ok (complete (mp_sum m) (ul_pieces (U m))).
Proof.
  intros V M G. destruct (walk_pieces _ _ _ _ V M G) as (l & W & _ & MEM). unfold is_full_io, walk_io. rewrite W. cbn [bind]. f_equal.
  pose proof M as (_ & _ & _ & SU). unfold is_u16 in SU. pose proof (strike l (seq_set (mp_sum m))) as ST. pose proof V as (_ & _ & K & _). destruct (K m) as (SS & _).
  pose proof (complete_iff (mp_sum m) (ul_pieces (U m)) ltac:(lia) SS) as CI. destruct (fold_left _ _ _) as [|i0 rest].
  - symmetry. apply CI. intros i R E. assert (X : In i []); [|destruct X]. apply ST. split; [apply in_seq_set; lia|]. intros c C. apply MEM, piece_in in C; auto. congruence.
  - destruct (complete _ _); auto. exfalso. destruct (proj1 (ST i0) (or_introl eq_refl)) as (A & B). apply in_seq_set in A; [|lia]. apply (proj1 CI eq_refl) in A.
    destruct (piece i0 (ul_pieces (U m))) as [c|] eqn:E; [|congruence]. apply (B c). apply MEM, piece_in; auto.
Qed.
Lemma full_nolist f m d : mpf_ok m -> alist_get (fs_dirs f) (root_dir m) = Some d -> is_full_io f m KNoList = Ok (mp_sum m =? 0).
Proof.
  intros (_ & _ & _ & SU) G. unfold is_full_io, walk_io. rewrite G. cbn [bind fold_left]. f_equal. unfold seq_set, is_u16 in *. destruct (Z.eqb_spec (mp_sum m) 0) as [->|N]; [reflexivity|].
  destruct (Z.to_nat (mp_sum m)) eqn:E; [lia|reflexivity].
Qed.

(** ** A packet *)
Lemma merge_pieces f U m d x : finv f U -> mpf_ok m -> alist_get (fs_dirs f) (root_dir m) = Some d ->
  match merging x (U m) with
  | None => merge_io f m x = Panic
  | Some (u, o) => exists f' c, merge_io f m x = Ok (f', c) /\ match c with Some c => OWhole c | None => OKept end = o /\ finv f' (upd m u U)
  end.
Proof.
  intros V M G. destruct (walk_pieces _ _ _ _ V M G) as (l & W & SO & _). pose proof (dir_holds _ _ _ V M) as (_ & _ & _ & FU).
  specialize (FU m M eq_refl). unfold merge_io, merging. destruct x as [[]| | | |]; cbn [walk_io]; rewrite ?W, ?G; cbn [bind]; auto; rewrite ?SO, ?FU;
    (do 2 eexists; split; [reflexivity|]; split; [reflexivity|]; first [apply put_full; auto|apply upd_same; auto]).
Qed.
Lemma upd_upd m u u' U m' : upd m u (upd m u' U) m' = upd m u U m'.
Proof. unfold upd. destruct (same_upload m m'); auto. Qed.
Lemma upd_get m u U : upd m u U m = u.
Proof. unfold upd. rewrite same_refl. reflexivity. Qed.
Lemma packet_step f U p x : finv f U -> packet_ok p ->
  match upload_step (U (pk_up p)) (p, x) with
  | None => packet_io f p x = Panic
  | Some (u, o) => exists f', packet_io f p x = Ok (f', o) /\ finv f' (upd (pk_up p) u U)
  end.
Proof.
  intros V (M & S). pose proof V as (P & _). unfold packet_io, upload_step, write_io. rewrite P. cbn [negb]. destruct (io_write x) as [| | |k]; cbn [leaves].
  2:{ eexists. split; [reflexivity|]. apply upd_same; auto. }
  2:{ eexists. split; [reflexivity|]. rewrite <- P. apply put_none; auto. }
  2:{ eexists. split; [reflexivity|]. rewrite <- P. apply put_part; auto. }
  pose proof (put_part _ _ _ _ (pk_data p) V M S) as V1. rewrite P in V1. remember (Upload (put_piece _ _ _) _) as u1 eqn:Eu. cbn [negb].
  destruct (pk_seq p =? mp_sum (pk_up p)) eqn:Q; cbn [negb]; [|eexists; split; [reflexivity|exact V1]].
  remember (Fs true _) as f1 eqn:Ef. assert (G : exists d, alist_get (fs_dirs f1) (root_dir (pk_up p)) = Some d).
  { rewrite Ef. cbn [fs_dirs]. rewrite alist_get_set, beq_refl. eauto. }
  destruct G as (d & G). pose proof (full_pieces _ _ _ _ V1 M G) as FP. pose proof (full_nolist _ _ _ M G) as FN. pose proof (merge_pieces _ _ _ _ (io_merge x) V1 M G) as MP.
  rewrite upd_get in FP, MP.
  assert (T : match merging (io_merge x) u1 with
              | None => (do (f2, c) <- merge_io f1 (pk_up p) (io_merge x); Ok (f2, match c with Some c => OWhole c | None => OKept end)) = Panic
              | Some (u, o) => exists f', (do (f2, c) <- merge_io f1 (pk_up p) (io_merge x); Ok (f2, match c with Some c => OWhole c | None => OKept end)) = Ok (f', o) /\ finv f' (upd (pk_up p) u U)
              end).
  { destruct (merging _ _) as [[u o]|]; [|rewrite MP; reflexivity]. destruct MP as (f2 & c & -> & <- & V2). cbn [bind]. eexists. split; [reflexivity|].
    eapply finv_ext; [|exact V2]. intros m'. symmetry. apply upd_upd. }
  destruct (io_full x).
  - rewrite FP. cbn [bind]. destruct (complete _ _); cbn [negb]; [exact T|]. eexists. split; [reflexivity|exact V1].
  - rewrite FN. cbn [bind]. destruct (_ =? 0); cbn [negb]; [exact T|]. eexists. split; [reflexivity|exact V1].
  - reflexivity.
Qed.

(** ** A history *)
Lemma io_run_uploads h : Forall attempt_ok h -> forall f U, finv f U ->
  match io_run f h with
  | Ok (f', os) => length os = length h /\ exists U', finv f' U' /\ forall m, upload_run (U m) (own m h) = Some (U' m, own_outcomes m h os)
  | Err _ => False
  | Panic => exists m, mpf_ok m /\ upload_run (U m) (own m h) = None
  end.
Proof.
  induction 1 as [|[p x] h O H IH]; intros f U V; cbn [io_run].
  { split; auto. exists U. split; auto. }
  pose proof (packet_step f U p x V O) as Q. pose proof V as (_ & C & _). destruct (upload_step (U (pk_up p)) (p, x)) as [[u o]|] eqn:E.
  - destruct Q as (f1 & -> & V1). cbn [bind]. specialize (IH f1 _ V1). destruct (io_run f1 h) as [[f2 os]|e|]; cbn [bind].
    + destruct IH as (L & U2 & V2 & R). split; [cbn; auto|]. exists U2. split; auto. intros m. specialize (R m). unfold own, own_outcomes in *. cbn [filter combine fst].
      assert (OU : of_upload m (p, x) = same_upload (pk_up p) m) by reflexivity. rewrite OU. unfold upd in R. destruct (same_upload (pk_up p) m) eqn:SU; auto. cbn [upload_run map snd].
      rewrite <- (C _ _ SU), E, R. reflexivity.
    + exact IH.
    + destruct IH as (m & M & R). exists m. split; auto. unfold own in *. cbn [filter]. unfold of_upload at 1. cbn [fst]. unfold upd in R.
      destruct (same_upload (pk_up p) m) eqn:SU; auto. cbn [upload_run]. rewrite <- (C _ _ SU), E, R. reflexivity.
  - rewrite Q. cbn [bind]. exists (pk_up p). split; [apply O|]. unfold own. cbn [filter]. unfold of_upload at 1. cbn [fst]. rewrite same_refl. cbn [upload_run]. rewrite E. reflexivity.
Qed.
