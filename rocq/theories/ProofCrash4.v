(** Uploads under faults and crashes: success, and sending everything again. *)
From Coq Require Import Sorted Permutation.
From Verif Require Import Base LibBase Multipart Overlap Faults LibMulti SpecMulti ProofMulti SpecFaults ProofFaults ProofFaults2 SpecOverlap ProofOverlap ProofOverlap2 Crash SpecCrash ProofCrash ProofCrash2 ProofCrash3.

(** ** A merge of packets answered with success *)
Lemma part_written hs m i : part_of hs m i <> None -> exists h, In h hs /\ writes m i (snd h).
Proof.
  induction hs as [|h hs IH] using rev_ind; intros N; [exfalso; apply N; reflexivity|]. rewrite part_app in N.
  assert (K : part_of hs m i <> None -> exists h0, In h0 (hs ++ [h]) /\ writes m i (snd h0)).
  { intros Q. destruct (IH Q) as (h0 & A & B). exists h0. split; auto. apply in_or_app. auto. }
  destruct (snd h) as [m' i'|m' i' d w| | | | |] eqn:E; auto; destruct (same_upload m' m) eqn:Q; cbn [andb] in N; auto; destruct (Z.eqb_spec i' i) as [->|]; auto;
    exists h; (split; [apply in_or_app; right; left; auto|rewrite E; cbn; auto]).
Qed.
Lemma no_lay hs m : (forall h, In h hs -> match snd h with HLay m' _ _ => same_upload m' m = false | _ => True end) -> full_of hs m = [].
Proof.
  induction hs as [|h hs IH] using rev_ind; intros N; [reflexivity|]. rewrite full_app, IH by (intros h0 J; apply N, in_or_app; auto).
  specialize (N h ltac:(apply in_or_app; right; left; auto)). destruct (snd h); auto. rewrite N. reflexivity.
Qed.
Lemma merge_success os b a i m mid m' c post : Forall bop_ok os -> brun box_new os = (b, a ++ (i, HStart m true) :: mid ++ (i, HWhole m' c) :: post) ->
  (forall j h, In (j, h) mid -> j <> i -> ~ changes m h) -> (forall m1 q1, ~ In (i, HStart m1 q1) mid) ->
  (forall h s, In h a -> writes m s (snd h) -> exists d, settled_part a m s d) ->
  exists l, StronglySorted (fun a b => fst a < fst b) l /\ (forall s d, In (s, d) l <-> is_u16 s /\ settled_part a m s d) /\
    (forall s, 1 <= s <= mp_sum m -> exists d, In (s, d) l) /\ c = over (concat (map snd l)) (full_of a m).
Proof.
  intros O E N1 N2 ST. destruct (quiet_merge _ _ _ _ _ _ _ _ _ _ O E N1 N2) as (-> & l & (SO & L) & ->). exists l. split; auto.
  pose proof (just_all _ _ _ O E a (i, HStart m true) _ eq_refl) as (M & AP).
  assert (EQ : forall s d, settled_part a m s d <-> part_of a m s = Some d).
  { intros s d. split; [apply settled_holds|]. intros Q. destruct (part_written a m s ltac:(congruence)) as (h & A & B). destruct (ST h s A B) as (d' & D). rewrite (settled_holds _ _ _ _ D) in Q. injection Q as ->. auto. }
  split; [intros s d; rewrite EQ; apply L|]. split; auto. intros s R. destruct (part_of a m s) as [d|] eqn:Q; [|exfalso; exact (AP s R Q)]. exists d. apply L. split; auto.
  pose proof M as (_ & _ & _ & SU). unfold is_u16 in *. lia.
Qed.

(** ** Sending all packets again *)
Lemma once_io f p f' o : at_once f p f' o -> packet_io f p no_faults = Ok (f', o).
Proof.
  unfold at_once. rewrite no_faults_step. destruct (mp_write f (pk_up p) (pk_seq p) (pk_data p)) as [f1| |]; [|intros (-> & ->); auto|intros (-> & ->); auto].
  destruct (pk_seq p =? mp_sum (pk_up p)); cbn [negb]; [|intros (-> & ->); auto]. intros (full & -> & H). cbn [bind]. destruct full; [|destruct H as (-> & ->); auto]. destruct H as (c & -> & ->). reflexivity.
Qed.
Lemma turn_io f ps f' os : in_turn f ps f' os -> io_run f (map (fun p => (p, no_faults)) ps) = Ok (f', os).
Proof. induction 1 as [f|f p f1 o ps f2 os A T IH]; cbn [map io_run]; auto. rewrite (once_io _ _ _ _ A). cbn [bind]. rewrite IH. reflexivity. Qed.
Definition step1 (p : packet) : attempt := (p, no_faults).
Fixpoint put_all (k : Z) (ds : list bytes) (l : list (Z * bytes)) : list (Z * bytes) :=
  match ds with [] => l | d :: r => put_all (k + 1) r (put_piece k d l) end.
Lemma put_all_sorted ds : forall k l, StronglySorted slt l -> StronglySorted slt (put_all k ds l).
Proof. induction ds as [|d r IH]; intros k l S; cbn [put_all]; auto. apply IH, put_sorted; auto. Qed.
Lemma put_all_get ds : forall k l s, StronglySorted slt l ->
  piece s (put_all k ds l) = if (k <=? s) && (s <? k + zlen ds) then nth_error ds (Z.to_nat (s - k)) else piece s l.
Proof.
  induction ds as [|d r IH]; intros k l s S; cbn [put_all]; unfold zlen; cbn [length].
  - replace ((k <=? s) && (s <? k + Z.of_nat 0)) with false by lia. reflexivity.
  - rewrite IH by (apply put_sorted; auto). rewrite put_piece_get by auto. unfold zlen. destruct (Z.eqb_spec k s) as [->|N].
    + replace ((s + 1 <=? s) && (s <? s + 1 + Z.of_nat (length r))) with false by lia. replace ((s <=? s) && (s <? s + Z.of_nat (Datatypes.S (length r)))) with true by lia. rewrite Z.sub_diag. reflexivity.
    + replace ((k + 1 <=? s) && (s <? k + 1 + Z.of_nat (length r))) with ((k <=? s) && (s <? k + Z.of_nat (Datatypes.S (length r)))) by lia.
      destruct ((k <=? s) && (s <? k + Z.of_nat (Datatypes.S (length r)))) eqn:Q; auto. replace (Z.to_nat (s - k)) with (Datatypes.S (Z.to_nat (s - (k + 1)))) by lia. reflexivity.
Qed.
Lemma kept_step u p : pk_seq p <> mp_sum (pk_up p) -> upload_step u (step1 p) = Some (Upload (put_piece (pk_seq p) (pk_data p) (ul_pieces u)) (ul_full u), OKept).
Proof. intros N. unfold upload_step, step1, no_faults. cbn [io_write leaves]. replace (pk_seq p =? mp_sum (pk_up p)) with false by lia. reflexivity. Qed.
Lemma whole_step u p : let l := put_piece (pk_seq p) (pk_data p) (ul_pieces u) in pk_seq p = mp_sum (pk_up p) -> complete (mp_sum (pk_up p)) l = true ->
  upload_step u (step1 p) = Some (Upload l (Some (over (concat (map snd l)) (dfl (ul_full u)))), OWhole (over (concat (map snd l)) (dfl (ul_full u)))).
Proof. intros l E C. unfold upload_step, step1, no_faults. cbn [io_write io_full io_merge leaves ul_pieces]. fold l. replace (pk_seq p =? mp_sum (pk_up p)) with true by lia. cbn [negb]. rewrite C. reflexivity. Qed.
Lemma run_again m ds : mpf_ok m -> ds <> [] -> forall k u, StronglySorted slt (ul_pieces u) -> 1 <= k -> k - 1 + zlen ds = mp_sum m -> (forall s, 1 <= s < k -> piece s (ul_pieces u) <> None) ->
  exists u' , upload_run u (map step1 (packets_from m k ds)) =
    Some (u', repeat OKept (length ds - 1) ++ [OWhole (over (concat (map snd (put_all k ds (ul_pieces u)))) (dfl (ul_full u)))]).
Proof.
  intros M. induction ds as [|d r IH]; intros N k u S K L H; [congruence|]. clear N. cbn [packets_from map upload_run]. unfold zlen in *. cbn [length] in L. destruct r as [|d2 r].
  - cbn [length] in L. rewrite whole_step; cbn [pk_seq pk_up pk_data]; [|lia|].
    + cbn [packets_from map upload_run length Nat.sub repeat app put_all]. eexists. reflexivity.
    + apply complete_iff; [pose proof M as (_ & _ & _ & X); unfold is_u16 in X; lia|apply put_sorted; auto|]. intros s R. rewrite put_piece_get by auto. destruct (Z.eqb_spec k s); [discriminate|]. apply H. lia.
  - cbn [length] in L. rewrite kept_step by (cbn [pk_seq pk_up]; lia). cbn [pk_seq pk_data]. destruct (IH ltac:(discriminate) (k + 1) (Upload (put_piece k d (ul_pieces u)) (ul_full u))) as (u' & R).
    + cbn. apply put_sorted; auto.
    + lia.
    + cbn [length]. lia.
    + intros s Q. cbn [ul_pieces]. rewrite put_piece_get by auto. destruct (Z.eqb_spec k s); [discriminate|]. apply H. lia.
    + cbn [ul_pieces ul_full] in R. rewrite R. exists u'. cbn [length Nat.sub repeat app put_all]. rewrite Nat.sub_0_r. reflexivity.
Qed.

(** A goroutine that moves alone and without faults *)
Lemma no_fault f t : fst (fault_step f t FNone) = thread_step f t.
Proof.
  unfold fault_step, thread_step. destruct (th_at t) as [|p|p|p|m|m|m names|m names off|m]; cbn [fst]; auto.
  - destruct (fs_priv f); reflexivity.
  - destruct names; reflexivity.
Qed.
Lemma alone_moves k : forall f ts n t f' t', nth_error ts n = Some t -> steps k f t = (f', t') ->
  exists e, brun (Box f ts) (repeat (BMove n FNone) k) = (Box f' (firstn n ts ++ t' :: skipn (S n) ts), e).
Proof.
  induction k as [|k IH]; intros f ts n t f' t' N E; cbn [repeat brun steps] in *.
  - injection E as <- <-. exists []. f_equal. f_equal. apply nth_error_split in N. destruct N as (a & c & -> & <-). rewrite firstn_app, Nat.sub_diag, firstn_all. cbn [firstn]. rewrite app_nil_r. f_equal.
    replace (S (length a)) with (length a + 1)%nat by lia. rewrite skipn_plus, skipn_pre. reflexivity.
  - cbn [bstep bx_threads bx_fs]. rewrite N. pose proof (no_fault f t) as Q. destruct (fault_step f t FNone) as [[f1 t1] e1]. cbn [fst] in Q. rewrite <- Q in E.
    set (ts1 := firstn n ts ++ t1 :: skipn (S n) ts).
    assert (N1 : nth_error ts1 n = Some t1) by (unfold ts1; rewrite (nth_replace _ _ _ _ N), Nat.eqb_refl; reflexivity).
    destruct (IH f1 ts1 n t1 f' t' N1 E) as (e & R). fold ts1. rewrite R. eexists. f_equal. f_equal.
    unfold ts1. assert (L : (length (firstn n ts) = n)%nat) by (apply firstn_length_le; assert (n < length ts)%nat by (apply nth_error_Some; congruence); lia).
    rewrite firstn_app, L, Nat.sub_diag. cbn [firstn]. rewrite app_nil_r, firstn_firstn, Nat.min_id. f_equal. f_equal.
    replace (S n) with (length (firstn n ts) + 1)%nat at 1 by lia. rewrite skipn_plus, skipn_pre. reflexivity.
Qed.
(** Names stay unique in every directory. *)
Lemma mk_ok f m : fs_ok f -> fs_ok (Fs (fs_priv f) (alist_set (fs_dirs f) (root_dir m) (dir_of f m))).
Proof.
  intros K r d. cbn [fs_dirs]. rewrite alist_get_set. destruct (beq (root_dir m) r); [|apply K]. intros E. injection E as <-. apply dir_nodup; auto.
Qed.
Lemma step_fs_ok f t x : fs_ok f -> fs_ok (fst (fst (fault_step f t x))).
Proof.
  intros K. unfold fault_step, thread_step. destruct (th_at t) as [|p|p|p|m|m|m names|m names off|m].
  1: destruct (th_todo t); auto.
  7: destruct names.
  all: destruct x; try (destruct (fs_priv f) eqn:PR); try (destruct (negb (pk_seq p =? _))); try (destruct (fold_left _ _ _)); try (destruct (seq_set _)); cbn [negb fst]; auto; try (apply set_ok; auto); try (rewrite <- PR; apply mk_ok; auto).
Qed.
Lemma bstep_fs_ok b o : fs_ok (bx_fs b) -> fs_ok (bx_fs (fst (bstep b o))).
Proof.
  intros K. destruct o as [ps|i x|]; cbn [bstep]; auto. destruct (nth_error _ _) as [t|]; auto. pose proof (step_fs_ok (bx_fs b) t x K) as Q. destruct (fault_step _ _ _) as [[f' t'] e]. exact Q.
Qed.
Lemma brun_fs_ok os : forall b, fs_ok (bx_fs b) -> fs_ok (bx_fs (fst (brun b os))).
Proof.
  induction os as [|o r IH]; intros b K; cbn [brun]; auto. pose proof (bstep_fs_ok b o K) as Q. destruct (bstep b o) as [b1 e1]. cbn [fst] in Q. specialize (IH b1 Q). destruct (brun b1 r) as [b2 e2]. exact IH.
Qed.
Lemma own_packets m ds : forall k, own m (map step1 (packets_from m k ds)) = map step1 (packets_from m k ds).
Proof. induction ds as [|d r IH]; intros k; cbn [packets_from map]; auto. unfold own in *. cbn [filter]. unfold of_upload at 1. cbn [fst step1 pk_up]. rewrite same_refl, IH. reflexivity. Qed.
Lemma own_outs m ds : forall k os, length os = length ds -> own_outcomes m (map step1 (packets_from m k ds)) os = os.
Proof.
  induction ds as [|d r IH]; intros k [|o os] L; try discriminate; auto. cbn [packets_from map]. unfold own_outcomes in *. cbn [combine filter fst]. unfold of_upload at 1. cbn [fst step1 pk_up]. rewrite same_refl. cbn [map snd]. rewrite IH; auto.
Qed.
Lemma packets_length m ds : forall k, length (packets_from m k ds) = length ds.
Proof. induction ds as [|d r IH]; intros k; cbn [packets_from length]; auto. Qed.
Lemma packets_ok m ds : mpf_ok m -> forall k, 0 <= k -> k + zlen ds <= 65536 -> Forall packet_ok (packets_from m k ds).
Proof.
  intros M. induction ds as [|d r IH]; intros k K L; cbn [packets_from]; constructor; unfold zlen in *; cbn [length] in L; [split; auto; unfold is_u16; cbn; lia|]. apply IH; lia.
Qed.
Lemma sent_again os b hs m ds : Forall bop_ok os -> brun box_new os = (b, hs) -> mpf_ok m -> ds <> [] -> mp_sum m = zlen ds ->
  let n := length (bx_threads b) in exists l k, parts_again hs m ds l /\ forall k', (k <= k')%nat -> exists b' e, brun b (BConnect (packets_from m 1 ds) :: repeat (BMove n FNone) k') = (b', e) /\ nth_error (bx_threads b') n = Some (Thread [] TIdle (repeat OKept (length ds - 1) ++ [OWhole (over (concat (map snd l)) (full_of hs m))])).
Proof.
  intros O E M D SU n. destruct (ok_all _ _ _ O E) as (F & _). destruct F as (U & V & A & B). pose proof V as (_ & _ & K & _). destruct (K m) as (SS & RG). rewrite Forall_forall in RG.
  assert (FK : fs_ok (bx_fs b)). { pose proof (brun_fs_ok os box_new) as Q. rewrite E in Q. apply Q. intros r d X. discriminate X. }
  pose proof M as (_ & _ & _ & MU). unfold is_u16 in MU.
  destruct (alone (packets_from m 1 ds) (bx_fs b)) as (k & f' & outs & T & ST); [apply packets_ok; auto; lia|auto|].
  pose proof (turn_io _ _ _ _ T) as R. pose proof (io_run_uploads (map step1 (packets_from m 1 ds))) as IR.
  assert (AO : Forall attempt_ok (map step1 (packets_from m 1 ds))). { apply Forall_map. eapply Forall_impl; [|apply (packets_ok m ds M 1); lia]. intros p X. exact X. }
  specialize (IR AO _ _ V). change (map (fun p => (p, no_faults)) (packets_from m 1 ds)) with (map step1 (packets_from m 1 ds)) in R. rewrite R in IR. destruct IR as (LN & U' & V' & UR). specialize (UR m). rewrite map_length, packets_length in LN. rewrite own_packets, own_outs in UR by auto.
  destruct (run_again m ds M D 1 (U m) SS ltac:(lia) ltac:(lia) ltac:(intros; lia)) as (u' & RA). rewrite RA in UR. injection UR as _ UR. exists (put_all 1 ds (ul_pieces (U m))), k. split.
  - split; [apply put_all_sorted; auto|]. intros s c. rewrite (piece_in _ _ _ (put_all_sorted ds 1 _ SS)), put_all_get by auto. replace (s <? 1 + zlen ds) with (s <=? zlen ds) by lia. rewrite A.
    destruct ((1 <=? s) && (s <=? zlen ds)) eqn:W; (split; [|tauto]); intros Q; (split; [|exact Q]); [unfold is_u16; lia|]. rewrite <- A in Q. apply (RG (s, c)), piece_in; auto.
  - intros k' L. specialize (ST k' L). cbn [brun bstep]. destruct b as [f ts]. cbn [bx_fs bx_threads] in *. assert (N : nth_error (ts ++ [fresh (packets_from m 1 ds)]) n = Some (fresh (packets_from m 1 ds))).
    { unfold n. rewrite nth_error_app2, Nat.sub_diag by lia. reflexivity. }
    destruct (alone_moves k' f _ n _ _ _ N ST) as (e & Q). unfold fresh in Q. rewrite Q. do 2 eexists. split; [reflexivity|]. cbn [bx_threads]. rewrite (nth_replace _ _ _ _ N), Nat.eqb_refl, <- UR, B. reflexivity.
Qed.
Lemma clean_concat hs m ds l : parts_again hs m ds l -> zlen ds <= 65535 -> (forall i, part_of hs m i <> None -> 1 <= i <= zlen ds) -> map snd l = ds.
Proof.
  intros (SO & L) Z N. assert (Q : l = put_all 1 ds []).
  { apply sorted_unique; auto; [apply put_all_sorted; constructor|]. intros [s c]. rewrite L, (piece_in _ _ _ (put_all_sorted ds 1 [] ltac:(constructor))), put_all_get by constructor.
    replace (s <? 1 + zlen ds) with (s <=? zlen ds) by lia. destruct ((1 <=? s) && (s <=? zlen ds)) eqn:W; cbn [piece].
    - split; [tauto|]. intros X. split; auto. unfold is_u16. lia.
    - split; [|discriminate]. intros (_ & X). specialize (N s ltac:(congruence)). lia. }
  subst l. clear SO L N. enough (G : forall ds k l, Forall (fun p => fst p < k) l -> map snd (put_all k ds l) = map snd l ++ ds) by (rewrite G; auto).
  clear. induction ds as [|d r IH]; intros k l F; cbn [put_all]; [rewrite app_nil_r; auto|].
  assert (P : put_piece k d l = l ++ [(k, d)]). { induction F as [|[s c] l X F IF]; cbn [put_piece app]; auto. cbn in X. replace (k =? s) with false by lia. replace (k <? s) with false by lia. rewrite IF. reflexivity. }
  rewrite P, IH. { rewrite map_app, <- app_assoc. reflexivity. } apply Forall_app. split; [eapply Forall_impl; [|exact F]; cbn; intros; lia|]. constructor; auto. cbn. lia.
Qed.
Lemma recovers os b hs m ds : Forall bop_ok os -> brun box_new os = (b, hs) -> mpf_ok m -> ds <> [] -> mp_sum m = zlen ds ->
  (forall i, part_of hs m i <> None -> 1 <= i <= mp_sum m) -> (length (full_of hs m) <= length (concat ds))%nat ->
  let n := length (bx_threads b) in exists k, forall k', (k <= k')%nat -> exists b' e, brun b (BConnect (packets_from m 1 ds) :: repeat (BMove n FNone) k') = (b', e) /\ nth_error (bx_threads b') n = Some (Thread [] TIdle (repeat OKept (length ds - 1) ++ [OWhole (concat ds)])).
Proof.
  intros O E M D SU N LE n. destruct (sent_again _ _ _ _ _ O E M D SU) as (l & k & PA & R). pose proof M as (_ & _ & _ & MU). unfold is_u16 in MU.
  rewrite SU in N. assert (ZL : zlen ds <= 65535) by lia. pose proof (clean_concat _ _ _ _ PA ZL N) as C. exists k. intros k' L. destruct (R k' L) as (b' & e & A & B). exists b', e. split; auto. rewrite C in B. unfold over in B. rewrite skipn_all2, app_nil_r in B; auto.
Qed.
