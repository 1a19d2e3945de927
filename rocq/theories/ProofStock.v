(** Proofs for C196 and C197: the files left are the parts written and the uploads merged. *)
From Coq Require Import Permutation.
From Verif Require Import Base LibBase Bcd LibBcd Multipart LibMulti SpecMulti ProofMulti ProofMulti2 SpecStock.

Definition entries (f : fs) : list (bytes * bytes * bytes) := concat (map (fun nd => map (fun nc => (fst nd, fst nc, snd nc)) (snd nd)) (fs_dirs f)).
Lemma total_app a b : total (a ++ b) = total a + total b.
Proof. induction a as [|x a IH]; [reflexivity|]. cbn [app]. unfold total in *. cbn [fold_right]. lia. Qed.
Lemma total_perm a b : Permutation a b -> total a = total b.
Proof. induction 1; unfold total in *; cbn [fold_right]; lia. Qed.
Lemma files_entries f : files f = zlen (entries f).
Proof.
  unfold files, entries. induction (fs_dirs f) as [|[n d] l IH]; [reflexivity|]. cbn [map concat snd fst]. unfold total in *. cbn [fold_right]. rewrite IH.
  unfold zlen. rewrite app_length, map_length. lia.
Qed.
Lemma volume_entries f : volume f = total (map (fun e => zlen (snd e)) (entries f)).
Proof.
  unfold volume, entries. induction (fs_dirs f) as [|[n d] l IH]; [reflexivity|]. cbn [map concat snd fst]. rewrite map_app, total_app, map_map. unfold total at 1. cbn [fold_right]. fold (total (map (fun nd : bytes * dir => total (map (fun nc => zlen (snd nc)) (snd nd))) l)). f_equal. exact IH.
Qed.
Lemma in_entries f dn n c : In (dn, n, c) (entries f) <-> exists d, In (dn, d) (fs_dirs f) /\ In (n, c) d.
Proof.
  unfold entries. rewrite in_concat. split.
  - intros (l & L & I). apply in_map_iff in L. destruct L as ([a d] & <- & J). cbn [fst snd] in I. apply in_map_iff in I. destruct I as ([x y] & E & I). cbn [fst snd] in E.
    injection E as -> -> ->. eauto.
  - intros (d & J & I). eexists. split; [apply in_map_iff; exists (dn, d); split; [reflexivity|exact J]|]. cbn [fst snd]. apply in_map_iff. exists (n, c). auto.
Qed.

(** ** Directories *)
Definition dinv (f : fs) : Prop := NoDup (map fst (fs_dirs f)) /\ forall n d, In (n, d) (fs_dirs f) -> exists icc, 0 <= icc < 2 ^ 64 /\ n = format_uint icc.
Lemma dinv_set f m d : mpf_ok m -> dinv f -> dinv (Fs (fs_priv f) (alist_set (fs_dirs f) (root_dir m) d)).
Proof.
  intros (M & _) (N & I). split; cbn [fs_dirs]; [apply alist_set_nodup; auto|]. intros n x H. apply alist_set_in in H. destruct H as [H|H]; eauto.
  injection H as -> _. exists (mp_icc m). split; auto.
Qed.
Lemma dinv_run ops : Forall mop_ok ops -> forall f outs f' outs', dinv f -> mrun f outs ops = Ok (f', outs') -> dinv f'.
Proof.
  induction 1 as [|o ops O H IH]; intros f outs f' outs' V R; [injection R as <- <-; auto|]. destruct o as [m s d|m]; cbn [mrun] in R.
  - unfold mp_write in R. destruct (negb (fs_priv f)); cbn [bind] in R; try discriminate. eapply IH; [|exact R]. apply dinv_set; auto. apply O.
  - unfold mp_merge in R. destruct (walk_parts f m) as [parts| |]; cbn [bind] in R; try discriminate. destruct (alist_get _ _); cbn [bind] in R; try discriminate.
    eapply IH; [|exact R]. apply dinv_set; auto.
Qed.
Lemma NoDup_app {A} (a b : list A) : NoDup a -> NoDup b -> (forall x, In x a -> In x b -> False) -> NoDup (a ++ b).
Proof.
  induction 1 as [|x a N H IH]; intros B D; cbn [app]; auto. constructor; [|apply IH; auto; intros y Y; apply (D y); cbn; auto].
  intros X. apply in_app_iff in X. destruct X as [X|X]; auto. apply (D x); cbn; auto.
Qed.
Lemma entries_nodup f : NoDup (map fst (fs_dirs f)) -> (forall n d, In (n, d) (fs_dirs f) -> NoDup (map fst d)) -> NoDup (entries f).
Proof.
  unfold entries. induction (fs_dirs f) as [|[n d] l IH]; intros N D; [constructor|]. cbn [map concat fst snd] in *. inversion N as [|? ? N1 N2]; subst.
  apply NoDup_app.
  - specialize (D n d (or_introl eq_refl)). clear - D. induction d as [|[x c] d IH]; [constructor|]. cbn [map fst snd] in *. inversion D; subst. constructor; auto.
    intros X. apply in_map_iff in X. destruct X as ([y e] & E & X). cbn [fst snd] in E. injection E as -> ->. apply H1. apply in_map_iff. exists (x, c). auto.
  - apply IH; auto. intros x y H. apply (D x y). cbn; auto.
  - intros e E1 E2. apply in_map_iff in E1. destruct E1 as ([x c] & <- & _). cbn [fst snd] in E2. apply in_concat in E2. destruct E2 as (k & K & E2).
    apply in_map_iff in K. destruct K as ([y z] & <- & K). apply in_map_iff in E2. destruct E2 as ([u v] & E & _). cbn [fst snd] in E. injection E as -> _ _. apply N1.
    apply in_map_iff. exists (n, z). auto.
Qed.

(** ** Keys *)
Lemma mpf_key m i : mpf_ok m -> 0 <= i < 2 ^ 64 -> mpf_ok (Mpf i (mp_msgid m) (mp_tag m) 0).
Proof. intros (A & B & C & D) I. unfold mpf_ok, is_u16, is_u32 in *. cbn [mp_icc mp_msgid mp_tag mp_sum]. lia. Qed.
Lemma in_part_keys ops i g t s : In (i, g, t, s) (part_keys ops) <-> written ops (Mpf i g t 0) s <> None.
Proof.
  induction ops as [|o ops IH] using rev_ind; [cbn; split; [intros []|congruence]|]. unfold part_keys in *. rewrite map_app, concat_app, in_app_iff, IH, written_snoc.
  destruct o as [m s' d|m]; cbn [map concat app In]; [|intuition]. destruct (same_upload_spec m (Mpf i g t 0)) as [(A & B & C)|N]; cbn [mp_icc mp_msgid mp_tag andb] in *.
  - destruct (Z.eqb_spec s' s) as [->|D].
    + split; [congruence|]. intros _. right. left. congruence.
    + split; [intros [X|[X|[]]]; [auto|congruence]|auto].
  - split; [intros [X|[X|[]]]; auto|auto]. exfalso. apply N. injection X as <- <- <- <-. auto.
Qed.
Lemma in_full_keys ops : forall f outs f' outs', mrun f outs ops = Ok (f', outs') -> forall i g t, last_merge outs' (Mpf i g t 0) <> None <-> In (i, g, t) (full_keys ops) \/ last_merge outs (Mpf i g t 0) <> None.
Proof.
  induction ops as [|o ops IH]; intros f outs f' outs' R i g t; [injection R as <- <-; cbn; tauto|]. destruct o as [m s d|m]; cbn [mrun] in R.
  - destruct (mp_write f m s d) as [h| |]; cbn [bind] in R; try discriminate. rewrite (IH _ _ _ _ R). unfold full_keys. cbn [map concat app]. tauto.
  - destruct (mp_merge f m) as [[c h]| |]; cbn [bind] in R; try discriminate. rewrite (IH _ _ _ _ R). unfold full_keys. cbn [map concat app In last_merge].
    destruct (same_upload_spec m (Mpf i g t 0)) as [(A & B & C)|N]; cbn [mp_icc mp_msgid mp_tag] in *.
    + split; [intros _; left; left; congruence|intros _; right; congruence].
    + split; [tauto|]. intros [[X|X]|X]; auto. exfalso. apply N. injection X as <- <- <-. auto.
Qed.
Lemma part_keys_ok ops i g t s : Forall mop_ok ops -> In (i, g, t, s) (part_keys ops) -> mpf_ok (Mpf i g t 0) /\ is_u16 s.
Proof.
  intros H I. unfold part_keys in I. apply in_concat in I. destruct I as (l & L & I). apply in_map_iff in L. destruct L as (o & <- & L).
  rewrite Forall_forall in H. specialize (H o L). destruct o as [m s' d|m]; [|destruct I]. destruct I as [I|[]]. injection I as <- <- <- <-.
  destruct H as (M & E). split; auto. apply mpf_key; auto. apply M.
Qed.
Lemma full_keys_ok ops i g t : Forall mop_ok ops -> In (i, g, t) (full_keys ops) -> mpf_ok (Mpf i g t 0).
Proof.
  intros H I. unfold full_keys in I. apply in_concat in I. destruct I as (l & L & I). apply in_map_iff in L. destruct L as (o & <- & L).
  rewrite Forall_forall in H. specialize (H o L). destruct o as [m s' d|m]; [destruct I|]. destruct I as [I|[]]. injection I as <- <- <-.
  apply mpf_key; auto. apply H.
Qed.

(** ** What is there *)
Definition part_entry (ops : list mop) (k : Z * Z * Z * Z) : bytes * bytes * bytes :=
  let '(i, g, t, s) := k in (format_uint i, part_name (Mpf i g t 0) s, match written ops (Mpf i g t 0) s with Some c => c | None => [] end).
Definition full_entry (outs : list (mpf * bytes)) (k : Z * Z * Z) : bytes * bytes * bytes :=
  let '(i, g, t) := k in (format_uint i, full_name (Mpf i g t 0), match last_merge outs (Mpf i g t 0) with Some c => c | None => [] end).
Definition expected (ops : list mop) (outs : list (mpf * bytes)) : list (bytes * bytes * bytes) :=
  map (part_entry ops) (nodup part_dec (part_keys ops)) ++ map (full_entry outs) (nodup full_dec (full_keys ops)).
Lemma NoDup_map_in {A B} (h : A -> B) l : (forall x y, In x l -> In y l -> h x = h y -> x = y) -> NoDup l -> NoDup (map h l).
Proof.
  intros I. induction 1 as [|x l N H IH]; cbn [map]; constructor.
  - intros X. apply in_map_iff in X. destruct X as (y & E & Y). apply N. rewrite (I x y); cbn; auto.
  - apply IH. intros; apply I; cbn; auto.
Qed.
Lemma expected_nodup ops outs : Forall mop_ok ops -> NoDup (expected ops outs).
Proof.
  intros O. apply NoDup_app.
  - apply NoDup_map_in; [|apply NoDup_nodup]. intros [[[i g] t] s] [[[i' g'] t'] s'] X Y E. apply nodup_In in X, Y. cbn [part_entry] in E.
    apply part_keys_ok in X, Y; auto. destruct X as (X & S), Y as (Y & S'). pose proof (f_equal (fun z => fst (fst z)) E) as E1. pose proof (f_equal (fun z => snd (fst z)) E) as E2.
    cbn [fst snd] in E1, E2. apply icc_inj in E1; [|apply X|apply Y]. apply part_inj in E2; auto. cbn [mp_msgid mp_tag] in E2. destruct E2 as (-> & -> & ->). congruence.
  - apply NoDup_map_in; [|apply NoDup_nodup]. intros [[i g] t] [[i' g'] t'] X Y E. apply nodup_In in X, Y. cbn [full_entry] in E.
    apply full_keys_ok in X, Y; auto. pose proof (f_equal (fun z => fst (fst z)) E) as E1. pose proof (f_equal (fun z => snd (fst z)) E) as E2.
    cbn [fst snd] in E1, E2. apply icc_inj in E1; [|apply X|apply Y]. apply full_inj' in E2; auto. cbn [mp_msgid mp_tag] in E2. destruct E2 as (-> & ->). congruence.
  - intros e P Q. apply in_map_iff in P, Q. destruct P as ([[[i g] t] s] & <- & P), Q as ([[i' g'] t'] & E & Q). apply nodup_In in P, Q.
    apply part_keys_ok in P; auto. apply full_keys_ok in Q; auto. destruct P as (P & S). cbn [part_entry full_entry] in E. pose proof (f_equal (fun z => snd (fst z)) E) as E2.
    cbn [fst snd] in E2. symmetry in E2. apply part_not_full in E2; auto.
Qed.
Lemma written_sum ops i g t a b s : written ops (Mpf i g t a) s = written ops (Mpf i g t b) s.
Proof. induction ops as [|o ops IH] using rev_ind; [reflexivity|]. rewrite !written_snoc, IH. reflexivity. Qed.
Lemma last_sum outs i g t a b : last_merge outs (Mpf i g t a) = last_merge outs (Mpf i g t b).
Proof. induction outs as [|[m c] outs IH]; [reflexivity|]. cbn [last_merge]. rewrite IH. reflexivity. Qed.

Lemma stock_perm ops f outs : Forall mop_ok ops -> mrun empty_fs [] ops = Ok (f, outs) -> Permutation (entries f) (expected ops outs).
Proof.
  intros O R. pose proof (minv_of ops f outs O R) as (P & V).
  assert (DV : dinv f) by (eapply dinv_run; [exact O| |exact R]; split; [constructor|intros ? ? []]). destruct DV as (DN & DI).
  assert (G : forall n d, In (n, d) (fs_dirs f) -> exists icc, 0 <= icc < 2 ^ 64 /\ n = format_uint icc /\ touched ops icc /\ dir_ok ops outs icc d).
  { intros n d H. destruct (DI n d H) as (icc & B & ->). exists icc. split; auto. split; auto. specialize (V icc ltac:(lia)). rewrite (alist_in_get _ _ _ DN H) in V. auto. }
  apply NoDup_Permutation.
  - apply entries_nodup; auto. intros n d H. destruct (G n d H) as (icc & _ & _ & _ & N & _). auto.
  - apply expected_nodup; auto.
  - intros [[dn n] c]. rewrite in_entries. unfold expected. rewrite in_app_iff, !in_map_iff. split.
    + intros (d & D & I). destruct (G dn d D) as (icc & B & -> & T & N & NM & WR & LM). pose proof (alist_in_get _ _ _ N I) as AG. destruct (NM n c I) as [(m & s & M & S & ->)|(m & M & ->)].
      * left. exists (icc, mp_msgid m, mp_tag m, s). assert (M' : mpf_ok (Mpf icc (mp_msgid m) (mp_tag m) 0)) by (apply mpf_key; auto).
        specialize (WR _ s M' S eq_refl). unfold part_name in *. cbn [mp_msgid mp_tag] in WR. rewrite AG in WR. cbn [part_entry]. split; [rewrite <- WR; reflexivity|].
        apply nodup_In, in_part_keys. rewrite <- WR. discriminate.
      * right. exists (icc, mp_msgid m, mp_tag m). assert (M' : mpf_ok (Mpf icc (mp_msgid m) (mp_tag m) 0)) by (apply mpf_key; auto).
        specialize (LM _ M' eq_refl). unfold full_name in *. cbn [mp_msgid mp_tag] in LM. rewrite AG in LM. cbn [full_entry]. split; [rewrite <- LM; reflexivity|].
        apply nodup_In. pose proof (proj1 (in_full_keys ops _ _ _ _ R icc (mp_msgid m) (mp_tag m))) as X. destruct X as [X|X]; auto; [rewrite <- LM; discriminate|]. exfalso. apply X. reflexivity.
    + intros [([[[i g] t] s] & E & I)|([[i g] t] & E & I)]; apply nodup_In in I.
      * pose proof (part_keys_ok _ _ _ _ _ O I) as (M & S). apply in_part_keys in I. cbn [part_entry] in E. destruct (written ops (Mpf i g t 0) s) as [x|] eqn:W; [|congruence].
        injection E as <- <- <-. pose proof (proj1 M) as Mi. cbn [mp_icc] in Mi. specialize (V i ltac:(lia)). destruct (alist_get (fs_dirs f) (format_uint i)) as [d|] eqn:AD.
        -- exists d. split; [apply alist_get_in; auto|]. destruct V as (_ & _ & _ & WR & _). apply alist_get_in. rewrite (WR _ _ M S eq_refl). auto.
        -- exfalso. apply (proj1 V). apply (written_touched ops (Mpf i g t 0) s x). auto.
      * pose proof (full_keys_ok _ _ _ _ O I) as M. assert (L : last_merge outs (Mpf i g t 0) <> None) by (eapply in_full_keys; [exact R|auto]).
        cbn [full_entry] in E. destruct (last_merge outs (Mpf i g t 0)) as [x|] eqn:W; [|congruence].
        injection E as <- <- <-. pose proof (proj1 M) as Mi. cbn [mp_icc] in Mi. specialize (V i ltac:(lia)). destruct (alist_get (fs_dirs f) (format_uint i)) as [d|] eqn:AD.
        -- exists d. split; [apply alist_get_in; auto|]. destruct V as (_ & _ & _ & _ & LM). apply alist_get_in. rewrite (LM _ M eq_refl). auto.
        -- exfalso. rewrite (proj2 V (Mpf i g t 0) eq_refl) in W. discriminate.
Qed.
Lemma stock_files ops f outs : Forall mop_ok ops -> mrun empty_fs [] ops = Ok (f, outs) ->
  files f = zlen (nodup part_dec (part_keys ops)) + zlen (nodup full_dec (full_keys ops)).
Proof.
  intros O R. rewrite files_entries. unfold zlen. rewrite (Permutation_length (stock_perm _ _ _ O R)). unfold expected. rewrite app_length, !map_length. lia.
Qed.
Lemma stock_volume ops f outs : Forall mop_ok ops -> mrun empty_fs [] ops = Ok (f, outs) ->
  volume f = total (map (part_size ops) (nodup part_dec (part_keys ops))) + total (map (full_size outs) (nodup full_dec (full_keys ops))).
Proof.
  intros O R. rewrite volume_entries, (total_perm _ _ (Permutation_map _ (stock_perm _ _ _ O R))). unfold expected. rewrite map_app, total_app, !map_map. f_equal; f_equal; apply map_ext.
  - intros [[[i g] t] s]. cbn [part_entry part_size snd]. destruct (written _ _ _); reflexivity.
  - intros [[i g] t]. cbn [full_entry full_size snd]. destruct (last_merge _ _); reflexivity.
Qed.

(** ** Nothing is removed *)
Lemma alist_set_stays {A} (l : list (bytes * A)) k v a x : In (a, x) l -> (exists y, In (a, y) (alist_set l k v)).
Proof.
  induction l as [|[b y] l IH]; intros []; cbn [alist_set].
  - injection H as -> ->. destruct (beq_spec a k) as [->|]; eexists; cbn; left; reflexivity.
  - destruct (beq_spec b k) as [->|]; [exists x; cbn; auto|]. destruct (IH H) as (z & Z). exists z. cbn. auto.
Qed.
Lemma alist_set_same {A} (l : list (bytes * A)) k v : In (k, v) (alist_set l k v).
Proof. induction l as [|[b y] l IH]; cbn [alist_set]; [cbn; auto|]. destruct (beq_spec b k) as [->|]; cbn; auto. Qed.
Lemma alist_set_other {A} (l : list (bytes * A)) k v a x : a <> k -> In (a, x) l -> In (a, x) (alist_set l k v).
Proof.
  intros N. induction l as [|[b y] l IH]; intros []; cbn [alist_set].
  - injection H as -> ->. destruct (beq_spec a k); [congruence|cbn; auto].
  - destruct (beq_spec b k); cbn; auto.
Qed.
Lemma there_set f r n c dn x : NoDup (map fst (fs_dirs f)) -> there f dn x ->
  there (Fs (fs_priv f) (alist_set (fs_dirs f) r (alist_set (match alist_get (fs_dirs f) r with Some d => d | None => [] end) n c))) dn x.
Proof.
  intros N (e & y & D & I). unfold there. cbn [fs_dirs]. destruct (beq_spec dn r) as [->|X].
  - rewrite (alist_in_get _ _ _ N D). destruct (alist_set_stays e n c x y I) as (z & Z). do 2 eexists. split; [apply alist_set_same|exact Z].
  - exists e, y. split; auto. apply alist_set_other; auto.
Qed.
Lemma stock_kept ops xs f outs f' outs' dn n : Forall mop_ok ops -> Forall mop_ok xs -> mrun empty_fs [] ops = Ok (f, outs) -> mrun f outs xs = Ok (f', outs') ->
  there f dn n -> there f' dn n.
Proof.
  intros O X R. assert (DV : dinv f) by (eapply dinv_run; [exact O| |exact R]; split; [constructor|intros ? ? []]). clear O R. revert f outs DV.
  induction X as [|o xs H X IH]; intros f outs DV R T; [injection R as <- <-; auto|]. destruct o as [m s d|m]; cbn [mrun] in R.
  - unfold mp_write in R. destruct (negb (fs_priv f)); cbn [bind] in R; try discriminate. eapply IH; [|exact R|]; [apply dinv_set; auto; apply H|].
    apply there_set; auto. apply DV.
  - unfold mp_merge in R. destruct (walk_parts f m) as [parts| |]; cbn [bind] in R; try discriminate. pose proof (fun c => there_set f (root_dir m) (full_name m) c dn n (proj1 DV) T) as K.
    destruct (alist_get _ _); cbn [bind] in R; try discriminate. eapply IH; [|exact R|]; [apply dinv_set; auto|]. apply K.
Qed.

(** ** Uploads that are finished *)
Definition up (i : nat) : mpf := Mpf 1 2049 (Z.of_nat i) 1.
Definition round (i : nat) : list mop := [MWrite (up i) 1 [7]; MMerge (up i)].
Definition rounds (n : nat) : list mop := concat (map round (seq 0 n)).
Lemma up_ok i : Z.of_nat i < 2 ^ 32 -> mpf_ok (up i).
Proof. intros H. unfold mpf_ok, up, is_u16, is_u32. cbn [mp_icc mp_msgid mp_tag mp_sum]. lia. Qed.
Lemma rounds_ok n : Z.of_nat n <= 2 ^ 32 -> Forall mop_ok (rounds n).
Proof.
  intros H. apply Forall_forall. intros o I. unfold rounds in I. apply in_concat in I. destruct I as (l & L & I). apply in_map_iff in L. destruct L as (i & <- & L). apply in_seq in L.
  assert (U := up_ok i ltac:(lia)). destruct I as [<-|[<-|[]]]; cbn [mop_ok]; auto. split; auto. unfold is_u16. lia.
Qed.
Lemma rounds_keys n : part_keys (rounds n) = map (fun i => (1, 2049, Z.of_nat i, 1)) (seq 0 n) /\ full_keys (rounds n) = map (fun i => (1, 2049, Z.of_nat i)) (seq 0 n).
Proof.
  unfold rounds, part_keys, full_keys. generalize (seq 0 n) as l. induction l as [|i l (IH1 & IH2)]; [auto|]. cbn [map concat]. rewrite !map_app, !concat_app, IH1, IH2. split; reflexivity.
Qed.
Lemma rounds_after n : merges_after_writes (rounds n).
Proof.
  intros pre m post E. assert (I : In (MMerge m) (rounds n)) by (rewrite E; apply in_app_iff; cbn; auto).
  assert (K : mp_icc m = 1). { unfold rounds in I. apply in_concat in I. destruct I as (l & L & I). apply in_map_iff in L. destruct L as (i & <- & L). destruct I as [I|[I|[]]]; [discriminate|]. injection I as <-. reflexivity. }
  rewrite K. destruct n as [|n]; [destruct pre; discriminate|]. unfold rounds in E. cbn [seq map concat round app] in E. destruct pre as [|o pre]; [discriminate|]. injection E as <- _.
  exists (up 0), 1, [7]. split; [cbn; auto|reflexivity].
Qed.
Lemma rounds_rest n : at_rest (rounds n).
Proof.
  unfold rounds. generalize 0%nat as a. induction n as [|n IH]; intros a pre m s d post E; cbn [seq map concat round app] in E; [destruct pre; discriminate|].
  destruct pre as [|o pre]; [injection E as <- <- <- <-; exists (up a); split; [cbn; auto|]; unfold same_upload; rewrite !Z.eqb_refl; reflexivity|].
  injection E as _ E. destruct pre as [|o' pre]; [discriminate|]. injection E as _ E. apply (IH (S a) pre m s d post). exact E.
Qed.
Lemma never_empty n : 0 <= n <= 2 ^ 32 -> exists ops f outs, Forall mop_ok ops /\ mrun empty_fs [] ops = Ok (f, outs) /\ at_rest ops /\ zlen (part_keys ops) = n /\ files f = 2 * n.
Proof.
  intros N. set (k := Z.to_nat n). assert (O : Forall mop_ok (rounds k)) by (apply rounds_ok; lia).
  destruct (proj2 (run_total (rounds k) O) (rounds_after k)) as (f & outs & R). exists (rounds k), f, outs. split; auto. split; auto. split; [apply rounds_rest|].
  destruct (rounds_keys k) as (K1 & K2). rewrite (stock_files _ _ _ O R), K1, K2, !nodup_fixed_point.
  - unfold zlen. rewrite !map_length, seq_length. lia.
  - apply NoDup_map_in; [|apply seq_NoDup]. intros x y _ _ E. injection E as E. lia.
  - apply NoDup_map_in; [|apply seq_NoDup]. intros x y _ _ E. injection E as E. lia.
Qed.
