(** Proofs for C198 and C199: a limit on descriptors. *)
From Coq Require Import Permutation Sorted.
From Verif Require Import Base LibBase Multipart LibMulti SpecMulti ProofMulti ProofMulti2 Overlap Faults Descr SpecDescr ProofDescr.

Lemma open_limited lim used t : fd_open (limited lim used) t =
  if used + fd_held t <? lim then (Fds (fd_held t + 1) (Z.max (fd_peak t) (fd_held t + 1)) (fd_calls t + 1), true) else (Fds (fd_held t) (fd_peak t) (fd_calls t + 1), false).
Proof. reflexivity. Qed.
Lemma parts_limited lim used parts : forall t k t1 k1 all, fd_parts (limited lim used) t k parts = (t1, k1, all) -> parts <> [] -> all = true <-> used + fd_held t + zlen parts <= lim.
Proof.
  induction parts as [|x l IH]; intros t k t1 k1 all E N; [congruence|]. clear N. cbn [fd_parts] in E. rewrite open_limited in E. destruct (Z.ltb_spec (used + fd_held t) lim) as [L|L].
  - destruct l as [|y l].
    + cbn [fd_parts] in E. injection E as <- <- <-. unfold zlen. cbn [length]. split; auto; lia.
    + apply IH in E; [|discriminate]. cbn [fd_held] in E. rewrite E. unfold zlen. cbn [length]. lia.
  - injection E as <- <- <-. unfold zlen. cbn [length]. split; [discriminate|lia].
Qed.
Lemma merge_limited lim used f m t f' c t' parts : 0 <= used -> fd_held t = 0 -> walk_parts f m = Ok parts -> parts <> [] -> used < lim -> merge_fd (limited lim used) f m None t = Ok (f', c, t') ->
  c <> None <-> used + zlen parts + 2 <= lim.
Proof.
  intros U H W N L E. unfold merge_fd in E. unfold fd_once in E. rewrite open_limited in E. rewrite H in E. replace (used + 0 <? lim) with true in E by lia. cbn [walk_io] in E. rewrite W in E. cbn [bind] in E.
  destruct (fd_parts _ _ 0 parts) as [[t2 k] al] eqn:P. pose proof (parts_limited _ _ _ _ _ _ _ _ P N) as Q. apply parts_held in P. destruct P as (P1 & P2 & P3 & _).
  cbn [fd_close fd_held] in P1, Q. destruct al; cbn [negb] in E.
  2:{ step_res E. destruct a as [f1 c1]. apply merge_io_some in X. injection E as <- <- <-. split; [intros Y; apply X in Y; destruct Y; discriminate|]. intros Y. exfalso. assert (false = true) by (apply Q; lia). discriminate. }
  specialize (P3 eq_refl). rewrite open_limited in E. destruct (Z.ltb_spec (used + fd_held t2) lim) as [L2|L2]; cbn [negb] in E.
  2:{ step_res E. destruct a as [f1 c1]. apply merge_io_some in X. injection E as <- <- <-. split; [intros Y; apply X in Y; destruct Y; discriminate|]. lia. }
  rewrite open_limited in E. cbn [fd_held] in E. destruct (Z.ltb_spec (used + (fd_held t2 + 1)) lim) as [L3|L3]; step_res E; destruct a as [f1 c1]; apply merge_io_some in X; injection E as <- <- <-.
  - split; [lia|]. intros _. apply X. eauto.
  - split; [intros Y; apply X in Y; destruct Y; discriminate|]. lia.
Qed.
Lemma parts_count ops f outs m parts l : minv ops f outs -> mpf_ok m -> touched ops (mp_icc m) -> walk_parts f m = Ok parts -> parts_in_order ops m l -> zlen parts = zlen l.
Proof.
  intros V M T W P. destruct (walk_ok _ _ _ _ V M T) as (d & _ & W' & _ & ND & MEM). assert (parts = parts_of m d) by congruence. subst parts.
  assert (Q : parts_in_order ops m (sort_parts (parts_of m d))).
  { split; [apply sort_sorted; auto|]. intros s c. rewrite <- MEM. pose proof (sort_perm (parts_of m d)). split; apply Permutation_in; auto. symmetry. auto. }
  rewrite (parts_unique _ _ _ _ P Q). unfold zlen. rewrite (Permutation_length (sort_perm (parts_of m d))). reflexivity.
Qed.
Lemma merge_io_total f m parts x : walk_parts f m = Ok parts -> x <> MWalk KGone -> exists r, merge_io f m x = Ok r.
Proof.
  intros W N. unfold merge_io. assert (WA : exists q, walk_io f m (match x with MWalk k => k | _ => KDone end) = Ok q).
  { destruct x as [[| |]| | | |]; cbn [walk_io]; eauto; [|congruence]. unfold walk_parts in W. destruct (alist_get _ _); [eauto|discriminate]. }
  destruct WA as (q & ->). cbn [bind]. eauto.
Qed.
Lemma merge_total o f m cp t parts : walk_parts f m = Ok parts -> exists r, merge_fd o f m cp t = Ok r.
Proof.
  intros W. unfold merge_fd. destruct (fd_once o t) as [t1 lis]. assert (WA : exists q, walk_io f m (if lis then KDone else KNoList) = Ok q).
  { destruct lis; cbn [walk_io]; eauto. unfold walk_parts in W. destruct (alist_get _ _); [eauto|discriminate]. }
  destruct WA as (q & ->). cbn [bind]. destruct (fd_parts o t1 0 q) as [[t2 k] al].
  destruct (negb al); [destruct (merge_io_total f m parts MNoPart W) as ([? ?] & ->); [discriminate|cbn [bind]; eauto]|].
  destruct (fd_open o t2) as [t3 wr]. destruct (negb wr); [destruct (merge_io_total f m parts MNoFull W) as ([? ?] & ->); [discriminate|cbn [bind]; eauto]|].
  destruct (if lis then cp else None) as [n|]; [destruct (merge_io_total f m parts (MShort n) W) as ([? ?] & ->); [discriminate|cbn [bind]; eauto]|].
  destruct (fd_open o t3) as [t4 rdr]. edestruct (merge_io_total f m parts) as ([? ?] & ->); [exact W| |cbn [bind]; eauto]. destruct rdr, lis; discriminate.
Qed.
Lemma limit_exact lim used ops f outs p l : Forall mop_ok ops -> mrun empty_fs [] ops = Ok (f, outs) -> arrives p -> pk_seq p = mp_sum (pk_up p) ->
  all_written (ops ++ [MWrite (pk_up p) (pk_seq p) (pk_data p)]) (pk_up p) -> parts_in_order (ops ++ [MWrite (pk_up p) (pk_seq p) (pk_data p)]) (pk_up p) l -> 0 <= used ->
  exists f' out t', packet_fd (limited lim used) f p None fresh = Ok (f', out, t') /\ ((exists c, out = OWhole c) <-> used + zlen l + 2 <= lim) /\ (out = OFail <-> lim <= used).
Proof.
  intros O R (M & S) E A P U. pose proof (minv_of _ _ _ O R) as V. pose proof (proj1 V) as PR.
  destruct (mp_write f (pk_up p) (pk_seq p) (pk_data p)) as [f1| |] eqn:W; try (unfold mp_write in W; rewrite PR in W; discriminate).
  pose proof (write_step _ _ _ _ _ _ _ V M S W) as V1. set (ops1 := ops ++ _) in *.
  assert (T : touched ops1 (mp_icc (pk_up p))) by (apply touched_snoc; right; eauto).
  assert (WI : write_io f (pk_up p) (pk_seq p) (pk_data p) WDone = (f1, true)). { unfold mp_write in W. unfold write_io, dir_of. rewrite PR in *. cbn [negb] in *. injection W as <-. reflexivity. }
  unfold packet_fd. rewrite PR. unfold fd_once at 1. rewrite open_limited. cbn [fresh fd_held fd_peak fd_calls]. destruct (Z.ltb_spec (used + 0) lim) as [L|L].
  2:{ unfold write_io. rewrite PR. cbn [negb]. do 3 eexists. split; [reflexivity|]. split; [split; [intros (? & ?); discriminate|]; unfold zlen; lia|]. split; auto; lia. }
  rewrite WI. cbn [negb]. rewrite E, Z.eqb_refl. cbn [negb]. unfold fd_once at 1. rewrite open_limited. cbn [fd_close fd_held fd_peak fd_calls]. replace (used + (0 + 1 - 1) <? lim) with true by lia.
  destruct (full_query _ _ _ _ V1 M T) as (b & F & B). assert (b = true) by (apply B; exact A). subst b.
  replace (is_full_io f1 (pk_up p) KDone) with (is_full f1 (pk_up p)) by reflexivity. rewrite F. cbn [bind negb].
  destruct (walk_parts f1 (pk_up p)) as [parts| |] eqn:WP; [|exfalso; unfold is_full in F; rewrite WP in F; discriminate|exfalso; unfold is_full in F; rewrite WP in F; discriminate].
  pose proof (parts_count _ _ _ _ _ _ V1 M T WP P) as LN.
  assert (N : parts <> []).
  { intros ->. assert (I : In (pk_seq p, pk_data p) l). { apply (proj2 P). split; auto. unfold ops1. rewrite written_snoc. replace (same_upload (pk_up p) (pk_up p)) with true by (unfold same_upload; rewrite !Z.eqb_refl; reflexivity). rewrite Z.eqb_refl. reflexivity. }
    destruct l; [destruct I|]. unfold zlen in LN. cbn [length] in LN. lia. }
  match goal with |- context [merge_fd ?o ?f ?m ?c ?t] => destruct (merge_total o f m c t parts WP) as ([[f2 c2] t3] & MF) end. rewrite MF. cbn [bind].
  apply merge_limited with (parts := parts) in MF; auto; [|lia]. rewrite LN in MF. destruct c2 as [c2|]; do 3 eexists; (split; [reflexivity|]); (split; [|split; [discriminate|lia]]).
  - split; [intros _; apply MF; discriminate|eauto].
  - split; [intros (? & ?); discriminate|]. intros X. apply MF in X. congruence.
Qed.

(** ** Uploads of too many parts *)
Lemma merge_refused lim used f m t f' c t' parts : 0 <= used -> fd_held t = 0 -> walk_parts f m = Ok parts -> parts <> [] -> used < lim -> lim <= used + zlen parts ->
  merge_fd (limited lim used) f m None t = Ok (f', c, t') -> f' = f /\ c = None.
Proof.
  intros U H W N L G E. unfold merge_fd in E. unfold fd_once in E. rewrite open_limited in E. rewrite H in E. replace (used + 0 <? lim) with true in E by lia. cbn [walk_io] in E. rewrite W in E. cbn [bind] in E.
  destruct (fd_parts _ _ 0 parts) as [[t2 k] al] eqn:P. apply parts_held in P. destruct P as (P1 & P2 & P3 & _). cbn [fd_close fd_held] in P1.
  destruct al; cbn [negb] in E.
  2:{ unfold merge_io in E. cbn [walk_io] in E. rewrite W in E. cbn [bind] in E. injection E as <- <- <-. auto. }
  specialize (P3 eq_refl). rewrite open_limited in E. replace (used + fd_held t2 <? lim) with false in E by lia. cbn [negb] in E.
  unfold merge_io in E. cbn [walk_io] in E. rewrite W in E. cbn [bind] in E. injection E as <- <- <-. auto.
Qed.
Lemma upto_nodup n : NoDup (upto n).
Proof. unfold upto. apply FinFun.Injective_map_NoDup; [intros x y; lia|apply seq_NoDup]. Qed.
Lemma in_upto n i : In i (upto n) <-> 1 <= i <= n.
Proof. unfold upto. rewrite in_map_iff. split; [intros (k & <- & K); apply in_seq in K; lia|]. intros H. exists (Z.to_nat i). split; [lia|]. apply in_seq. lia. Qed.
Lemma full_count ops f outs m parts : minv ops f outs -> mpf_ok m -> touched ops (mp_icc m) -> walk_parts f m = Ok parts -> is_full f m = Ok true -> mp_sum m <= zlen parts.
Proof.
  intros V M T W F. destruct (full_query _ _ _ _ V M T) as (b & F' & B). assert (b = true) by congruence. subst b. pose proof (proj1 B eq_refl) as A.
  destruct (walk_ok _ _ _ _ V M T) as (d & _ & W' & _ & ND & MEM). assert (parts = parts_of m d) by congruence. subst parts.
  assert (I : incl (upto (mp_sum m)) (map fst (parts_of m d))).
  { intros i J. apply in_upto in J. specialize (A i J). destruct (written ops m i) as [c|] eqn:E; [|congruence]. apply in_map_iff. exists (i, c). split; auto. apply MEM. split; auto.
    pose proof M as (_ & _ & _ & S). unfold is_u16 in *. lia. }
  apply (NoDup_incl_length (upto_nodup _)) in I. unfold upto in I. rewrite !map_length, seq_length in I. unfold zlen. pose proof M as (_ & _ & _ & S). unfold is_u16 in S. lia.
Qed.
Lemma packet_kept lim used ops f outs p t : minv ops f outs -> arrives p -> 0 <= used < lim -> lim <= used + mp_sum (pk_up p) -> fd_held t = 0 ->
  exists f' t', packet_fd (limited lim used) f p None t = Ok (f', OKept, t') /\ minv (ops ++ [MWrite (pk_up p) (pk_seq p) (pk_data p)]) f' outs /\ fd_held t' = 0.
Proof.
  intros V (M & S) U G H0. pose proof (proj1 V) as PR.
  destruct (mp_write f (pk_up p) (pk_seq p) (pk_data p)) as [f1| |] eqn:W; try (unfold mp_write in W; rewrite PR in W; discriminate).
  pose proof (write_step _ _ _ _ _ _ _ V M S W) as V1. set (ops1 := ops ++ _) in *.
  assert (T : touched ops1 (mp_icc (pk_up p))) by (apply touched_snoc; right; eauto).
  assert (WI : write_io f (pk_up p) (pk_seq p) (pk_data p) WDone = (f1, true)). { unfold mp_write in W. unfold write_io, dir_of. rewrite PR in *. cbn [negb] in *. injection W as <-. reflexivity. }
  unfold packet_fd. rewrite PR. unfold fd_once at 1. rewrite open_limited. rewrite H0. replace (used + 0 <? lim) with true by lia.
  rewrite WI. cbn [negb]. destruct (negb _); [do 2 eexists; split; [reflexivity|]; split; [exact V1|]; cbn [fd_close fd_held]; lia|].
  unfold fd_once at 1. rewrite open_limited. cbn [fd_close fd_held fd_peak fd_calls]. replace (used + (0 + 1 - 1) <? lim) with true by lia.
  destruct (full_query _ _ _ _ V1 M T) as (b & F & B).
  replace (is_full_io f1 (pk_up p) KDone) with (is_full f1 (pk_up p)) by reflexivity. rewrite F. cbn [bind].
  destruct b; cbn [negb]; [|do 2 eexists; split; [reflexivity|]; split; [exact V1|]; cbn [fd_close fd_held]; lia].
  destruct (walk_parts f1 (pk_up p)) as [parts| |] eqn:WP; [|exfalso; unfold is_full in F; rewrite WP in F; discriminate|exfalso; unfold is_full in F; rewrite WP in F; discriminate].
  pose proof (full_count _ _ _ _ _ V1 M T WP F) as LN.
  match goal with |- context [merge_fd ?o ?f ?m ?c ?t] => destruct (merge_total o f m c t parts WP) as ([[f2 c2] t3] & MF) end. rewrite MF. cbn [bind].
  pose proof MF as MH. apply merge_held in MH; [|cbn [fd_close fd_held fd_peak]; lia].
  apply merge_refused with (parts := parts) in MF; auto; try lia; [|unfold zlen in *; destruct parts; [cbn [length] in LN; lia|discriminate]].
  destruct MF as (-> & ->). do 2 eexists. split; [reflexivity|]. split; [exact V1|]. destruct MH as (MH & _). cbn [fd_close fd_held] in MH. lia.
Qed.
Lemma never_whole lim used ps : 0 <= used < lim -> Forall arrives ps -> Forall (fun p => lim <= used + mp_sum (pk_up p)) ps -> forall ops f outs t, minv ops f outs -> fd_held t = 0 ->
  exists f' t', fd_run (limited lim used) f t ps = Ok (f', t', repeat OKept (length ps)) /\ fd_held t' = 0.
Proof.
  intros U. induction ps as [|p ps IH]; intros A G ops f outs t V H; [do 2 eexists; cbn; eauto|]. inversion A; subst. inversion G; subst.
  destruct (packet_kept lim used ops f outs p t V) as (f1 & t1 & E & V1 & H1); auto. destruct (IH H3 H5 _ f1 outs t1 V1 H1) as (f' & t' & R & HT).
  exists f', t'. split; auto. cbn [fd_run]. rewrite E. cbn [bind fst snd]. rewrite R. reflexivity.
Qed.
Lemma never_whole_first lim used ps : 0 <= used < lim -> Forall arrives ps -> Forall (fun p => lim <= used + mp_sum (pk_up p)) ps ->
  exists f' t', fd_run (limited lim used) empty_fs fresh ps = Ok (f', t', repeat OKept (length ps)).
Proof. intros U A G. destruct (never_whole lim used ps U A G [] empty_fs [] fresh minv_init eq_refl) as (f' & t' & R & _). eauto. Qed.
Lemma whole_never lim n : 1 <= lim <= 65535 -> exists m, mpf_ok m /\ mp_sum m = lim /\ forall data, let ps := whole_upload m data ++ repeat (Packet m lim data) n in
  exists f t, fd_run (limited lim 0) empty_fs fresh ps = Ok (f, t, repeat OKept (length ps)).
Proof.
  intros L. set (m := Mpf 1 2049 7 lim). assert (M : mpf_ok m) by (unfold m, mpf_ok, is_u16, is_u32; cbn [mp_icc mp_msgid mp_tag mp_sum]; lia).
  exists m. split; auto. split; [reflexivity|]. intros data. cbn zeta.
  assert (F : Forall (fun p => pk_up p = m /\ 1 <= pk_seq p <= lim) (whole_upload m data ++ repeat (Packet m lim data) n)).
  { apply Forall_forall. intros p I. apply in_app_iff in I. destruct I as [I|I].
    - unfold whole_upload in I. apply in_map_iff in I. destruct I as (i & <- & I). apply in_upto in I. cbn [pk_up pk_seq]. cbn [m mp_sum] in I. auto.
    - apply repeat_spec in I. subst p. cbn [pk_up pk_seq]. split; auto. lia. }
  apply never_whole_first; [lia| |]; eapply Forall_impl; try exact F; intros p (E & S); unfold arrives; rewrite E; [|cbn [m mp_sum]; lia]. split; auto. unfold is_u16. lia.
Qed.
Lemma most_open ops f outs p l o cp f' out t' : Forall mop_ok ops -> mrun empty_fs [] ops = Ok (f, outs) -> arrives p ->
  parts_in_order (ops ++ [MWrite (pk_up p) (pk_seq p) (pk_data p)]) (pk_up p) l -> packet_fd o f p cp fresh = Ok (f', out, t') -> fd_held t' = 0 /\ fd_peak t' <= zlen l + 2.
Proof.
  intros O R (M & S) P E. split; [apply all_closed in E; [exact E|cbn [fresh fd_held fd_peak]; lia]|]. pose proof (minv_of _ _ _ O R) as V. pose proof (proj1 V) as PR.
  destruct (mp_write f (pk_up p) (pk_seq p) (pk_data p)) as [f1| |] eqn:W; try (unfold mp_write in W; rewrite PR in W; discriminate).
  pose proof (write_step _ _ _ _ _ _ _ V M S W) as V1. set (ops1 := ops ++ _) in *.
  assert (T : touched ops1 (mp_icc (pk_up p))) by (apply touched_snoc; right; eauto).
  assert (WI : write_io f (pk_up p) (pk_seq p) (pk_data p) WDone = (f1, true)). { unfold mp_write in W. unfold write_io, dir_of. rewrite PR in *. cbn [negb] in *. injection W as <-. reflexivity. }
  apply most_held in E; [|cbn [fresh fd_held fd_peak]; lia]. rewrite WI in E. cbn [fst fresh fd_held fd_peak] in E. assert (0 <= zlen l) by (unfold zlen; lia).
  destruct E as [E|(all & A & E)]; [lia|]. rewrite (parts_count _ _ _ _ _ _ V1 M T A P) in E. lia.
Qed.
