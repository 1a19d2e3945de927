(** The multipart properties in final form. *)
From Coq Require Import Sorted Permutation.
From Verif Require Import Base LibBase Bcd LibBcd Multipart LibMulti SpecMulti ProofMulti.

Lemma minv_of ops f outs : Forall mop_ok ops -> mrun empty_fs [] ops = Ok (f, outs) -> minv ops f outs.
Proof. intros O R. apply (minv_run ops O [] empty_fs [] f outs minv_init R). Qed.

Lemma touched_dec ops icc : touched ops icc \/ ~ touched ops icc.
Proof.
  induction ops as [|o ops IH] using rev_ind; [right; intros (m & s & d & [] & _)|]. destruct IH as [T|T]; [left; apply touched_snoc; auto|].
  destruct o as [m s d|m]; [destruct (Z.eq_dec (mp_icc m) icc) as [E|E]|].
  - left. apply touched_snoc. right. eauto.
  - right. rewrite touched_snoc. intros [X|(m' & s' & d' & X & Y)]; auto. injection X as -> -> ->. auto.
  - right. rewrite touched_snoc. intros [X|(m' & s' & d' & X & Y)]; [auto|discriminate].
Qed.

Lemma full_iff ops f outs m : Forall mop_ok ops -> mpf_ok m -> 1 <= mp_sum m -> mrun empty_fs [] ops = Ok (f, outs) -> is_full f m = Ok true <-> all_written ops m.
Proof.
  intros O M S R. pose proof (minv_of _ _ _ O R) as V. destruct (touched_dec ops (mp_icc m)) as [T|T].
  - destruct (full_query _ _ _ _ V M T) as (b & -> & E). rewrite <- E. split; congruence.
  - destruct (query_missing _ _ _ _ V M T) as (-> & _). split; [discriminate|]. intros A. specialize (A 1 ltac:(lia)).
    rewrite untouched_written in A by auto. congruence.
Qed.
Lemma full_answers ops f outs m : Forall mop_ok ops -> mpf_ok m -> touched ops (mp_icc m) -> mrun empty_fs [] ops = Ok (f, outs) ->
  exists b, is_full f m = Ok b /\ (b = true <-> all_written ops m).
Proof. intros O M T R. apply (full_query _ _ _ _ (minv_of _ _ _ O R) M T). Qed.

Lemma merge_exact ops f outs m : Forall mop_ok ops -> mpf_ok m -> touched ops (mp_icc m) -> mrun empty_fs [] ops = Ok (f, outs) ->
  exists l f', parts_in_order ops m l /\ mp_merge f m = Ok (over (concat (map snd l)) (match last_merge outs m with Some c => c | None => [] end), f').
Proof. intros O M T R. apply (merge_query _ _ _ _ (minv_of _ _ _ O R) M T). Qed.

Lemma sorted_upto g n : StronglySorted slt (map (fun i => (i, g i)) (upto n)).
Proof.
  unfold upto. rewrite map_map. generalize 1%nat as a. induction (Z.to_nat n) as [|k IH]; intros a; [constructor|]. cbn [seq map]. constructor; auto.
  apply Forall_forall. intros p H. apply in_map_iff in H. destruct H as (x & <- & H). apply in_seq in H. unfold slt. cbn [fst]. lia.
Qed.
Lemma exact_parts ops m l : mpf_ok m -> exactly_written ops m -> parts_in_order ops m l -> concat (map snd l) = concat (map (data_of ops m) (upto (mp_sum m))).
Proof.
  intros M X (S & MEM). pose proof M as (_ & _ & _ & SU). assert (E : l = map (fun i => (i, data_of ops m i)) (upto (mp_sum m))).
  { apply (sorted_unique l S); [apply sorted_upto|]. intros [s c]. rewrite MEM. rewrite in_map_iff. unfold is_u16 in *. split.
    - intros (R & W). exists s. unfold data_of. rewrite W. split; auto. apply in_seq_set; [lia|]. apply X; [exact R|congruence].
    - intros (i & E & I). apply in_seq_set in I; [|lia]. assert (R : is_u16 i) by (unfold is_u16; lia). pose proof (proj2 (X i R) I) as W. injection E as -> <-.
      split; [exact R|]. unfold data_of. destruct (written ops m s); congruence. }
  rewrite E, map_map. reflexivity.
Qed.
Lemma merge_complete ops f outs m : Forall mop_ok ops -> mpf_ok m -> 1 <= mp_sum m -> exactly_written ops m -> mrun empty_fs [] ops = Ok (f, outs) ->
  let whole := concat (map (data_of ops m) (upto (mp_sum m))) in
  (forall c, last_merge outs m = Some c -> (length c <= length whole)%nat) -> exists f', mp_merge f m = Ok (whole, f').
Proof.
  intros O M S X R whole L. assert (T : touched ops (mp_icc m)).
  { assert (U : is_u16 1) by (unfold is_u16; lia). pose proof (proj2 (X 1 U) ltac:(lia)) as W. destruct (written ops m 1) eqn:E; [|congruence]. eapply written_touched; eauto. }
  destruct (merge_exact _ _ _ _ O M T R) as (l & f' & P & E). rewrite (exact_parts _ _ _ M X P) in E. exists f'. rewrite E. fold whole. do 2 f_equal. unfold over.
  destruct (last_merge outs m) as [c|]; [rewrite skipn_all2 by (apply L; reflexivity)|rewrite skipn_nil]; apply app_nil_r.
Qed.

Lemma foreign_written ops xs m s : Forall (foreign m) xs -> written (ops ++ xs) m s = written ops m s.
Proof.
  induction xs as [|o xs IH] using rev_ind; intros F; [rewrite app_nil_r; reflexivity|]. apply Forall_app in F. destruct F as (F & G). apply Forall_inv in G.
  rewrite app_assoc, written_snoc, IH by auto. destruct o; cbn [foreign] in G; auto. rewrite G. reflexivity.
Qed.
Lemma mrun_app a : forall f outs b, mrun f outs (a ++ b) = (do (f', outs') <- mrun f outs a ; mrun f' outs' b).
Proof.
  induction a as [|o a IH]; intros f outs b; [reflexivity|]. destruct o as [m s d|m]; cbn [app mrun].
  - destruct (mp_write f m s d); cbn [bind]; auto.
  - destruct (mp_merge f m) as [[c g]| |]; cbn [bind]; auto.
Qed.
Lemma foreign_merge xs m : Forall (foreign m) xs -> forall f outs f' outs', mrun f outs xs = Ok (f', outs') -> last_merge outs' m = last_merge outs m.
Proof.
  induction 1 as [|o xs O H IH]; intros f outs f' outs' R; [injection R as _ <-; reflexivity|]. destruct o as [m' s d|m']; cbn [mrun] in R; cbn [foreign] in O.
  - destruct (mp_write f m' s d); cbn [bind] in R; try discriminate. eapply IH; eauto.
  - destruct (mp_merge f m') as [[c g]| |]; cbn [bind] in R; try discriminate. rewrite (IH _ _ _ _ R). cbn [last_merge]. rewrite O. reflexivity.
Qed.
Lemma touched_app a b icc : touched a icc -> touched (a ++ b) icc.
Proof. intros (m & s & d & I & E). exists m, s, d. split; auto. apply in_app_iff. auto. Qed.
Lemma foreign_keeps ops xs f outs f' outs' m : Forall mop_ok (ops ++ xs) -> mpf_ok m -> Forall (foreign m) xs ->
  mrun empty_fs [] ops = Ok (f, outs) -> mrun f outs xs = Ok (f', outs') ->
  (forall b, is_full f m = Ok b -> is_full f' m = Ok b) /\ (forall c g, mp_merge f m = Ok (c, g) -> exists g', mp_merge f' m = Ok (c, g')).
Proof.
  intros O M F R R'. pose proof O as O'. apply Forall_app in O'. destruct O' as (Oo & _). assert (RR : mrun empty_fs [] (ops ++ xs) = Ok (f', outs')) by (rewrite mrun_app, R; exact R').
  destruct (touched_dec ops (mp_icc m)) as [T|T].
  2:{ destruct (query_missing _ _ _ _ (minv_of _ _ _ Oo R) M T) as (A & B). rewrite A, B. split; intros; discriminate. }
  pose proof (touched_app _ xs _ T) as T'. split.
  - destruct (full_answers _ _ _ _ Oo M T R) as (b & -> & E). destruct (full_answers _ _ _ _ O M T' RR) as (b' & -> & E').
    intros b0 X. injection X as <-. f_equal. assert (W : all_written (ops ++ xs) m <-> all_written ops m).
    { unfold all_written. split; intros H i I; specialize (H i I); rewrite foreign_written in * by auto; auto. }
    destruct b, b'; intuition congruence.
  - destruct (merge_exact _ _ _ _ Oo M T R) as (l & g & (S & P) & ->). destruct (merge_exact _ _ _ _ O M T' RR) as (l' & g' & (S' & P') & ->).
    rewrite (foreign_merge _ _ F _ _ _ _ R'). assert (l = l').
    { apply (sorted_unique l S l' S'). intros [s c]. rewrite P, P', foreign_written by auto. tauto. }
    subst l'. intros c g0 X. exists g'. congruence.
Qed.
(** Calls for another terminal change nothing at all. *)
Lemma foreign_term ops xs f outs f' outs' m : Forall mop_ok (ops ++ xs) -> mpf_ok m ->
  Forall (fun o => match o with MWrite m' _ _ => mp_icc m' <> mp_icc m | MMerge m' => mp_icc m' <> mp_icc m end) xs ->
  mrun empty_fs [] ops = Ok (f, outs) -> mrun f outs xs = Ok (f', outs') ->
  is_full f' m = is_full f m /\ (do (c, _) <- mp_merge f' m ; Ok c) = (do (c, _) <- mp_merge f m ; Ok c).
Proof.
  intros O M F R R'. pose proof O as O'. apply Forall_app in O'. destruct O' as (Oo & _). assert (RR : mrun empty_fs [] (ops ++ xs) = Ok (f', outs')) by (rewrite mrun_app, R; exact R').
  assert (FF : Forall (foreign m) xs).
  { eapply Forall_impl; [|exact F]. intros [m' s d|m'] H; cbn [foreign]; destruct (same_upload_spec m' m); tauto. }
  destruct (foreign_keeps _ _ _ _ _ _ _ O M FF R R') as (A & B). destruct (touched_dec ops (mp_icc m)) as [T|T].
  - destruct (full_answers _ _ _ _ Oo M T R) as (b & E & _). destruct (merge_exact _ _ _ _ Oo M T R) as (l & g & _ & E'). rewrite (A _ E), E.
    destruct (B _ _ E') as (g' & E2). rewrite E2, E'. auto.
  - destruct (query_missing _ _ _ _ (minv_of _ _ _ Oo R) M T) as (-> & ->).
    destruct (query_missing _ _ _ _ (minv_of _ _ _ O RR) M) as (-> & ->); [|auto].
    intros (m' & s & d & I & E). apply in_app_iff in I. destruct I as [I|I]; [apply T; exists m', s, d; auto|].
    rewrite Forall_forall in F. apply F in I. cbn in I. congruence.
Qed.

(** ** Totality *)
Lemma query_total ops f outs m : Forall mop_ok ops -> mpf_ok m -> mrun empty_fs [] ops = Ok (f, outs) ->
  (is_full f m = Panic <-> ~ touched ops (mp_icc m)) /\ (mp_merge f m = Panic <-> ~ touched ops (mp_icc m)).
Proof.
  intros O M R. destruct (touched_dec ops (mp_icc m)) as [T|T].
  - destruct (full_answers _ _ _ _ O M T R) as (b & -> & _). destruct (merge_exact _ _ _ _ O M T R) as (l & g & _ & ->). split; (split; [discriminate|tauto]).
  - destruct (query_missing _ _ _ _ (minv_of _ _ _ O R) M T) as (-> & ->). tauto.
Qed.
Lemma run_total ops : Forall mop_ok ops -> (exists f outs, mrun empty_fs [] ops = Ok (f, outs)) <-> merges_after_writes ops.
Proof.
  induction ops as [|o ops IH] using rev_ind; intros O.
  - split; [intros _ pre m post E; destruct pre; discriminate|intros _; cbn; eauto].
  - apply Forall_app in O. destruct O as (O & Oo). apply Forall_inv in Oo. specialize (IH O).
    assert (K : merges_after_writes (ops ++ [o]) <-> merges_after_writes ops /\ match o with MMerge m => touched ops (mp_icc m) | _ => True end).
    { split.
      - intros H. split; [intros pre m post E; apply (H pre m (post ++ [o])); rewrite E, <- app_assoc; reflexivity|]. destruct o; auto. apply (H ops m []). reflexivity.
      - intros (H & Ho) pre m post E. destruct post as [|x post] using rev_ind; [apply app_inj_tail in E; destruct E as (-> & ->); auto|].
        change (pre ++ MMerge m :: post ++ [x]) with (pre ++ (MMerge m :: post) ++ [x]) in E. rewrite app_assoc in E. apply app_inj_tail in E. destruct E as (E & _). eauto. }
    rewrite K, <- IH. split.
    + intros (f & outs & R). rewrite mrun_app in R. destruct (mrun empty_fs [] ops) as [[g outs']| |] eqn:E; cbn [bind] in R; try discriminate. split; [eauto|].
      destruct o as [|m]; auto. cbn [mrun] in R. destruct (touched_dec ops (mp_icc m)) as [T|T]; auto.
      destruct (query_total _ _ _ m O Oo E) as (_ & Q). rewrite (proj2 Q T) in R. discriminate.
    + intros ((f & outs & R) & H). rewrite mrun_app, R. cbn [bind mrun]. destruct o as [m s d|m].
      * destruct (minv_of _ _ _ O R) as (P & _). unfold mp_write. rewrite P. cbn [negb bind]. eauto.
      * destruct (merge_exact _ _ _ _ O Oo H R) as (l & g & _ & ->). cbn [bind]. eauto.
Qed.
Lemma parts_unique ops m l l' : parts_in_order ops m l -> parts_in_order ops m l' -> l = l'.
Proof. intros (S & P) (S' & P'). apply (sorted_unique l S l' S'). intros [s c]. rewrite P, P'. tauto. Qed.

(** ** Witnesses *)
Definition m1 : mpf := Mpf 1 2049 1 1.
Lemma m1_ok : mpf_ok m1. Proof. repeat constructor; vm_compute; congruence. Qed.
Lemma u16_12 : is_u16 1 /\ is_u16 2. Proof. repeat constructor; vm_compute; congruence. Qed.
Lemma stale_tail : exists ops f outs m f', Forall mop_ok ops /\ mpf_ok m /\ mrun empty_fs [] ops = Ok (f, outs) /\ exactly_written ops m /\
  data_of ops m 1 = [4] /\ mp_sum m = 1 /\ mp_merge f m = Ok ([4; 2; 3], f').
Proof.
  exists [MWrite m1 1 [1; 2; 3]; MMerge m1; MWrite m1 1 [4]]. do 2 eexists. exists m1. eexists. pose proof m1_ok. pose proof u16_12.
  split; [repeat first [apply Forall_nil | apply Forall_cons; [cbn [mop_ok]; tauto|]]|]. split; auto. split; [vm_compute; reflexivity|].
  split; [|split; [reflexivity|split; [reflexivity|vm_compute; reflexivity]]].
  intros i I. change (mp_sum m1) with 1. unfold written. cbn [fold_left]. change (same_upload m1 m1) with true. cbn [andb].
  destruct (Z.eqb_spec 1 i); split; (lia || congruence).
Qed.
Lemma extra_parts : exists ops f outs m f', Forall mop_ok ops /\ mpf_ok m /\ mrun empty_fs [] ops = Ok (f, outs) /\ all_written ops m /\ outs = [] /\
  data_of ops m 1 = [1] /\ mp_sum m = 1 /\ mp_merge f m = Ok ([1; 2], f').
Proof.
  exists [MWrite m1 1 [1]; MWrite m1 2 [2]]. do 2 eexists. exists m1. eexists. pose proof m1_ok. pose proof u16_12.
  split; [repeat first [apply Forall_nil | apply Forall_cons; [cbn [mop_ok]; tauto|]]|]. split; auto. split; [vm_compute; reflexivity|].
  split; [|split; [reflexivity|split; [reflexivity|split; [reflexivity|vm_compute; reflexivity]]]].
  intros i I. change (mp_sum m1) with 1 in I. assert (i = 1) by lia. subst i. vm_compute. discriminate.
Qed.
Lemma untouched_panics : exists m, mpf_ok m /\ is_full empty_fs m = Panic /\ mp_merge empty_fs m = Panic.
Proof. exists m1. split; [apply m1_ok|]. split; vm_compute; reflexivity. Qed.
