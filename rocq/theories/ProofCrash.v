(** Uploads under faults and crashes: the files hold what happened. *)
From Coq Require Import Sorted Permutation.
From Verif Require Import Base LibBase Multipart Overlap LibMulti SpecMulti ProofMulti SpecFaults ProofFaults ProofOverlap ProofOverlap2 Crash SpecCrash.

Definition dfl (o : option bytes) : bytes := match o with Some c => c | None => [] end.
Lemma part_app hs h m s : part_of (hs ++ [h]) m s =
  match snd h with
  | HOpen m' i' => if same_upload m' m && (i' =? s) then Some [] else part_of hs m s
  | HWrite m' i' d _ => if same_upload m' m && (i' =? s) then Some (over d (dfl (part_of hs m s))) else part_of hs m s
  | _ => part_of hs m s
  end.
Proof. unfold part_of. rewrite fold_left_app. reflexivity. Qed.
Lemma full_app hs h m : full_of (hs ++ [h]) m = match snd h with HLay m' off d => if same_upload m' m then patched off d (full_of hs m) else full_of hs m | _ => full_of hs m end.
Proof. unfold full_of. rewrite fold_left_app. reflexivity. Qed.
Lemma part_stays h2 : forall h1 m s, part_of h1 m s <> None -> part_of (h1 ++ h2) m s <> None.
Proof.
  induction h2 as [|h t IH]; intros h1 m s H; [rewrite app_nil_r; auto|]. replace (h1 ++ h :: t) with ((h1 ++ [h]) ++ t) by (rewrite <- app_assoc; reflexivity).
  apply IH. rewrite part_app. destruct (snd h); auto; destruct (_ && _); auto; discriminate.
Qed.
Lemma patched_at off d c : patched off d c = write_at off d c.
Proof.
  unfold patched, write_at. rewrite firstn_app, <- !app_assoc. f_equal. f_equal.
  destruct (le_lt_dec off (length c)); [replace (off - length c)%nat with O by lia; reflexivity|].
  replace off with ((off - length c) + length c)%nat at 2 by lia. rewrite repeat_app, firstn_app, repeat_length, Nat.sub_diag, app_nil_r, firstn_all2; auto. rewrite repeat_length. lia.
Qed.
Lemma over_at d c : over d c = write_at 0 d c.
Proof. unfold over, write_at. reflexivity. Qed.

(** ** The invariant *)
Definition all_parts (hs : list (nat * happening)) (m : mpf) : Prop := forall i, 1 <= i <= mp_sum m -> part_of hs m i <> None.
Definition a_part (hs : list (nat * happening)) (m : mpf) (n : bytes) : Prop := exists s, is_u16 s /\ n = part_name m s /\ part_of hs m s <> None.
Definition task_ok (P : packet -> Prop) (hs : list (nat * happening)) (k : task) : Prop :=
  match k with
  | TIdle => True
  | TMkdir p | TTrunc p | TFill p => P p
  | TCheck m | TRead m => mpf_ok m
  | TOpen m => mpf_ok m /\ all_parts hs m
  | TCreate m names => mpf_ok m /\ Forall (a_part hs m) names
  | TCopy m names off => mpf_ok m /\ Forall (a_part hs m) names /\ (off <= length (full_of hs m))%nat
  end.
Definition thread_ok (P : packet -> Prop) hs (t : thread) : Prop := Forall P (th_todo t) /\ task_ok P hs (th_at t).
Definition files_ok (hs : list (nat * happening)) (f : fs) : Prop :=
  exists U, finv f U /\ (forall m s, piece s (ul_pieces (U m)) = part_of hs m s) /\ (forall m, dfl (ul_full (U m)) = full_of hs m).
Definition box_ok (P : packet -> Prop) hs (b : box) : Prop := files_ok hs (bx_fs b) /\ Forall (thread_ok P hs) (bx_threads b).

Lemma full_grows h2 : forall h1 m, (length (full_of h1 m) <= length (full_of (h1 ++ h2) m))%nat.
Proof.
  induction h2 as [|h t IH]; intros h1 m; [rewrite app_nil_r; auto|]. replace (h1 ++ h :: t) with ((h1 ++ [h]) ++ t) by (rewrite <- app_assoc; reflexivity).
  etransitivity; [|apply IH]. rewrite full_app. destruct (snd h); auto. destruct (same_upload _ _); auto. unfold patched. rewrite !app_length, skipn_length, firstn_length, app_length, repeat_length. lia.
Qed.
Lemma all_parts_stay h1 h2 m : all_parts h1 m -> all_parts (h1 ++ h2) m.
Proof. intros H i R. apply part_stays; auto. Qed.
Lemma a_part_stays h1 h2 m n : a_part h1 m n -> a_part (h1 ++ h2) m n.
Proof. intros (s & A & B & C). exists s. split; [auto|]. split; [auto|]. apply part_stays; auto. Qed.
Lemma task_stays P h1 h2 k : task_ok P h1 k -> task_ok P (h1 ++ h2) k.
Proof.
  destruct k; cbn [task_ok]; auto; intros H.
  - destruct H. split; auto. apply all_parts_stay; auto.
  - destruct H as (A & B). split; auto. eapply Forall_impl; [|exact B]. intros; apply a_part_stays; auto.
  - destruct H as (A & B & C). split; auto. split; [eapply Forall_impl; [|exact B]; intros; apply a_part_stays; auto|]. pose proof (full_grows h2 h1 m). lia.
Qed.
Lemma thread_stays P h1 h2 t : thread_ok P h1 t -> thread_ok P (h1 ++ h2) t.
Proof. intros (A & B). split; auto. apply task_stays; auto. Qed.

(** ** The files *)
Lemma open_ok hs f m s i : files_ok hs f -> mpf_ok m -> is_u16 s -> files_ok (hs ++ [(i, HOpen m s)]) (set_file f m (part_name m s) []).
Proof.
  intros (U & V & A & B) M S. eexists. split; [apply put_part; eauto|]. pose proof V as (_ & C & K & _). split; intros m'; [intros s'; rewrite part_app|rewrite full_app]; cbn [snd]; unfold upd.
  - destruct (same_upload m m') eqn:E; cbn [ul_pieces andb]; auto. rewrite put_piece_get by apply K. rewrite (C _ _ E), A. destruct (s =? s'); auto.
  - destruct (same_upload m m') eqn:E; cbn [ul_full]; auto. rewrite (C _ _ E); auto.
Qed.
Lemma get_part hs f m s : files_ok hs f -> mpf_ok m -> is_u16 s -> alist_get (dir_of f m) (part_name m s) = part_of hs m s.
Proof. intros (U & V & A & B) M S. pose proof (dir_holds _ _ _ V M) as (_ & _ & W & _). rewrite W, A; auto. Qed.
Lemma get_full hs f m : files_ok hs f -> mpf_ok m -> get_file f m (full_name m) = full_of hs m.
Proof. intros (U & V & A & B) M. pose proof (dir_holds _ _ _ V M) as (_ & _ & _ & W). unfold get_file. rewrite W, <- B; auto. Qed.
Lemma get_part_file hs f m s : files_ok hs f -> mpf_ok m -> is_u16 s -> get_file f m (part_name m s) = dfl (part_of hs m s).
Proof. intros F M S. unfold get_file. rewrite (get_part hs f m s F M S). reflexivity. Qed.
Lemma write_ok hs f m s i d w : files_ok hs f -> mpf_ok m -> is_u16 s ->
  files_ok (hs ++ [(i, HWrite m s d w)]) (set_file f m (part_name m s) (write_at 0 d (get_file f m (part_name m s)))).
Proof.
  intros F M S. rewrite (get_part_file _ _ _ _ F M S). destruct F as (U & V & A & B). eexists. split; [apply put_part; eauto|]. pose proof V as (_ & C & K & _).
  split; intros m'; [intros s'; rewrite part_app|rewrite full_app]; cbn [snd]; unfold upd.
  - destruct (same_upload m m') eqn:E; cbn [ul_pieces andb]; auto. rewrite put_piece_get by apply K. destruct (Z.eqb_spec s s') as [->|]; [|rewrite (C _ _ E); auto].
    rewrite <- (A m s'), <- (A m' s'), (C _ _ E). reflexivity.
  - destruct (same_upload m m') eqn:E; cbn [ul_full]; auto. rewrite (C _ _ E); auto.
Qed.
Lemma lay_ok hs f m i off d : files_ok hs f -> mpf_ok m -> files_ok (hs ++ [(i, HLay m off d)]) (set_file f m (full_name m) (write_at off d (get_file f m (full_name m)))).
Proof.
  intros F M. rewrite (get_full _ _ _ F M). destruct F as (U & V & A & B). eexists. split; [apply put_full; eauto|]. pose proof V as (_ & C & K & _).
  split; intros m'; [intros s'; rewrite part_app|rewrite full_app]; cbn [snd]; unfold upd.
  - destruct (same_upload m m') eqn:E; cbn [ul_pieces]; auto. rewrite (C _ _ E); auto.
  - destruct (same_upload m m') eqn:E; cbn [ul_full dfl]; auto. rewrite patched_at, <- (B m), <- (B m'), (C _ _ E). reflexivity.
Qed.
Lemma create_ok hs f m : files_ok hs f -> mpf_ok m -> files_ok hs (set_file f m (full_name m) (get_file f m (full_name m))).
Proof.
  intros F M. rewrite (get_full _ _ _ F M). destruct F as (U & V & A & B). eexists. split; [apply put_full; eauto|]. pose proof V as (_ & C & K & _).
  split; intros m'; [intros s'|]; unfold upd; destruct (same_upload m m') eqn:E; cbn [ul_pieces ul_full dfl]; auto; [rewrite (C _ _ E); auto|rewrite <- (B m), <- (B m'), (C _ _ E); auto].
Qed.
Lemma mkdir_ok hs f m : files_ok hs f -> mpf_ok m -> files_ok hs (Fs (fs_priv f) (alist_set (fs_dirs f) (root_dir m) (dir_of f m))).
Proof.
  intros (U & V & A & B) M. eexists. split; [apply put_none; eauto|]. pose proof V as (_ & C & K & _).
  split; intros m'; [intros s'|]; unfold upd; destruct (same_upload m m') eqn:E; auto; rewrite (C _ _ E); auto.
Qed.
Lemma quiet_ok hs f h : files_ok hs f -> match snd h with HOpen _ _ | HWrite _ _ _ _ | HLay _ _ _ => False | _ => True end -> files_ok (hs ++ [h]) f.
Proof.
  intros (U & V & A & B) N. exists U. split; auto. split; intros m; [intros s; rewrite part_app, A|rewrite full_app, B]; destruct (snd h); try tauto; reflexivity.
Qed.
(** The parts that are listed *)
Lemma listed hs f m : files_ok hs f -> mpf_ok m -> forall s n, In (s, n) (list_parts f m) <-> is_u16 s /\ n = part_name m s /\ part_of hs m s <> None.
Proof.
  intros F M s n. pose proof F as (U & V & _). pose proof (dir_holds _ _ _ V M) as (ND & NM & _). unfold list_parts. rewrite in_concat. split.
  - intros (l & L & J). apply in_map_iff in L. destruct L as ([n' c] & <- & L). cbn [fst] in *. pose proof (named_seq m n' M (NM _ _ L)) as Q. destruct (part_seq m n') as [s'|]; [|destruct J].
    destruct J as [J|[]]. injection J as -> ->. destruct Q as (S & ->). split; auto. split; auto. rewrite <- (get_part _ _ _ _ F M S). erewrite alist_in_get; eauto. discriminate.
  - intros (S & -> & N). destruct (part_of hs m s) as [c|] eqn:E; [|congruence]. rewrite <- (get_part _ _ _ _ F M S) in E. apply alist_get_in in E.
    exists [(s, part_name m s)]. split; [|left; auto]. apply in_map_iff. exists (part_name m s, c). split; auto. cbn [fst].
    pose proof (named_seq m _ M (NM _ _ E)) as Q. destruct (part_seq m (part_name m s)) as [s'|]; [|exfalso; exact (Q s S eq_refl)].
    destruct Q as (S' & X). apply part_inj in X; auto. destruct X as (_ & _ & ->). reflexivity.
Qed.

(** ** One step *)
Definition just (P : packet -> Prop) (hs : list (nat * happening)) (h : happening) : Prop :=
  match h with
  | HOpen m s | HRefuse m s => exists p, P p /\ pk_up p = m /\ pk_seq p = s
  | HWrite m s d w => exists p, P p /\ pk_up p = m /\ pk_seq p = s /\ if w then d = pk_data p else exists k, d = firstn k (pk_data p)
  | HStart m _ => mpf_ok m /\ all_parts hs m
  | HLay m off d => mpf_ok m /\ (off <= length (full_of hs m))%nat /\ exists s c k, is_u16 s /\ part_of hs m s = Some c /\ d = firstn k c
  | HDrop m => mpf_ok m
  | HWhole m c => mpf_ok m /\ c = full_of hs m
  end.
Definition packs (P : packet -> Prop) : Prop := forall p, P p -> mpf_ok (pk_up p) /\ is_u16 (pk_seq p).
Lemma lay_length off d c : (off <= length c)%nat -> (off + length d <= length (patched off d c))%nat.
Proof. intros L. unfold patched. rewrite !app_length, skipn_length, firstn_length, app_length, repeat_length. lia. Qed.
Lemma sorted_names hs f m : files_ok hs f -> mpf_ok m -> Forall (a_part hs m) (map snd (sort_parts (list_parts f m))).
Proof.
  intros F M. apply Forall_map, sort_forall. rewrite Forall_forall. intros [s n] J. apply (listed _ _ _ F M) in J. destruct J as (A & B & C). exists s. auto.
Qed.
Ltac calm := cbn [map]; rewrite ?app_nil_r.
Lemma fault_ok P hs f t x i f' t' e : packs P -> files_ok hs f -> thread_ok P hs t -> fault_step f t x = (f', t', e) ->
  files_ok (hs ++ map (fun h => (i, h)) e) f' /\ thread_ok P (hs ++ map (fun h => (i, h)) e) t' /\ (forall h, In h e -> just P hs h) /\ (length e <= 1)%nat.
Proof.
  intros PK F (TD & TK) E. pose proof F as (U & V & _). pose proof V as (PR & _).
  assert (IDLE : forall todo e os, Forall P todo -> thread_ok P (hs ++ e) (Thread todo TIdle os)) by (intros; split; cbn; auto).
  unfold fault_step, thread_step in E. destruct (th_at t) as [|p|p|p|m|m|m names|m names off|m] eqn:TA; cbn [task_ok] in TK.
  - injection E as E1 E2. subst e. calm. destruct (th_todo t) as [|p r] eqn:TT; injection E1 as <- <-; (split; [auto|]); (split; [|split; [intros ? []|auto]]).
    + split; [rewrite TT; auto|rewrite TA; exact Logic.I].
    + inversion TD; subst. split; cbn; auto.
  - destruct (PK _ TK) as (M & S). rewrite PR in E. cbn [negb] in E.
    assert (REF : (f, Thread (th_todo t) TIdle (th_out t ++ [OFail]), [HRefuse (pk_up p) (pk_seq p)]) = (f', t', e) -> files_ok (hs ++ map (fun h => (i, h)) e) f' /\ thread_ok P (hs ++ map (fun h => (i, h)) e) t' /\ (forall h, In h e -> just P hs h) /\ (length e <= 1)%nat).
    { intros Q. injection Q as <- <- <-. calm. split; [apply quiet_ok; cbn; auto|]. split; [auto|]. split; [|auto]. intros h [<-|[]]. exists p. auto. }
    destruct x; auto. injection E as <- <- <-. calm. split; [rewrite <- PR; apply mkdir_ok; auto|]. split; [split; auto|]. split; [intros ? []|auto].
  - destruct (PK _ TK) as (M & S).
    assert (REF : (f, Thread (th_todo t) TIdle (th_out t ++ [OFail]), [HRefuse (pk_up p) (pk_seq p)]) = (f', t', e) -> files_ok (hs ++ map (fun h => (i, h)) e) f' /\ thread_ok P (hs ++ map (fun h => (i, h)) e) t' /\ (forall h, In h e -> just P hs h) /\ (length e <= 1)%nat).
    { intros Q. injection Q as <- <- <-. calm. split; [apply quiet_ok; cbn; auto|]. split; [auto|]. split; [|auto]. intros h [<-|[]]. exists p. auto. }
    destruct x; auto. injection E as <- <- <-. calm. split; [apply open_ok; auto|]. split; [split; auto|]. split; [intros h [<-|[]]; exists p; auto|auto].
  - destruct (PK _ TK) as (M & S).
    assert (CUT : forall k, (set_file f (pk_up p) (part_name (pk_up p) (pk_seq p)) (write_at 0 (firstn k (pk_data p)) (get_file f (pk_up p) (part_name (pk_up p) (pk_seq p)))),
        Thread (th_todo t) TIdle (th_out t ++ [OFail]), [HWrite (pk_up p) (pk_seq p) (firstn k (pk_data p)) false]) = (f', t', e) ->
        files_ok (hs ++ map (fun h => (i, h)) e) f' /\ thread_ok P (hs ++ map (fun h => (i, h)) e) t' /\ (forall h, In h e -> just P hs h) /\ (length e <= 1)%nat).
    { intros k Q. injection Q as <- <- <-. calm. split; [apply write_ok; auto|]. split; [auto|]. split; [|auto]. intros h [<-|[]]. exists p. eauto. }
    destruct x; [|apply (CUT O); exact E|apply (CUT k); exact E]. destruct (negb _); injection E as <- <- <-; calm; (split; [apply write_ok; auto|]); (split; [auto; split; auto|]); (split; [intros h [<-|[]]; exists p; auto|auto]).
  - assert (FULL : match fold_left (fun set p => filter (fun i => negb (i =? fst p)) set) (list_parts f m) (seq_set (mp_sum m)) with [] => all_parts hs m | _ => True end).
    { pose proof (strike (list_parts f m) (seq_set (mp_sum m))) as ST. destruct (fold_left _ _ _) as [|z r]; auto. intros j R. destruct (part_of hs m j) as [c|] eqn:Q; [discriminate|]. exfalso.
      pose proof TK as (_ & _ & _ & SU). unfold is_u16 in SU. assert (W : In j []); [|destruct W]. apply ST. split; [apply in_seq_set; lia|].
      intros n J. apply (listed _ _ _ F TK) in J. destruct J as (_ & _ & J). congruence. }
    assert (NONE : match seq_set (mp_sum m) with [] => all_parts hs m | _ => True end).
    { destruct (seq_set (mp_sum m)) eqn:Q; auto. intros j R. pose proof TK as (_ & _ & _ & SU). unfold is_u16 in SU. apply in_seq_set in R; [|lia]. rewrite Q in R. destruct R. }
    assert (R : e = [] /\ f' = f /\ (t' = Thread (th_todo t) TIdle (th_out t ++ [OKept]) \/ (t' = Thread (th_todo t) (TOpen m) (th_out t) /\ all_parts hs m))).
    { destruct x; [destruct (fold_left _ _ _)|destruct (seq_set _)|destruct (seq_set _)]; injection E as <- <- <-; auto. }
    destruct R as (-> & -> & [->|(-> & AP)]); calm; (split; [auto|]); (split; [|split; [intros ? []|cbn; auto]]); [split; cbn; auto|split; cbn; auto].
  - destruct TK as (M & AP). destruct x; injection E as <- <- <-; calm; (split; [apply quiet_ok; cbn; auto|]); (split; [auto|split; [intros h [<-|[]]; cbn; auto|auto]]); (split; [auto|]); cbn.
    + split; auto. eapply Forall_impl; [|apply (sorted_names _ _ _ F M)]. intros; apply a_part_stays; auto.
    + split; auto.
  - destruct TK as (M & NS). destruct x; injection E as <- <- <-; calm.
    1: { split; [apply create_ok; auto|]. split; [|split; [intros ? []|cbn; auto]]. split; cbn; auto. split; auto. split; auto. lia. }
    all: (split; [apply quiet_ok; cbn; auto|]); split; [auto|]; split; [|auto]; intros h [<-|[]]; exact M.
  - destruct TK as (M & NS & OF). destruct names as [|n r].
    + destruct x; injection E as <- <- <-; calm.
      1: { split; [auto|]. split; [split; auto|]. split; [intros ? []|cbn; auto]. }
      all: (split; [apply quiet_ok; cbn; auto|]); split; [auto|]; split; [|auto]; intros h [<-|[]]; exact M.
    + inversion NS as [|? ? (s & S & -> & N) NS']; subst. destruct (part_of hs m s) as [c|] eqn:Q; [clear N|congruence].
      assert (G : get_file f m (part_name m s) = c) by (rewrite (get_part_file _ _ _ _ F M S), Q; reflexivity). rewrite G in E. destruct x; injection E as <- <- <-; calm.
      * split; [apply lay_ok; auto|]. split.
        { split; [auto|]. cbn. split; auto. split; [eapply Forall_impl; [|exact NS']; intros; apply a_part_stays; auto|]. rewrite full_app. cbn [snd]. rewrite same_refl. apply lay_length; auto. }
        split; [|auto]. intros h [<-|[]]. cbn. split; auto. split; auto. exists s, c, (length c). rewrite firstn_all. auto.
      * split; [apply quiet_ok; cbn; auto|]. split; [auto|]. split; [|auto]. intros h [<-|[]]. exact M.
      * split; [apply lay_ok; auto|]. split; [auto|]. split; [|auto]. intros h [<-|[]]. cbn. split; auto. split; auto. exists s, c, k. auto.
  - injection E as <- <- <-. calm. split; [apply quiet_ok; cbn; auto|]. split; [auto|]. split; [|auto]. intros h [<-|[]]. cbn. split; auto. apply (get_full _ _ _ F TK).
Qed.

Lemma nth_in_firstn {A} (l : list A) x n : In x (firstn n l) -> In x l.
Proof. intros H. rewrite <- (firstn_skipn n l). apply in_or_app. auto. Qed.
Lemma nth_in_skipn {A} (l : list A) x n : In x (skipn n l) -> In x l.
Proof. intros H. rewrite <- (firstn_skipn n l). apply in_or_app. auto. Qed.
Lemma bstep_ok P hs b o b' e : packs P -> box_ok P hs b -> match o with BConnect ps => Forall P ps | _ => True end -> bstep b o = (b', e) ->
  box_ok P (hs ++ e) b' /\ (forall h, In h e -> just P hs (snd h)) /\ (length e <= 1)%nat.
Proof.
  intros PK (F & T) O E. destruct o as [ps|i x|]; cbn [bstep] in E.
  - injection E as <- <-. rewrite app_nil_r. split; [|split; [intros ? []|cbn; auto]]. split; auto. cbn. apply Forall_app. split; auto. constructor; auto. split; cbn; auto.
  - destruct (nth_error (bx_threads b) i) as [t|] eqn:N.
    + destruct (fault_step (bx_fs b) t x) as [[f' t'] e0] eqn:Q. injection E as <- <-. rewrite Forall_forall in T.
      destruct (fault_ok P hs _ t x i _ _ _ PK F (T _ (nth_error_In _ _ N)) Q) as (A & B & C & D). split; [|split].
      * split; auto. cbn. apply Forall_app. assert (Y : forall t0, In t0 (bx_threads b) -> thread_ok P (hs ++ map (fun h => (i, h)) e0) t0) by (intros; apply thread_stays; auto).
        split; [|constructor; auto]; rewrite Forall_forall; intros t0 J; apply Y; [exact (nth_in_firstn _ _ _ J)|exact (nth_in_skipn _ _ (Datatypes.S i) J)].
      * intros h J. apply in_map_iff in J. destruct J as (h0 & <- & J). cbn. auto.
      * rewrite map_length. auto.
    + injection E as <- <-. rewrite app_nil_r. split; [|split; [intros ? []|cbn; auto]]. split; auto.
  - injection E as <- <-. rewrite app_nil_r. split; [|split; [intros ? []|cbn; auto]]. split; auto. cbn. apply Forall_map. rewrite Forall_forall. intros t _. split; cbn; auto.
Qed.
