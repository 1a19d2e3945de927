(** Uploads under faults and crashes: a merge that nobody disturbs. *)
From Coq Require Import Sorted Permutation.
From Verif Require Import Base LibBase Multipart Overlap LibMulti SpecMulti ProofMulti SpecFaults ProofFaults ProofOverlap ProofOverlap2 Crash SpecCrash ProofCrash ProofCrash2.

Lemma patched_over x d old : patched (length x) d (over x old) = over (x ++ d) old.
Proof.
  unfold patched, over. rewrite <- app_assoc, firstn_pre, app_length, <- app_assoc. f_equal. f_equal. rewrite skipn_plus, skipn_pre, <- skipn_plus. reflexivity.
Qed.
Lemma calm_full hs h m : ~ changes m (snd h) -> full_of (hs ++ [h]) m = full_of hs m.
Proof. intros N. rewrite full_app. destruct (snd h) as [| | | |m' off d| |]; auto. cbn in N. destruct (same_upload m' m); auto. exfalso; auto. Qed.
Lemma calm_one hs h m s : ~ changes m (snd h) -> part_of (hs ++ [h]) m s = part_of hs m s.
Proof.
  intros N. apply calm_part. intros h0 [<-|[]] W. apply N. destruct (snd h); cbn in *; tauto.
Qed.

Section Merge.
Context (i : nat) (m : mpf) (M : mpf_ok m) (l : list (Z * bytes)) (old : bytes).
Definition calm_parts (hs : list (nat * happening)) : Prop := Forall (fun p => is_u16 (fst p) /\ part_of hs m (fst p) = Some (snd p)) l.
Definition name_of (p : Z * bytes) : bytes := part_name m (fst p).
Definition stage (hs : list (nat * happening)) (k : task) : Prop :=
  match k with
  | TIdle | TMkdir _ | TTrunc _ | TFill _ | TCheck _ | TOpen _ => True
  | TCreate m' names => m' = m /\ names = map name_of l /\ full_of hs m = old /\ calm_parts hs
  | TCopy m' names off => m' = m /\ exists pre rest, l = pre ++ rest /\ names = map name_of rest /\ off = length (concat (map snd pre)) /\
                            full_of hs m = over (concat (map snd pre)) old /\ calm_parts hs
  | TRead m' => m' = m /\ full_of hs m = over (concat (map snd l)) old
  end.
Definition staged (hs : list (nat * happening)) (b : box) : Prop := exists t, nth_error (bx_threads b) i = Some t /\ stage hs (th_at t).

Lemma stage_calm hs h k : ~ changes m (snd h) -> stage hs k -> stage (hs ++ [h]) k.
Proof.
  intros N. assert (C : calm_parts hs -> calm_parts (hs ++ [h])) by (intros H; eapply Forall_impl; [|exact H]; intros p (A & B); rewrite calm_one; auto).
  destruct k; cbn [stage]; auto; intros H; rewrite ?(calm_full _ _ _ N); intuition. destruct H1 as (p & r & A & B & D & E & F). exists p, r. auto 8.
Qed.
Lemma stage_step hs f t x f' t' e : files_ok hs f -> stage hs (th_at t) -> fault_step f t x = (f', t', e) ->
  (forall m' q, ~ In (HStart m' q) e) -> stage (hs ++ map (fun h => (i, h)) e) (th_at t').
Proof.
  intros F S E NS. unfold fault_step, thread_step in E. destruct (th_at t) as [|p|p|p|m1|m1|m1 names|m1 names off|m1] eqn:TA; cbn [stage] in S.
  - destruct (th_todo t); injection E as <- <- <-; [rewrite TA|]; exact Logic.I.
  - destruct x; [destruct (negb _)| |]; injection E as <- <- <-; exact Logic.I.
  - destruct x; injection E as <- <- <-; exact Logic.I.
  - destruct x; [destruct (negb _)| |]; injection E as <- <- <-; exact Logic.I.
  - destruct x; [destruct (fold_left _ _ _)|destruct (seq_set _)|destruct (seq_set _)]; injection E as <- <- <-; exact Logic.I.
  - destruct x; injection E as <- <- <-; try exact Logic.I; exfalso; eapply NS; left; reflexivity.
  - destruct S as (-> & -> & FU & CP). destruct x; injection E as <- <- <-; try exact Logic.I. calm. cbn. split; auto. exists [], l. auto 8.
  - destruct S as (-> & pre & rest & L & -> & -> & FU & CP). destruct rest as [|[s c] rest]; cbn [map] in E.
    + destruct x; injection E as <- <- <-; try exact Logic.I. calm. cbn. rewrite app_nil_r in L. subst pre. auto.
    + destruct x; injection E as <- <- <-; try exact Logic.I. cbn [map th_at stage]. split; auto.
      assert (Q : is_u16 s /\ part_of hs m s = Some c). { unfold calm_parts in CP. rewrite Forall_forall in CP. apply (CP (s, c)). rewrite L. apply in_or_app. right. left. auto. }
      destruct Q as (Q1 & Q2). assert (G : get_file f m (name_of (s, c)) = c) by (unfold name_of; cbn [fst]; rewrite (get_part_file _ _ _ _ F M Q1), Q2; reflexivity). rewrite !G.
      exists (pre ++ [(s, c)]), rest. split; [rewrite <- app_assoc; exact L|]. split; [auto|]. rewrite map_app, concat_app. cbn [map concat snd]. rewrite app_nil_r. split; [rewrite app_length; auto|].
      split; [rewrite full_app; cbn [snd]; rewrite same_refl, FU; apply patched_over|]. eapply Forall_impl; [|exact CP]. intros p (A & B). split; auto. rewrite part_app. exact B.
  - injection E as <- <- <-. exact Logic.I.
Qed.
Definition quiet (hs : list (nat * happening)) : Prop := forall j h, In (j, h) hs -> (j <> i -> ~ changes m h) /\ (j = i -> forall m' q, h <> HStart m' q).
Lemma staged_step P hs b o b' e : packs P -> box_ok P hs b -> staged hs b -> bstep b o = (b', e) -> quiet e -> staged (hs ++ e) b'.
Proof.
  intros PK (F & T) (t & N & S) E Q. destruct o as [ps|j x|]; cbn [bstep] in E.
  - injection E as <- <-. rewrite app_nil_r. exists t. split; auto. cbn. rewrite nth_error_app1; auto. apply nth_error_Some. congruence.
  - destruct (nth_error (bx_threads b) j) as [u|] eqn:NJ; [|injection E as <- <-; rewrite app_nil_r; exists t; auto].
    destruct (fault_step (bx_fs b) u x) as [[f' u'] e0] eqn:X. injection E as <- <-. unfold staged. cbn [bx_threads]. rewrite (nth_replace _ _ _ _ NJ). destruct (Nat.eqb_spec i j) as [<-|D].
    + exists u'. split; auto. assert (u = t) by congruence. subst u. eapply stage_step; eauto. intros m' q J. apply (proj2 (Q i (HStart m' q) ltac:(apply in_map_iff; eauto)) eq_refl m' q). reflexivity.
    + exists t. split; auto. pose proof (fault_one _ _ _ _ _ _ X) as L. destruct e0 as [|h [|]]; [rewrite app_nil_r; auto| |cbn in L; lia]. cbn [map]. apply stage_calm; auto. apply (Q j h); [left; auto|congruence].
  - injection E as <- <-. rewrite app_nil_r. exists (ended t). split; [|exact Logic.I]. cbn. rewrite nth_error_map, N. reflexivity.
Qed.
Lemma staged_run P : packs P -> forall os hs b b' e, box_ok P hs b -> Forall (op_of P) os -> staged hs b -> brun b os = (b', e) -> quiet e -> staged (hs ++ e) b'.
Proof.
  intros PK. induction os as [|o r IH]; intros hs b b' e B O S E Q; cbn [brun] in E; [injection E as <- <-; rewrite app_nil_r; auto|].
  destruct (bstep b o) as [b1 e1] eqn:X. destruct (brun b1 r) as [b2 e2] eqn:R. injection E as <- <-. inversion O; subst. rewrite app_assoc. apply (IH _ b1); auto.
  - eapply bstep_ok; eauto.
  - eapply staged_step; eauto. intros j h J. apply Q, in_or_app. auto.
  - intros j h J. apply Q, in_or_app. auto.
Qed.
Lemma staged_whole hs b o b' m' c : files_ok hs (bx_fs b) -> staged hs b -> bstep b o = (b', [(i, HWhole m' c)]) -> m' = m /\ c = over (concat (map snd l)) old.
Proof.
  intros F (t & N & S) E. destruct o as [ps|j x|]; cbn [bstep] in E; [discriminate| |discriminate]. destruct (nth_error (bx_threads b) j) as [u|] eqn:NJ; [|discriminate].
  destruct (fault_step (bx_fs b) u x) as [[f' u'] e0] eqn:X. injection E as _ E. destruct e0 as [|h [|]]; try discriminate. injection E as -> ->. assert (u = t) by congruence. subst u.
  assert (Y : th_at t = TRead m' /\ c = get_file (bx_fs b) m' (full_name m')).
  { unfold fault_step in X. destruct (th_at t) as [|p|p|p|m1|m1|m1 names|m1 names off|m1].
    8: destruct names.
    all: destruct x; try (destruct (negb _)); try (destruct (seq_set _)); try (destruct (thread_step (bx_fs b) t)); try discriminate; injection X as _ _ -> <-; auto. }
  destruct Y as (Y & ->). rewrite Y in S. destruct S as (-> & S). split; auto. rewrite (get_full _ _ _ F M). auto.
Qed.
End Merge.

(** The parts listed by Merge *)
Lemma keys f m : map fst (list_parts f m) = map fst (parts_of m (dir_of f m)).
Proof.
  unfold list_parts, parts_of. rewrite !concat_map, !map_map. f_equal. apply map_ext. intros [n c]. cbn [fst snd]. destruct (part_seq m n); reflexivity.
Qed.
Lemma sorted_map (g : Z * bytes -> bytes) l : StronglySorted slt l -> StronglySorted slt (map (fun p => (fst p, g p)) l).
Proof. induction 1 as [|p l S IH F]; cbn [map]; constructor; auto. apply Forall_map. eapply Forall_impl; [|exact F]. intros q. unfold slt. cbn. auto. Qed.
Lemma sorted_list hs f m : files_ok hs f -> mpf_ok m -> exists l, parts_sorted hs m l /\ map snd (sort_parts (list_parts f m)) = map (name_of m) l.
Proof.
  intros F M. pose proof F as (U & V & A & B). pose proof V as (_ & _ & K & _). destruct (K m) as (SS & RG). rewrite Forall_forall in RG. exists (ul_pieces (U m)).
  assert (MEM : forall s c, In (s, c) (ul_pieces (U m)) <-> is_u16 s /\ part_of hs m s = Some c).
  { intros s c. rewrite <- A. rewrite (piece_in _ _ _ SS). split; [|tauto]. intros E. split; auto. apply (RG (s, c)), piece_in; auto. }
  split; [split; auto|].
  assert (SO : sort_parts (list_parts f m) = map (fun p => (fst p, name_of m p)) (ul_pieces (U m))).
  { apply sorted_unique.
    - apply sort_sorted. rewrite keys. pose proof (dir_holds _ _ _ V M) as (ND & NM & _). apply parts_of_nodup; auto.
    - apply sorted_map; auto.
    - intros [s n]. rewrite in_map_iff. split.
      + intros J. apply (Permutation_in _ (Permutation_sym (sort_perm _))) in J. apply (listed _ _ _ F M) in J. destruct J as (S & -> & N). destruct (part_of hs m s) as [c|] eqn:E; [|congruence]. exists (s, c). split; auto. apply MEM; auto.
      + intros ([s' c] & E & J). injection E as <- <-. apply MEM in J. destruct J as (S & J). apply (Permutation_in _ (sort_perm _)). apply (listed _ _ _ F M). unfold name_of. cbn [fst]. split; auto. split; auto. congruence. }
  rewrite SO, map_map. reflexivity.
Qed.

Lemma quiet_merge os b a i m q mid m' c post : Forall bop_ok os -> brun box_new os = (b, a ++ (i, HStart m q) :: mid ++ (i, HWhole m' c) :: post) ->
  (forall j h, In (j, h) mid -> j <> i -> ~ changes m h) -> (forall m1 q1, ~ In (i, HStart m1 q1) mid) ->
  m' = m /\ exists l, (if q then parts_sorted a m l else l = []) /\ c = over (concat (map snd l)) (full_of a m).
Proof.
  intros O E N1 N2. pose proof (just_all _ _ _ O E a (i, HStart m q) _ eq_refl) as (M & _).
  destruct (brun_split _ _ _ _ _ _ E) as (os1 & o1 & os2 & b1 & b2 & -> & A1 & A2 & A3). set (P := sent (os1 ++ o1 :: os2)) in *. pose proof (sent_packs (os1 ++ o1 :: os2)) as PK. fold P in PK.
  pose proof (sent_ops _ O) as OP. fold P in OP. apply Forall_app in OP. destruct OP as (OP1 & OP2). inversion OP2 as [|? ? OPo OP3]; subst.
  pose proof (brun_ok P PK os1 [] box_new b1 a (new_ok P) OP1 A1) as B1. cbn [app] in B1. destruct (bstep_ok P a b1 o1 b2 _ PK B1 OPo A2) as (B2 & _). pose proof B1 as (F1 & _).
  assert (Y : exists x t, nth_error (bx_threads b1) i = Some t /\ th_at t = TOpen m /\ exists t', nth_error (bx_threads b2) i = Some t' /\
               th_at t' = TCreate m (if q then map snd (sort_parts (list_parts (bx_fs b1) m)) else []) /\ o1 = BMove i x).
  { destruct o1 as [ps|j x|]; cbn [bstep] in A2; [discriminate| |discriminate]. destruct (nth_error (bx_threads b1) j) as [t|] eqn:NJ; [|discriminate].
    destruct (fault_step (bx_fs b1) t x) as [[f' t'] e0] eqn:X. injection A2 as <- A2. destruct e0 as [|h [|]]; try discriminate. injection A2 as -> ->. exists x, t. split; auto.
    cbn [bx_threads]. rewrite (nth_replace _ _ _ _ NJ), Nat.eqb_refl. unfold fault_step, thread_step in X. destruct (th_at t) as [|p|p|p|m1|m1|m1 names|m1 names off|m1] eqn:TA.
    8: destruct names.
    all: destruct x; try (destruct (negb _)); try (destruct (seq_set _)); try (destruct (fold_left _ _ _)); try (destruct (th_todo t)); try discriminate; injection X as <- <- -> <-; split; auto; eexists; cbn; auto. }
  destruct Y as (x & t & NI & TA & t' & NI' & TA' & ->).
  assert (L : exists l, (if q then parts_sorted a m l else l = []) /\ (if q then map snd (sort_parts (list_parts (bx_fs b1) m)) else []) = map (name_of m) l).
  { destruct q; [apply sorted_list; auto|exists []; auto]. }
  destruct L as (l & L1 & L2). rewrite L2 in TA'.
  assert (S : staged i m l (full_of a m) (a ++ [(i, HStart m q)]) b2).
  { exists t'. split; auto. rewrite TA'. cbn. split; auto. split; auto. split; [rewrite full_app; auto|]. unfold calm_parts. rewrite Forall_forall. intros [s v] J. cbn [fst snd]. rewrite part_app. cbn [snd].
    destruct q; [apply L1; auto|subst l; destruct J]. }
  destruct (brun_split _ _ _ _ _ _ A3) as (os3 & o4 & os5 & b4 & b5 & -> & C1 & C2 & C3). apply Forall_app in OP3. destruct OP3 as (OP3 & _).
  assert (Q : quiet i m mid). { intros j h J. split; [intros D; eapply N1; eauto|]. intros -> m1 q1 ->. eapply N2; eauto. }
  pose proof (staged_run i m M l (full_of a m) P PK os3 _ _ _ _ B2 OP3 S C1 Q) as S4. pose proof (brun_ok P PK os3 _ _ _ _ B2 OP3 C1) as (F4 & _).
  destruct (staged_whole i m M l (full_of a m) _ _ _ _ _ _ F4 S4 C2) as (-> & ->). split; auto. exists l. auto.
Qed.
