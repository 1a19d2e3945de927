(** Uploads under faults and crashes: histories. *)
From Coq Require Import Sorted Permutation.
From Verif Require Import Base LibBase Multipart Overlap LibMulti SpecMulti ProofMulti SpecFaults ProofFaults ProofOverlap ProofOverlap2 Crash SpecCrash ProofCrash.

Lemma fault_one f t x f' t' e : fault_step f t x = (f', t', e) -> (length e <= 1)%nat.
Proof.
  unfold fault_step. destruct (th_at t) as [|p|p|p|m|m|m names|m names off|m].
  8: destruct names.
  all: destruct x; try (destruct (negb _)); try (destruct (seq_set _)); try (destruct (thread_step f t)); intros E; injection E as <- <- <-; cbn; auto.
Qed.
Lemma bstep_one b o b' e : bstep b o = (b', e) -> (length e <= 1)%nat.
Proof.
  destruct o as [ps|i x|]; cbn [bstep]; [intros E; injection E as <- <-; cbn; auto| |intros E; injection E as <- <-; cbn; auto].
  destruct (nth_error _ _); [|intros E; injection E as <- <-; cbn; auto]. destruct (fault_step _ _ _) as [[f' t'] e0] eqn:Q. intros E. injection E as <- <-. rewrite map_length. eapply fault_one; eauto.
Qed.
Lemma brun_app os1 : forall os2 b, brun b (os1 ++ os2) = let '(b1, e1) := brun b os1 in let '(b2, e2) := brun b1 os2 in (b2, e1 ++ e2).
Proof.
  induction os1 as [|o r IH]; intros os2 b; cbn [app brun]; [destruct (brun b os2); auto|]. destruct (bstep b o) as [b1 e1]. rewrite IH. destruct (brun b1 r) as [b2 e2]. destruct (brun b2 os2) as [b3 e3].
  rewrite app_assoc. reflexivity.
Qed.
(** What happened first happened in the first operations. *)
Lemma brun_split os : forall b b' a h c, brun b os = (b', a ++ h :: c) ->
  exists os1 o os2 b1 b2, os = os1 ++ o :: os2 /\ brun b os1 = (b1, a) /\ bstep b1 o = (b2, [h]) /\ brun b2 os2 = (b', c).
Proof.
  induction os as [|o r IH]; intros b b' a h c E; cbn [brun] in E; [injection E as _ E; destruct a; discriminate|].
  destruct (bstep b o) as [b1 e1] eqn:B. destruct (brun b1 r) as [b2 e2] eqn:R. injection E as -> E. pose proof (bstep_one _ _ _ _ B) as L. destruct e1 as [|h1 [|]]; [| |cbn in L; lia]; cbn [app] in E.
  - subst e2. destruct (IH _ _ _ _ _ R) as (os1 & o' & os2 & b1' & b2' & -> & A1 & A2 & A3). exists (o :: os1), o', os2, b1', b2'. cbn [app brun]. rewrite B, A1. auto.
  - destruct a as [|h0 a]; cbn [app] in E; injection E as -> E.
    + subst e2. exists [], o, r, b, b1. cbn. auto.
    + subst e2. destruct (IH _ _ _ _ _ R) as (os1 & o' & os2 & b1' & b2' & -> & A1 & A2 & A3). exists (o :: os1), o', os2, b1', b2'. cbn [app brun]. rewrite B, A1. auto.
Qed.
Definition op_of (P : packet -> Prop) (o : bop) : Prop := match o with BConnect ps => Forall P ps | _ => True end.
Lemma brun_ok P : packs P -> forall os hs b b' e, box_ok P hs b -> Forall (op_of P) os -> brun b os = (b', e) -> box_ok P (hs ++ e) b'.
Proof.
  intros PK. induction os as [|o r IH]; intros hs b b' e B O E; cbn [brun] in E; [injection E as <- <-; rewrite app_nil_r; auto|].
  destruct (bstep b o) as [b1 e1] eqn:Q. destruct (brun b1 r) as [b2 e2] eqn:R. injection E as <- <-. inversion O; subst. rewrite app_assoc. eapply IH; [|eauto|eauto].
  eapply bstep_ok; eauto.
Qed.
Definition all_just (P : packet -> Prop) (hs : list (nat * happening)) : Prop := forall a h c, hs = a ++ h :: c -> just P a (snd h).
Lemma brun_just P os b b' e : packs P -> box_ok P [] b -> Forall (op_of P) os -> brun b os = (b', e) -> all_just P e.
Proof.
  intros PK B O E a h c ->. destruct (brun_split _ _ _ _ _ _ E) as (os1 & o & os2 & b1 & b2 & -> & A1 & A2 & A3). apply Forall_app in O. destruct O as (O1 & O2). inversion O2; subst.
  destruct (bstep_ok P a b1 o b2 [h] PK) as (_ & J & _); auto; [|apply J; left; auto]. eapply (brun_ok P PK os1 [] b); eauto.
Qed.
Lemma new_ok P : box_ok P [] box_new.
Proof.
  split; [|constructor]. exists (fun _ => new_upload). split; [|split; reflexivity]. exact finv_init.
Qed.
(** The packets of a history *)
Definition sent (os : list bop) (p : packet) : Prop := (mpf_ok (pk_up p) /\ is_u16 (pk_seq p)) /\ exists ps, In (BConnect ps) os /\ In p ps.
Lemma sent_packs os : packs (sent os).
Proof. intros p H. apply H. Qed.
Lemma sent_ops os : Forall bop_ok os -> Forall (op_of (sent os)) os.
Proof.
  intros H. rewrite Forall_forall in *. intros o J. pose proof (H o J) as K. destruct o as [ps|i x|]; cbn in *; auto. rewrite Forall_forall in *. intros p I. split; [auto|eauto].
Qed.
Lemma just_all os b hs : Forall bop_ok os -> brun box_new os = (b, hs) -> all_just (sent os) hs.
Proof. intros O E. eapply brun_just; [apply sent_packs|apply new_ok|apply sent_ops; auto|exact E]. Qed.
Lemma ok_all os b hs : Forall bop_ok os -> brun box_new os = (b, hs) -> box_ok (sent os) hs b.
Proof. intros O E. eapply (brun_ok (sent os) (sent_packs os) os [] box_new); [apply new_ok|apply sent_ops; auto|exact E]. Qed.

(** ** C161 *)
Lemma files_hold os b hs m : Forall bop_ok os -> brun box_new os = (b, hs) -> mpf_ok m ->
  (forall i, is_u16 i -> alist_get (dir_of (bx_fs b) m) (part_name m i) = part_of hs m i) /\ get_file (bx_fs b) m (full_name m) = full_of hs m.
Proof.
  intros O E M. destruct (ok_all _ _ _ O E) as (F & _). split; [intros i I; apply get_part; auto|apply get_full; auto].
Qed.
Lemma reasons os b a j h c : Forall bop_ok os -> brun box_new os = (b, a ++ (j, h) :: c) ->
  match h with
  | HOpen m i | HRefuse m i => exists ps p, In (BConnect ps) os /\ In p ps /\ pk_up p = m /\ pk_seq p = i
  | HWrite m i d w => exists ps p, In (BConnect ps) os /\ In p ps /\ pk_up p = m /\ pk_seq p = i /\ if w then d = pk_data p else exists k, d = firstn k (pk_data p)
  | HStart m _ => forall i, 1 <= i <= mp_sum m -> part_of a m i <> None
  | HLay m off d => (off <= length (full_of a m))%nat /\ exists i whole k, part_of a m i = Some whole /\ d = firstn k whole
  | HDrop m => True
  | HWhole m c => c = full_of a m
  end.
Proof.
  intros O E. pose proof (just_all _ _ _ O E a (j, h) c eq_refl) as J. cbn [snd] in J. destruct h; cbn [just] in J.
  - destruct J as (p & (_ & ps & A & B) & C). exists ps, p. tauto.
  - destruct J as (p & (_ & ps & A & B) & C). exists ps, p. tauto.
  - destruct J as (p & (_ & ps & A & B) & C). exists ps, p. tauto.
  - apply J.
  - destruct J as (_ & L & s & w & k & _ & A & B). eauto 8.
  - exact Logic.I.
  - apply J.
Qed.

(** ** Every byte comes from a packet of the upload. *)
Lemma patched_in off d c x : (off <= length c)%nat -> In x (patched off d c) -> In x d \/ In x c.
Proof.
  intros L H. unfold patched in H. rewrite !in_app_iff in H. destruct H as [H|[H|H]]; auto; right; [|exact (nth_in_skipn _ _ _ H)].
  rewrite firstn_app in H. replace (off - length c)%nat with O in H by lia. cbn [firstn] in H. rewrite app_nil_r in H. exact (nth_in_firstn _ _ _ H).
Qed.
Lemma all_just_init P hs h : all_just P (hs ++ [h]) -> all_just P hs /\ just P hs (snd h).
Proof.
  intros H. split; [|apply (H hs h []); reflexivity]. intros a k c E. apply (H a k (c ++ [h])). rewrite E, <- app_assoc. reflexivity.
Qed.
Definition from (P : packet -> Prop) (m : mpf) (x : Z) : Prop := exists p, P p /\ same_upload (pk_up p) m = true /\ In x (pk_data p).
Lemma part_own P hs : all_just P hs -> forall m i c x, part_of hs m i = Some c -> In x c -> exists p, P p /\ same_upload (pk_up p) m = true /\ pk_seq p = i /\ In x (pk_data p).
Proof.
  induction hs as [|h hs IH] using rev_ind; intros J m i c x E I; [discriminate|]. apply all_just_init in J. destruct J as (J & JH). rewrite part_app in E. destruct (snd h) as [m' i'|m' i' d w| | | | |]; eauto.
  - destruct (_ && _); eauto. injection E as <-. destruct I.
  - destruct (same_upload m' m) eqn:Q; cbn [andb] in E; eauto. destruct (Z.eqb_spec i' i) as [->|]; eauto. injection E as <-. unfold over in I. apply in_app_iff in I. destruct I as [I|I].
    + destruct JH as (p & A & B & C & D). exists p. rewrite B. split; auto. split; auto. split; auto. destruct w; [subst d; auto|]. destruct D as (k & ->). exact (nth_in_firstn _ _ _ I).
    + apply nth_in_skipn in I. destruct (part_of hs m i) as [c0|] eqn:R; [eauto|destruct I].
Qed.
Lemma part_same hs m m' i : same_upload m m' = true -> part_of hs m i = part_of hs m' i.
Proof.
  intros E. induction hs as [|h hs IH] using rev_ind; [reflexivity|]. rewrite !part_app, IH. destruct (snd h) as [a i'|a i' d w| | | | |]; auto; rewrite (same_sym a m), (same_sym a m'), (same_tr _ _ a E); reflexivity.
Qed.
Lemma full_same hs m m' : same_upload m m' = true -> full_of hs m = full_of hs m'.
Proof.
  intros E. induction hs as [|h hs IH] using rev_ind; [reflexivity|]. rewrite !full_app, IH. destruct (snd h) as [a i'|a i' d w| | |a off d| |]; auto; rewrite (same_sym a m), (same_sym a m'), (same_tr _ _ a E); reflexivity.
Qed.
Lemma full_own P hs : all_just P hs -> forall m x, In x (full_of hs m) -> from P m x.
Proof.
  induction hs as [|h hs IH] using rev_ind; intros J m x I; [destruct I|]. apply all_just_init in J. destruct J as (J & JH). rewrite full_app in I. destruct (snd h) as [m' i'|m' i' d w| | |m' off d| |]; eauto.
  destruct (same_upload m' m) eqn:Q; eauto. destruct JH as (M & L & s & c & k & S & E & ->). rewrite (full_same _ _ _ Q) in L. apply patched_in in I; auto. destruct I as [I|I]; eauto.
  apply nth_in_firstn in I. rewrite (part_same _ _ _ _ Q) in E. destruct (part_own P hs J m s c x E I) as (p & A & B & _ & D). exists p. auto.
Qed.
Lemma message_own os b hs j m c : Forall bop_ok os -> brun box_new os = (b, hs) -> In (j, HWhole m c) hs ->
  forall x, In x c -> exists ps p, In (BConnect ps) os /\ In p ps /\ same_upload (pk_up p) m = true /\ In x (pk_data p).
Proof.
  intros O E I x X. apply in_split in I. destruct I as (a & r & ->). pose proof (reasons _ _ _ _ _ _ O E) as R. cbn in R. subst c.
  assert (J : all_just (sent os) a).
  { pose proof (just_all _ _ _ O E) as J. intros a1 h c1 ->. apply (J a1 h (c1 ++ (j, HWhole m (full_of (a1 ++ h :: c1) m)) :: r)). rewrite <- app_assoc. reflexivity. }
  destruct (full_own _ _ J _ _ X) as (p & (_ & ps & A & B) & C & D). eauto 8.
Qed.

(** ** C162 *)
Lemma calm_part h2 : forall h1 m i, (forall h, In h h2 -> ~ writes m i (snd h)) -> part_of (h1 ++ h2) m i = part_of h1 m i.
Proof.
  induction h2 as [|h t IH]; intros h1 m i N; [rewrite app_nil_r; auto|]. replace (h1 ++ h :: t) with ((h1 ++ [h]) ++ t) by (rewrite <- app_assoc; reflexivity).
  rewrite IH by (intros; apply N; right; auto). rewrite part_app. specialize (N h (or_introl eq_refl)).
  destruct (snd h) as [m' i'|m' i' d w| | | | |]; auto; cbn in N;
    destruct (same_upload m' m) eqn:Q; cbn [andb]; auto; destruct (Z.eqb_spec i' i); auto; exfalso; apply N; auto.
Qed.
Lemma settled_holds hs m i d : settled_part hs m i d -> part_of hs m i = Some d.
Proof.
  intros (a & j & m1 & b & m2 & c & -> & A & B & N). replace (a ++ (j, HOpen m1 i) :: b ++ (j, HWrite m2 i d true) :: c) with (((((a ++ [(j, HOpen m1 i)]) ++ b) ++ [(j, HWrite m2 i d true)]) ++ c))
    by (repeat (rewrite <- app_assoc; cbn [app]); reflexivity).
  rewrite calm_part by (intros; apply N, in_or_app; auto). rewrite part_app. cbn [snd]. rewrite B, Z.eqb_refl. cbn [andb]. rewrite calm_part by (intros; apply N, in_or_app; auto).
  rewrite part_app. cbn [snd]. rewrite A, Z.eqb_refl. cbn [andb dfl]. unfold over. rewrite skipn_nil, app_nil_r. reflexivity.
Qed.
Lemma durable os b hs m i d : Forall bop_ok os -> brun box_new os = (b, hs) -> mpf_ok m -> is_u16 i -> settled_part hs m i d -> alist_get (dir_of (bx_fs b) m) (part_name m i) = Some d.
Proof.
  intros O E M I S. rewrite (proj1 (files_hold _ _ _ _ O E M) i I). apply settled_holds; auto.
Qed.
