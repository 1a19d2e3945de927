(** All sessions among the goroutines: the rules of the calls hold always. *)
From Coq Require Import Permutation.
From Verif Require Import Base LibBase Bits Env EntTerm EntPlat Registry Message Timer Session Server Fine.
From Verif Require Import SpecSession SpecTimer SpecServer SpecFine ProofSession ProofSession2 ProofSession3 ProofFine ProofFine4.

Definition pc_busy (p : gpc) : option message := match p with GTake m => Some m | _ => None end.
Definition pc_proper (p : gpc) : Prop := match p with GIcc m | GTake m | GStore m | GMerge m | GReply _ (Some m) | GSend _ (Some m) => proper m | _ => True end.
Definition obj_talks (evs : list fevent) (id : Z) (o : fobj) : Prop :=
  talk evs id (fo_cfg o) /\ sc_busy (fo_cfg o) = pc_busy (fo_pc o) /\ pc_proper (fo_pc o).
Record calling (evs : list fevent) (s : fine) : Prop := {
  ca_obj : forall id, match fobj_get (fi_objs s) id with Some o => obj_talks evs id o | None => forall x, In x evs -> about id x = false end;
  ca_names : NoDup (names evs);
  ca_toks : forall t, In t (names evs) -> t < fi_toks s;
  ca_rules : always call_rule evs }.
Lemma calling_init auto ka : calling [] (fine_init auto ka).
Proof.
  split; cbn.
  - intros id x [].
  - constructor.
  - intros t [].
  - apply always_nil.
Qed.
Lemma quiet_names evs x : (forall id, about id x = false) -> names (evs ++ [x]) = names evs.
Proof.
  intro A. rewrite names_snoc. destruct x; cbn; try (rewrite app_nil_r; reflexivity); specialize (A id); cbn in A; rewrite Z.eqb_refl in A; discriminate.
Qed.
Lemma calling_quiet evs s s' x : calling evs s -> (forall id, about id x = false) -> call_rule evs x -> fi_toks s <= fi_toks s' ->
  (forall id, match fobj_get (fi_objs s') id, fobj_get (fi_objs s) id with
              | Some o', Some o => fo_cfg o' = fo_cfg o /\ pc_busy (fo_pc o') = pc_busy (fo_pc o) /\ (pc_proper (fo_pc o) -> pc_proper (fo_pc o'))
              | Some o', None => fo_cfg o' = sinit /\ pc_busy (fo_pc o') = None /\ pc_proper (fo_pc o')
              | None, None => True | _, _ => False end) -> calling (evs ++ [x]) s'.
Proof.
  intros [C1 C2 C3 C4] A R T O. split.
  - intro id. specialize (O id). specialize (C1 id). destruct (fobj_get (fi_objs s') id) as [o'|], (fobj_get (fi_objs s) id) as [o|]; try contradiction.
    + destruct O as (E1 & E2 & E3), C1 as (V1 & V2 & V3). unfold obj_talks. rewrite E1, E2. split; [apply talk_other; auto|]. auto.
    + destruct O as (E1 & E2 & E3). unfold obj_talks. rewrite E1, E2. split; [|split; [reflexivity|exact E3]]. apply talk_other; [|auto]. apply talk_init. exact C1.
    + intros y I. apply in_app_or in I as [I|[<-|[]]]; auto.
  - rewrite quiet_names; assumption.
  - rewrite quiet_names by assumption. intros t I. specialize (C3 t I). lia.
  - apply always_snoc; assumption.
Qed.
Lemma one_quiet s s' i o o' : fi_objs s' = fobj_set (fi_objs s) i o' -> fobj_get (fi_objs s) i = Some o ->
  fo_cfg o' = fo_cfg o -> pc_busy (fo_pc o') = pc_busy (fo_pc o) -> (pc_proper (fo_pc o) -> pc_proper (fo_pc o')) ->
  forall id, match fobj_get (fi_objs s') id, fobj_get (fi_objs s) id with
              | Some o', Some o => fo_cfg o' = fo_cfg o /\ pc_busy (fo_pc o') = pc_busy (fo_pc o) /\ (pc_proper (fo_pc o) -> pc_proper (fo_pc o'))
              | Some o', None => fo_cfg o' = sinit /\ pc_busy (fo_pc o') = None /\ pc_proper (fo_pc o')
              | None, None => True | _, _ => False end.
Proof.
  intros E G F B K id. rewrite E, fobj_get_set. destruct (Z.eqb_spec i id) as [<-|N]; [rewrite G; auto|].
  destruct (fobj_get (fi_objs s) id); auto.
Qed.
Lemma no_quiet s s' : fi_objs s' = fi_objs s ->
  forall id, match fobj_get (fi_objs s') id, fobj_get (fi_objs s) id with
              | Some o', Some o => fo_cfg o' = fo_cfg o /\ pc_busy (fo_pc o') = pc_busy (fo_pc o) /\ (pc_proper (fo_pc o) -> pc_proper (fo_pc o'))
              | Some o', None => fo_cfg o' = sinit /\ pc_busy (fo_pc o') = None /\ pc_proper (fo_pc o')
              | None, None => True | _, _ => False end.
Proof. intros -> id. destruct (fobj_get (fi_objs s) id); auto. Qed.
(** An event about one session *)
Lemma calling_one evs s s' x id o' : calling evs s -> about id x = true -> fobj_get (fi_objs s) id <> None -> fi_objs s' = fobj_set (fi_objs s) id o' -> obj_talks (evs ++ [x]) id o' ->
  call_rule evs x -> NoDup (names (evs ++ [x])) -> (forall t, In t (names (evs ++ [x])) -> t < fi_toks s') -> calling (evs ++ [x]) s'.
Proof.
  intros [C1 C2 C3 C4] A G O V R N T. split; [|exact N|exact T|apply always_snoc; assumption].
  intro j. rewrite O, fobj_get_set. destruct (Z.eqb_spec id j) as [<-|Ne]; [exact V|].
  assert (Aj : about j x = false) by (destruct x; cbn in *; try reflexivity; apply Z.eqb_eq in A; subst; apply Z.eqb_neq; exact Ne).
  specialize (C1 j). destruct (fobj_get (fi_objs s) j) as [o|].
  - destruct C1 as (V1 & V2 & V3). split; [apply talk_other; assumption|auto].
  - intros y I. apply in_app_or in I as [I|[<-|[]]]; auto.
Qed.
(** A call begins. *)
Lemma calling_begin evs s s' x id o c p cb e : calling evs s -> fobj_get (fi_objs s) id = Some o -> sstep (fo_cfg o) (SStart (fi_toks s) cb e) = Ok c ->
  begun x = [(id, fi_toks s, cb, e)] -> about id x = true -> fi_toks s' = fi_toks s + 1 -> fi_objs s' = fobj_set (fi_objs s) id (at_pc (with_cfg o c) p) ->
  pc_busy p = pc_busy (fo_pc o) -> (pc_proper (fo_pc o) -> pc_proper p) -> calling (evs ++ [x]) s'.
Proof.
  intros C G St B A T O Pb Pp. pose proof (ca_obj _ _ C id) as V. rewrite G in V. destruct V as (V1 & V2 & V3).
  assert (F : ~ In (fi_toks s) (names evs)) by (intro I; apply (ca_toks _ _ C) in I; lia).
  assert (Nm : names (evs ++ [x]) = names evs ++ [fi_toks s]) by (rewrite names_snoc, B; reflexivity).
  eapply calling_one; [exact C|exact A|rewrite G; discriminate|exact O| | | |].
  - split; [eapply talk_start; eassumption|]. cbn. split; [|auto]. rewrite Pb, <- V2. cbn in St. injection St as <-. reflexivity.
  - destruct x; cbn in B; try discriminate; injection B as B1 B2 B3 B4; subst; exact F.
  - rewrite Nm. eapply Permutation_NoDup; [apply Permutation_cons_append|]. constructor; [exact F|exact (ca_names _ _ C)].
  - rewrite Nm, T. intros t I. apply in_app_or in I as [I|[<-|[]]]; [apply (ca_toks _ _ C) in I; lia|lia].
Qed.
(** A call goes on. *)
Lemma calling_on evs s s' x id o o' : calling evs s -> fobj_get (fi_objs s) id = Some o -> begun x = [] -> about id x = true -> fi_toks s' = fi_toks s -> fi_objs s' = fobj_set (fi_objs s) id o' ->
  talk (evs ++ [x]) id (fo_cfg o') -> sc_busy (fo_cfg o') = pc_busy (fo_pc o') -> pc_proper (fo_pc o') -> call_rule evs x -> calling (evs ++ [x]) s'.
Proof.
  intros C G B A T O V1 V2 V3 R. assert (Nm : names (evs ++ [x]) = names evs) by (rewrite names_snoc, B; cbn; apply app_nil_r).
  eapply calling_one; [exact C|exact A|rewrite G; discriminate|exact O|split; [exact V1|split; assumption]|exact R|rewrite Nm; exact (ca_names _ _ C)|rewrite Nm, T; exact (ca_toks _ _ C)].
Qed.
Lemma on_message_proper auto m p : received m -> on_message auto m = Ok p -> pc_busy p = None /\ pc_proper p.
Proof.
  intros (_ & _ & _ & _ & _ & Rb) Om. unfold on_message in Om. destruct (m_body m) as [|k|b] eqn:B; try (injection Om as <-; split; [reflexivity|exact I]).
  assert (P : proper m) by (exists b; tauto).
  destruct (negb auto || negb (is_enable_packet (h_prop (m_hdr m)))); [injection Om as <-; split; [reflexivity|exact P]|].
  destruct b; try (injection Om as <-; split; [reflexivity|exact P]).
  destruct (h_packet (m_hdr m)); [|discriminate]. destruct (a0801_packet _); [|discriminate]. injection Om as <-. split; [reflexivity|exact P].
Qed.
Lemma whole_proper m c : proper m -> proper (whole_message m c).
Proof.
  intros (b & B & E). unfold whole_message. rewrite B. destruct b; try (exists b; auto; fail); try (eexists; split; [exact B|exact E]). eexists. split; [reflexivity|exact E].
Qed.
Ltac plainc C := eapply (calling_quiet _ _ _ _ C); [reflexivity|try exact I|try (cbn; lia)|eapply one_quiet; [reflexivity|eassumption|reflexivity|try reflexivity|try (intros; exact I)]].
Ltac nonec C := eapply (calling_quiet _ _ _ _ C); [reflexivity|try exact I|try (cbn; lia)|apply no_quiet; reflexivity].
Lemma cast_irrelevant evs s l : calling evs s -> calling evs (set_casts s l).
Proof. intros [C1 C2 C3 C4]. split; assumption. Qed.
Lemma same_objs evs s s' : calling evs s -> (forall j, fobj_get (fi_objs s') j = fobj_get (fi_objs s) j) -> fi_toks s' = fi_toks s -> calling evs s'.
Proof.
  intros [C1 C2 C3 C4] E T. split; try assumption.
  - intro j. rewrite E. exact (C1 j).
  - rewrite T. exact C3.
Qed.
Lemma obj_swap evs s id o o' : calling evs s -> fobj_get (fi_objs s) id = Some o -> fo_cfg o' = fo_cfg o -> fo_pc o' = fo_pc o -> calling evs (set_fobj s id o').
Proof.
  intros [C1 C2 C3 C4] G E1 E2. split; try assumption. intro j. rewrite set_fobj_get. destruct (Z.eqb_spec id j) as [<-|N]; [|exact (C1 j)].
  specialize (C1 id). rewrite G in C1. unfold obj_talks in *. rewrite E1, E2. exact C1.
Qed.
Lemma calling_step evs s e s' : calling evs s -> does s e s' -> calling (evs ++ e) s'.
Proof.
  intros C D. destruct D as [id Go|id o k now t Go P St|id o k t Go P St|id o k t Go P St|id o Go P|id o m p Go P Rm Om|id o m okk Go P|id o m oc Go P|id o Go P Cl|id o Go P Cl|id o m c Go P St|id o m c Go P St
    |id o m h Go P Eh|id o h m Go P|id o p Go P|id o e p c Go P St|id o cb e c Go St|id o tok t0 cb e icc sent c Go F St|id o tok m ok closes c o1 evs1 Go F L St R
    |id o tok t0 cb e icc n c Go F St|e|b id o e ids n c Gc Ii Go St|b e n Gc|id|id o Go Cl|id o b Go|now t keys T St Ef|id keys T|id keys o T Go Cl|id keys o T Go Cl
    |id o Go Cp Cl Cb|id o t Go Cp St|id o Go Cp|msgid h];
    try (assert (V : obj_talks evs id o) by (pose proof (ca_obj _ _ C id) as V; rewrite Go in V; exact V); destruct V as (V1 & V2 & V3)).
  - eapply (calling_quiet _ _ _ _ C); [reflexivity|exact I|cbn; lia|]. intro j. cbn [fi_objs set_freg]. rewrite set_fobj_get. destruct (Z.eqb_spec id j) as [<-|N].
    + rewrite Go. repeat split.
    + destruct (fobj_get (fi_objs s) j); auto.
  - plainc C. rewrite P. reflexivity.
  - plainc C. rewrite P. reflexivity.
  - plainc C; cbn; rewrite P; destruct k; cbn; auto.
  - plainc C. rewrite P. reflexivity.
  - destruct (on_message_proper _ _ _ Rm Om) as (O1 & O2). plainc C; cbn; rewrite ?P; auto.
  - rewrite P in V2, V3. plainc C; cbn; rewrite ?P; destruct okk; cbn; auto.
  - rewrite P in V2, V3. plainc C; cbn; rewrite ?P; destruct oc; cbn; auto. intros _. apply whole_proper. exact V3.
  - plainc C. rewrite P. reflexivity.
  - replace (evs ++ [XFail id; XShut id]) with ((evs ++ [XFail id]) ++ [XShut id]) by (rewrite <- app_assoc; reflexivity).
    assert (C' : calling (evs ++ [XFail id]) (set_fobj s id (at_pc o GEnd))) by (plainc C; rewrite P; reflexivity).
    eapply (calling_quiet _ _ _ _ C'); [reflexivity|exact I|cbn; lia|eapply one_quiet; [reflexivity|rewrite set_fobj_get, Z.eqb_refl; reflexivity|reflexivity|reflexivity|auto]].
  - rewrite P in V2, V3. destruct (talk_icc _ _ _ _ _ V1 V2 St) as (T1 & T2). eapply calling_on; [exact C|exact Go|reflexivity|apply Z.eqb_refl|reflexivity|reflexivity|exact T1|exact T2|exact V3|exact V3].
  - rewrite P in V2, V3. destruct (talk_take _ _ _ _ _ V1 V2 V3 St) as (T1 & T2 & T3).
    eapply calling_on; [exact C|exact Go|reflexivity|apply Z.eqb_refl|reflexivity|reflexivity|exact T1| | |exact T3]; cbn; destruct (taken (fo_cfg o) m); cbn; auto.
  - plainc C; cbn; rewrite ?P; destruct h; cbn; auto.
  - plainc C. rewrite P. reflexivity.
  - plainc C; cbn; rewrite ?P; destruct p; cbn; auto.
  - eapply (calling_begin _ _ _ _ _ _ _ _ _ _ C Go St); [reflexivity|apply Z.eqb_refl|reflexivity|reflexivity|rewrite P; reflexivity|]. rewrite P. cbn. destruct p; auto.
  - eapply (calling_begin _ _ _ _ _ _ _ (fo_pc o) _ _ C Go St); [reflexivity|apply Z.eqb_refl|reflexivity|reflexivity|reflexivity|auto].
  - destruct (talk_next _ _ _ _ _ _ _ _ _ _ V1 F St) as (T1 & T2). eapply calling_on; [exact C|exact Go|reflexivity|apply Z.eqb_refl|reflexivity|reflexivity|exact T1| |exact V3|exact T2].
    cbn. rewrite <- V2. unfold sstep in St. rewrite F in St. injection St as <-. reflexivity.
  - destruct (talk_wire _ _ _ _ _ _ _ V1 F St) as (T1 & T2). cbv zeta in T1, T2. set (x := XWire id tok (if ok then Some m else None)) in *.
    assert (Bc : sc_busy c = sc_busy (fo_cfg o)).
    { unfold sstep in St. unfold call_message in F. destruct (find_call (sc_calls (fo_cfg o)) tok) as [[t0 cb e icc [n|] [|]]|]; try discriminate. destruct ok; injection St as <-; reflexivity. }
    assert (K : fo_cfg o1 = c /\ pc_busy (fo_pc o1) = pc_busy (fo_pc o) /\ pc_proper (fo_pc o1) /\ (evs1 = [] \/ evs1 = [XReplied id tok])).
    { unfold returned in R. destruct (fo_pc (with_cfg o c)) eqn:P; cbn in P; rewrite P in *; try (injection R as <- <-; cbn; rewrite ?P; auto; fail).
      destruct (tok0 =? tok); injection R as <- <-; cbn; rewrite ?P; [destruct then_merge|]; cbn in *; auto. }
    destruct K as (K1 & K2 & K3 & K4).
    assert (C' : calling (evs ++ [x]) (set_casts (set_fobj s id (if closes then fshut o1 else o1)) (map (cast_returned tok ok) (fi_casts s)))).
    { eapply calling_on; [exact C|exact Go|reflexivity|apply Z.eqb_refl|reflexivity|reflexivity| | | |exact T2]; destruct closes; cbn; rewrite ?K1, ?K2, ?Bc; auto. }
    change (XWire id tok (if ok then Some m else None)) with x.
    replace (evs ++ _) with (((evs ++ [x]) ++ (if closes then [XShut id] else [])) ++ evs1) by (rewrite <- !app_assoc; reflexivity).
    assert (C'' : calling ((evs ++ [x]) ++ (if closes then [XShut id] else [])) (set_casts (set_fobj s id (if closes then fshut o1 else o1)) (map (cast_returned tok ok) (fi_casts s)))).
    { destruct closes; [|rewrite app_nil_r; exact C']. nonec C'. }
    destruct K4 as [->| ->]; [rewrite app_nil_r; exact C''|]. nonec C''.
  - destruct (talk_add _ _ _ _ _ _ _ _ _ _ V1 F St) as (T1 & T2). eapply calling_on; [exact C|exact Go|reflexivity|apply Z.eqb_refl|reflexivity|reflexivity|exact T1| |exact V3|exact T2].
    cbn. rewrite <- V2. unfold sstep in St. rewrite F in St. injection St as <-. reflexivity.
  - nonec C.
  - apply cast_irrelevant. eapply (calling_begin _ _ _ _ _ _ _ (fo_pc o) _ _ C Go St); [reflexivity|apply Z.eqb_refl|reflexivity|reflexivity|reflexivity|auto].
  - nonec C.
  - nonec C.
  - plainc C. auto.
  - rewrite app_nil_r. eapply obj_swap; [exact C|exact Go|reflexivity|reflexivity].
  - nonec C.
  - nonec C.
  - nonec C.
  - replace (evs ++ [XTimeout id; XShut id]) with ((evs ++ [XTimeout id]) ++ [XShut id]) by (rewrite <- app_assoc; reflexivity).
    assert (C' : calling (evs ++ [XTimeout id]) (set_tick s (TKeys keys))) by (nonec C). plainc C'. auto.
  - plainc C. auto.
  - plainc C. auto.
  - plainc C. auto.
  - nonec C.
Qed.
Lemma calling_happens auto ka evs : happens auto ka evs -> always call_rule evs /\ NoDup (names evs).
Proof. intro H. destruct (happens_keeps calling auto ka evs (calling_init auto ka) calling_step H) as (s & C). split; [exact (ca_rules _ _ C)|exact (ca_names _ _ C)]. Qed.
