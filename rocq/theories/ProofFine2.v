(** Registration and closing. *)
From Verif Require Import Base LibBase Env EntTerm EntPlat Registry Message Timer Session Server Fine.
From Verif Require Import SpecSession SpecTimer SpecServer SpecFine ProofFine.

Definition shut_in (evs : list fevent) (id : Z) : bool := existsb (fun ev => match ev with XShut i => i =? id | _ => false end) evs.
Definition hooked_in (evs : list fevent) (id : Z) : bool := existsb (fun ev => match ev with XAddCb i true => i =? id | _ => false end) evs.
Definition removed_in (evs : list fevent) (id : Z) : bool := existsb (fun ev => match ev with XRemove i => i =? id | _ => false end) evs.
Definition closed_in (evs : list fevent) (id : Z) : bool := existsb (fun ev => match ev with XClosed i => i =? id | _ => false end) evs.
Ltac by_exists := unfold accepted, gone, shut_in, hooked_in, removed_in, closed_in; rewrite existsb_exists; split;
  [intros (ev & Iev & E); destruct ev; try discriminate E; try (match goal with b : bool |- _ => destruct b; [|discriminate E] end); apply Z.eqb_eq in E; subst; eassumption
  |intro Iev; eexists; split; [eassumption|cbn; apply Z.eqb_refl]].
Lemma accepted_in evs id : accepted evs id = true <-> In (XConnect id) evs. Proof. by_exists. Qed.
Lemma gone_in evs id : gone evs id = true <-> In (XGone id) evs. Proof. by_exists. Qed.
Lemma shut_in_in evs id : shut_in evs id = true <-> In (XShut id) evs. Proof. by_exists. Qed.
Lemma hooked_in_in evs id : hooked_in evs id = true <-> In (XAddCb id true) evs. Proof. by_exists. Qed.
Lemma removed_in_in evs id : removed_in evs id = true <-> In (XRemove id) evs. Proof. by_exists. Qed.
Lemma closed_in_in evs id : closed_in evs id = true <-> In (XClosed id) evs. Proof. by_exists. Qed.
Lemma not_in_of {P : Prop} {b} : (b = true <-> P) -> b = false -> ~ P.
Proof. intros [_ H] E p. rewrite (H p) in E. discriminate. Qed.

Definition close_flags (p : cpc) : bool * bool * bool :=
  match p with CNot => (false, false, false) | CTimer => (true, false, false) | CHandler => (true, true, false) | COver => (true, true, true) end.
Definition obj_view (evs : list fevent) (x : option fobj) (id : Z) : Prop :=
  match x with
  | Some o => accepted evs id = true /\ fo_closed o = shut_in evs id /\ fo_cb o = hooked_in evs id /\
              (gone evs id, removed_in evs id, closed_in evs id) = close_flags (fo_close o)
  | None => accepted evs id = false /\ shut_in evs id = false /\ hooked_in evs id = false /\ gone evs id = false /\ removed_in evs id = false /\ closed_in evs id = false
  end.
Definition close_rule (a : list fevent) (ev : fevent) : Prop :=
  match ev with
  | XConnect id => accepted a id = false
  | XShut id => accepted a id = true /\ shut_in a id = false
  | XAddCb id ok => ok = negb (shut_in a id) /\ hooked_in a id = false
  | XWire id _ (Some _) => accepted a id = true /\ shut_in a id = false
  | XTimeout id => accepted a id = true
  | XGone id => accepted a id = true /\ shut_in a id = true /\ hooked_in a id = true /\ gone a id = false
  | XRemove id => gone a id = true /\ removed_in a id = false
  | XClosed id => removed_in a id = true /\ closed_in a id = false
  | XLook id f | XGet id f => f = here a id
  | XCast _ _ ids => NoDup ids /\ forall id, In id ids <-> here a id = true
  | _ => True
  end.
Definition before_cb (p : gpc) : bool :=
  match p with GClock ThenAddCb | GDel ThenAddCb | GIns ThenAddCb | GAddCb => true | _ => false end.
Record closing (evs : list fevent) (s : fine) : Prop := {
  cg_obj : forall id, obj_view evs (fobj_get (fi_objs s) id) id;
  cg_early : forall id o, fobj_get (fi_objs s) id = Some o -> before_cb (fo_pc o) = true -> fo_cb o = false;
  cg_nodup : NoDup (fi_reg s);
  cg_reg : forall id, In id (fi_reg s) <-> here evs id = true;
  cg_found : forall id keys, fi_tick s = TFound id keys -> accepted evs id = true;
  cg_rules : always close_rule evs }.

Lemma closing_init auto ka : closing [] (fine_init auto ka).
Proof.
  split; cbn.
  - intro id. unfold obj_view. cbn. auto 10.
  - intros ? ? H. discriminate.
  - constructor.
  - intro id. split; [intros []|discriminate].
  - intros ? ? H. discriminate.
  - apply always_nil.
Qed.

(** The observations after one more event *)
Lemma accepted_snoc evs x id : accepted (evs ++ [x]) id = accepted evs id || match x with XConnect i => i =? id | _ => false end.
Proof. unfold accepted. rewrite existsb_app. cbn. rewrite orb_false_r. reflexivity. Qed.
Lemma gone_snoc evs x id : gone (evs ++ [x]) id = gone evs id || match x with XGone i => i =? id | _ => false end.
Proof. unfold gone. rewrite existsb_app. cbn. rewrite orb_false_r. reflexivity. Qed.
Lemma shut_snoc evs x id : shut_in (evs ++ [x]) id = shut_in evs id || match x with XShut i => i =? id | _ => false end.
Proof. unfold shut_in. rewrite existsb_app. cbn. rewrite orb_false_r. reflexivity. Qed.
Lemma hooked_snoc evs x id : hooked_in (evs ++ [x]) id = hooked_in evs id || match x with XAddCb i true => i =? id | _ => false end.
Proof. unfold hooked_in. rewrite existsb_app. cbn. rewrite orb_false_r. reflexivity. Qed.
Lemma removed_snoc evs x id : removed_in (evs ++ [x]) id = removed_in evs id || match x with XRemove i => i =? id | _ => false end.
Proof. unfold removed_in. rewrite existsb_app. cbn. rewrite orb_false_r. reflexivity. Qed.
Lemma closed_snoc evs x id : closed_in (evs ++ [x]) id = closed_in evs id || match x with XClosed i => i =? id | _ => false end.
Proof. unfold closed_in. rewrite existsb_app. cbn. rewrite orb_false_r. reflexivity. Qed.
Lemma here_snoc evs x id : here (evs ++ [x]) id = (accepted evs id || match x with XConnect i => i =? id | _ => false end) && negb (gone evs id || match x with XGone i => i =? id | _ => false end).
Proof. unfold here. rewrite accepted_snoc, gone_snoc. reflexivity. Qed.
Ltac obs := rewrite ?accepted_snoc, ?gone_snoc, ?shut_snoc, ?hooked_snoc, ?removed_snoc, ?closed_snoc, ?here_snoc; cbn [orb].

(** A change of an object that the observations do not see *)
Definition same_flags (o o' : fobj) : Prop := fo_closed o' = fo_closed o /\ fo_cb o' = fo_cb o /\ fo_close o' = fo_close o.
(** Events that say nothing about closing *)
Definition quiet (x : fevent) : bool :=
  match x with XConnect _ | XShut _ | XAddCb _ _ | XGone _ | XRemove _ | XClosed _ => false | _ => true end.
Lemma quiet_obs x evs id : quiet x = true -> accepted (evs ++ [x]) id = accepted evs id /\ gone (evs ++ [x]) id = gone evs id /\ shut_in (evs ++ [x]) id = shut_in evs id /\
  hooked_in (evs ++ [x]) id = hooked_in evs id /\ removed_in (evs ++ [x]) id = removed_in evs id /\ closed_in (evs ++ [x]) id = closed_in evs id.
Proof. intro Q. obs. destruct x; try discriminate Q; rewrite ?orb_false_r; repeat split. Qed.
Lemma quiet_view x evs y id : quiet x = true -> obj_view evs y id -> obj_view (evs ++ [x]) y id.
Proof. intros Q H. destruct (quiet_obs x evs id Q) as (E1 & E2 & E3 & E4 & E5 & E6). unfold obj_view in *. rewrite E1, E2, E3, E4, E5, E6. exact H. Qed.
Lemma same_view evs o o' id : same_flags o o' -> obj_view evs (Some o) id -> obj_view evs (Some o') id.
Proof. intros (E1 & E2 & E3) H. cbn in *. rewrite E1, E2, E3. exact H. Qed.

(** A quiet event with changes of one object elsewhere *)
Lemma closing_quiet evs s s' x : closing evs s -> quiet x = true -> close_rule evs x ->
  (forall id, match fobj_get (fi_objs s') id, fobj_get (fi_objs s) id with Some o', Some o => same_flags o o' /\ (before_cb (fo_pc o') = true -> before_cb (fo_pc o) = true)
                                                                | None, None => True | _, _ => False end) ->
  fi_reg s' = fi_reg s -> (forall id keys, fi_tick s' = TFound id keys -> accepted evs id = true) -> closing (evs ++ [x]) s'.
Proof.
  intros [C1 C2 C3 C4 C5 C6] Q R O G T. split.
  - intro id. specialize (O id). specialize (C1 id). destruct (fobj_get (fi_objs s') id) as [o'|], (fobj_get (fi_objs s) id) as [o|]; try contradiction.
    + apply quiet_view; [exact Q|]. exact (same_view _ _ _ _ (proj1 O) C1).
    + apply quiet_view; [exact Q|exact C1].
  - intros id o' E B. specialize (O id). rewrite E in O. destruct (fobj_get (fi_objs s) id) as [o|] eqn:Eo; [|contradiction].
    destruct O as ((_ & -> & _) & O). exact (C2 id o Eo (O B)).
  - rewrite G. exact C3.
  - intro id. rewrite G, C4. destruct (quiet_obs x evs id Q) as (E1 & E2 & _). unfold here. rewrite E1, E2. reflexivity.
  - intros id keys E. destruct (quiet_obs x evs id Q) as (-> & _). exact (T id keys E).
  - apply always_snoc; assumption.
Qed.
(** one object changes *)
Lemma one_obj s s' i o o' : fi_objs s' = fobj_set (fi_objs s) i o' -> fobj_get (fi_objs s) i = Some o -> same_flags o o' -> (before_cb (fo_pc o') = true -> before_cb (fo_pc o) = true) ->
  forall id, match fobj_get (fi_objs s') id, fobj_get (fi_objs s) id with Some x', Some x => same_flags x x' /\ (before_cb (fo_pc x') = true -> before_cb (fo_pc x) = true)
                                                              | None, None => True | _, _ => False end.
Proof.
  intros E G F B id. rewrite E, fobj_get_set. destruct (Z.eqb_spec i id) as [<-|N]; [rewrite G; auto|].
  destruct (fobj_get (fi_objs s) id); [split; [repeat split|auto]|exact I].
Qed.
Lemma no_obj s s' : fi_objs s' = fi_objs s -> forall id, match fobj_get (fi_objs s') id, fobj_get (fi_objs s) id with Some x', Some x => same_flags x x' /\ (before_cb (fo_pc x') = true -> before_cb (fo_pc x) = true)
                                                              | None, None => True | _, _ => False end.
Proof. intros -> id. destruct (fobj_get (fi_objs s) id); [split; [repeat split|auto]|exact I]. Qed.
(** the close flag gets set *)
Lemma closing_shut evs s s' id o : closing evs s -> fobj_get (fi_objs s) id = Some o -> fo_closed o = false -> fi_objs s' = fobj_set (fi_objs s) id (fshut o) ->
  fi_reg s' = fi_reg s -> (forall i keys, fi_tick s' = TFound i keys -> accepted evs i = true) -> closing (evs ++ [XShut id]) s'.
Proof.
  intros [C1 C2 C3 C4 C5 C6] G F O R T. pose proof (C1 id) as V. rewrite G in V. cbn in V. destruct V as (V1 & V2 & V3 & V4). split.
  - intro j. rewrite O, fobj_get_set. destruct (Z.eqb_spec id j) as [<-|N].
    + cbn. obs. rewrite Z.eqb_refl, !orb_true_r, ?orb_false_r. auto.
    + specialize (C1 j). unfold obj_view in *. obs. replace (id =? j) with false by lia. rewrite !orb_false_r. exact C1.
  - intros j x E B. rewrite O, fobj_get_set in E. destruct (Z.eqb_spec id j) as [<-|N]; [injection E as <-; exact (C2 id o G B)|exact (C2 j x E B)].
  - rewrite R. exact C3.
  - intro j. rewrite R, C4. unfold here. obs. rewrite !orb_false_r. reflexivity.
  - intros j keys E. obs. rewrite orb_false_r. exact (T j keys E).
  - apply always_snoc; [exact C6|]. cbn. rewrite <- V2. auto.
Qed.

Lemma set_pc_same o p : same_flags o (at_pc o p). Proof. repeat split. Qed.
Lemma set_cfg_same o c p : same_flags o (at_pc (with_cfg o c) p). Proof. repeat split. Qed.
Lemma found_same evs s s' : closing evs s -> fi_tick s' = fi_tick s -> forall i keys, fi_tick s' = TFound i keys -> accepted evs i = true.
Proof. intros C E i keys H. rewrite E in H. exact (cg_found _ _ C i keys H). Qed.
Lemma mem_here evs s id : closing evs s -> mem (fi_reg s) id = here evs id.
Proof.
  intro C. pose proof (cg_reg _ _ C id) as H. pose proof (mem_in (fi_reg s) id) as M.
  destruct (mem (fi_reg s) id), (here evs id); try reflexivity; exfalso; [|].
  - pose proof (proj1 H (proj1 M eq_refl)). discriminate.
  - pose proof (proj2 M (proj2 H eq_refl)). discriminate.
Qed.
Ltac plain C := eapply (closing_quiet _ _ _ _ C); [reflexivity|try exact I|eapply one_obj; [reflexivity|eassumption|repeat split|try (intros; discriminate); try (intros; assumption)]|reflexivity|apply (found_same _ _ _ C); reflexivity].
Lemma closing_step evs s e s' : closing evs s -> does s e s' -> closing (evs ++ e) s'.
Proof.
  intros C D. destruct D as [id Go|id o k now t Go P St|id o k t Go P St|id o k t Go P St|id o Go P|id o m p Go P Rm Om|id o m okk Go P|id o m oc Go P|id o Go P Cl|id o Go P Cl|id o m c Go P St|id o m c Go P St
    |id o m h Go P Eh|id o h m Go P|id o p Go P|id o e p c Go P St|id o cb e c Go St|id o tok t0 cb e icc sent c Go F St|id o tok m ok closes c o1 evs1 Go F L St R
    |id o tok t0 cb e icc n c Go F St|e|b id o e ids n c Gc Ii Go St|b e n Gc|id|id o Go Cl|id o b Go|now t keys T St Ef|id keys T|id keys o T Go Cl|id keys o T Go Cl
    |id o Go Cp Cl Cb|id o t Go Cp St|id o Go Cp|msgid h].
  - pose proof C as [C1 C2 C3 C4 C5 C6]. pose proof (C1 id) as V. rewrite Go in V. destruct V as (V1 & V2 & V3 & V4 & V5 & V6). split.
    + intro j. change (fi_objs _) with (fobj_set (fi_objs s) id (Fobj sinit (GClock ThenAddCb) false false false CNot)). rewrite fobj_get_set. destruct (Z.eqb_spec id j) as [<-|N].
      * cbn. obs. rewrite Z.eqb_refl, V1, V2, V3, V4, V5, V6. repeat split.
      * specialize (C1 j). unfold obj_view in *. obs. replace (id =? j) with false by lia. rewrite !orb_false_r. exact C1.
    + intros j x E B. change (fi_objs _) with (fobj_set (fi_objs s) id (Fobj sinit (GClock ThenAddCb) false false false CNot)) in E. rewrite fobj_get_set in E. destruct (Z.eqb_spec id j) as [<-|N]; [injection E as <-; reflexivity|exact (C2 j x E B)].
    + cbn. constructor; [|exact C3]. rewrite C4. unfold here. rewrite V1. discriminate.
    + intro j. cbn. rewrite C4. unfold here. obs. rewrite orb_false_r. destruct (Z.eqb_spec id j) as [<-|N].
      * rewrite V4, orb_true_r. tauto.
      * rewrite orb_false_r. tauto.
    + intros j keys E. obs. rewrite (C5 j keys E). reflexivity.
    + apply always_snoc; assumption.
  - plain C. rewrite P. destruct k; cbn; auto.
  - plain C. rewrite P. destruct k; cbn; auto.
  - plain C. rewrite P. destruct k; cbn; auto.
  - pose proof C as [C1 C2 C3 C4 C5 C6]. pose proof (C1 id) as V. rewrite Go in V. destruct V as (V1 & V2 & V3 & V4).
    assert (B : fo_cb o = false) by (apply (C2 id o Go); rewrite P; reflexivity). split.
    + intro j. rewrite set_fobj_get. destruct (Z.eqb_spec id j) as [<-|N].
      * cbn. obs. rewrite <- V3, B, V1. destruct (fo_closed o) eqn:Cl; cbn; rewrite ?Z.eqb_refl, ?orb_false_r, <- ?V2, ?Cl; auto.
      * specialize (C1 j). unfold obj_view in *. obs. destruct (negb (fo_closed o)); replace (id =? j) with false by lia; rewrite !orb_false_r; exact C1.
    + intros j x E B'. rewrite set_fobj_get in E. destruct (Z.eqb_spec id j) as [<-|N]; [injection E as <-; discriminate B'|exact (C2 j x E B')].
    + exact C3.
    + intro j. cbn [fi_reg set_fobj]. rewrite C4. unfold here. obs. rewrite !orb_false_r. reflexivity.
    + intros j keys E. obs. rewrite (C5 j keys E). reflexivity.
    + apply always_snoc; [exact C6|]. cbn. rewrite <- V2, <- V3. auto.
  - plain C. cbn. intro B. exfalso. revert B. unfold on_message in Om. repeat (match type of Om with context [match ?x with _ => _ end] => destruct x; try discriminate Om end); injection Om as <-; discriminate.
  - plain C. cbn. destruct okk; discriminate.
  - plain C. cbn. destruct oc; discriminate.
  - plain C.
  - replace (evs ++ [XFail id; XShut id]) with ((evs ++ [XFail id]) ++ [XShut id]) by (rewrite <- app_assoc; reflexivity).
    assert (C' : closing (evs ++ [XFail id]) (set_fobj s id (at_pc o GEnd))) by (plain C).
    eapply closing_shut; [exact C'|rewrite set_fobj_get, Z.eqb_refl; reflexivity|exact Cl|reflexivity|reflexivity|apply (found_same _ _ _ C'); reflexivity].
  - plain C.
  - plain C. cbn. destruct (taken (fo_cfg o) m); discriminate.
  - plain C. cbn. destruct h; discriminate.
  - plain C.
  - plain C. cbn. destruct p; discriminate.
  - plain C.
  - plain C.
  - plain C.
  - assert (K : same_flags o o1 /\ (before_cb (fo_pc o1) = true -> before_cb (fo_pc o) = true) /\ (evs1 = [] \/ evs1 = [XReplied id tok])).
    { unfold returned in R. destruct (fo_pc (with_cfg o c)) eqn:P; try (injection R as <- <-; split; [repeat split|]; split; [intro X; exact X|left; reflexivity]).
      destruct (tok0 =? tok); injection R as <- <-; (split; [repeat split|]); (split; [|auto]); [|intro X; exact X]. cbn. destruct then_merge; discriminate. }
    destruct K as (K1 & K2 & K3).
    assert (Hw : close_rule evs (XWire id tok (if ok then Some m else None))).
    { pose proof (cg_obj _ _ C id) as V. rewrite Go in V. destruct V as (V1 & V2 & _). unfold link_send in L. destruct (fo_closed o) eqn:Cl; [injection L as <- <-; exact I|].
      destruct (fo_full o); injection L as <- <-; [exact I|]. cbn. split; [exact V1|symmetry; exact V2]. }
    set (s1 := set_casts (set_fobj s id o1) (map (cast_returned tok ok) (fi_casts s))).
    assert (C' : closing (evs ++ [XWire id tok (if ok then Some m else None)]) s1).
    { eapply (closing_quiet _ _ _ _ C); [reflexivity|exact Hw|eapply one_obj; [reflexivity|eassumption|exact K1|exact K2]|reflexivity|apply (found_same _ _ _ C); reflexivity]. }
    assert (C'' : closing ((evs ++ [XWire id tok (if ok then Some m else None)]) ++ (if closes then [XShut id] else []))
                    (set_casts (set_fobj s id (if closes then fshut o1 else o1)) (map (cast_returned tok ok) (fi_casts s)))).
    { destruct closes; [|rewrite app_nil_r; exact C'].
      assert (Fo : fo_closed o1 = false). { destruct K1 as (-> & _). unfold link_send in L. destruct (fo_closed o); [discriminate|reflexivity]. }
      assert (Gs : fobj_get (fi_objs s1) id = Some o1) by (unfold s1; cbn [fi_objs set_casts]; rewrite set_fobj_get, Z.eqb_refl; reflexivity).
      assert (S2 : closing ((evs ++ [XWire id tok (if ok then Some m else None)]) ++ [XShut id]) (set_fobj s1 id (fshut o1)))
        by (eapply closing_shut; [exact C'|exact Gs|exact Fo|reflexivity|reflexivity|apply (found_same _ _ _ C'); reflexivity]).
      destruct S2 as [S21 S22 S23 S24 S25 S26]. split; try assumption.
      - intro j. specialize (S21 j). cbn [fi_objs set_casts] in *. unfold s1 in S21. rewrite set_fobj_get in *. cbn [fi_objs set_casts] in S21. rewrite set_fobj_get in S21. destruct (id =? j); exact S21.
      - intros j x E B. apply (S22 j x); [|exact B]. cbn [fi_objs set_casts] in *. unfold s1. rewrite set_fobj_get in *. cbn [fi_objs set_casts]. rewrite set_fobj_get. destruct (id =? j); exact E. }
    replace (evs ++ _) with (((evs ++ [XWire id tok (if ok then Some m else None)]) ++ (if closes then [XShut id] else [])) ++ evs1) by (rewrite <- !app_assoc; reflexivity).
    destruct K3 as [->| ->]; [rewrite app_nil_r; exact C''|].
    eapply (closing_quiet _ _ _ _ C''); [reflexivity|exact I|apply no_obj; reflexivity|reflexivity|apply (found_same _ _ _ C''); reflexivity].
  - plain C.
  - eapply (closing_quiet _ _ _ _ C); [reflexivity| |apply no_obj; reflexivity|reflexivity|apply (found_same _ _ _ C); reflexivity].
    cbn. split; [exact (cg_nodup _ _ C)|exact (cg_reg _ _ C)].
  - plain C.
  - eapply (closing_quiet _ _ _ _ C); [reflexivity|exact I|apply no_obj; reflexivity|reflexivity|apply (found_same _ _ _ C); reflexivity].
  - eapply (closing_quiet _ _ _ _ C); [reflexivity|exact (mem_here _ _ id C)|apply no_obj; reflexivity|reflexivity|apply (found_same _ _ _ C); reflexivity].
  - eapply (closing_shut _ _ _ _ _ C Go Cl); [reflexivity|reflexivity|apply (found_same _ _ _ C); reflexivity].
  - rewrite app_nil_r. pose proof C as [C1 C2 C3 C4 C5 C6]. split; try assumption.
    + intro j. rewrite set_fobj_get. destruct (Z.eqb_spec id j) as [<-|N]; [|exact (C1 j)]. specialize (C1 id). rewrite Go in C1. exact C1.
    + intros j x E B. rewrite set_fobj_get in E. destruct (Z.eqb_spec id j) as [<-|N]; [injection E as <-; exact (C2 id o Go B)|exact (C2 j x E B)].
  - eapply (closing_quiet _ _ _ _ C); [reflexivity|exact I|apply no_obj; reflexivity|reflexivity|]. intros i ks E. discriminate E.
  - eapply (closing_quiet _ _ _ _ C); [reflexivity|exact (mem_here _ _ id C)|apply no_obj; reflexivity|reflexivity|].
    intros i ks E. cbn in E. destruct (mem (fi_reg s) id) eqn:M; [|discriminate]. injection E as <- <-. rewrite (mem_here _ _ _ C) in M. apply andb_true_iff in M. tauto.
  - eapply (closing_quiet _ _ _ _ C); [reflexivity|exact (cg_found _ _ C id keys T)|apply no_obj; reflexivity|reflexivity|]. intros i ks E. discriminate E.
  - replace (evs ++ [XTimeout id; XShut id]) with ((evs ++ [XTimeout id]) ++ [XShut id]) by (rewrite <- app_assoc; reflexivity).
    assert (C' : closing (evs ++ [XTimeout id]) (set_tick s (TKeys keys))).
    { eapply (closing_quiet _ _ _ _ C); [reflexivity|exact (cg_found _ _ C id keys T)|apply no_obj; reflexivity|reflexivity|]. intros i ks E. discriminate E. }
    eapply (closing_shut _ _ _ _ _ C'); [exact Go|exact Cl|reflexivity|reflexivity|]. intros i ks E. discriminate E.
  - pose proof C as [C1 C2 C3 C4 C5 C6]. pose proof (C1 id) as V. rewrite Go in V. destruct V as (V1 & V2 & V3 & V4). rewrite Cp in V4. injection V4 as V4 V5 V6. split.
    + intro j. cbn [fi_objs set_freg]. rewrite set_fobj_get. destruct (Z.eqb_spec id j) as [<-|N].
      * cbn. obs. rewrite V1, V4, V5, V6, Z.eqb_refl, ?orb_false_r, V2, V3. repeat split.
      * specialize (C1 j). unfold obj_view in *. obs. replace (id =? j) with false by lia. rewrite !orb_false_r. exact C1.
    + intros j x E B. cbn [fi_objs set_freg] in E. rewrite set_fobj_get in E. destruct (Z.eqb_spec id j) as [<-|N]; [injection E as <-; exact (C2 id o Go B)|exact (C2 j x E B)].
    + cbn. apply NoDup_filter. exact C3.
    + intro j. cbn [fi_reg set_freg]. rewrite filter_In, C4. unfold here. obs. rewrite orb_false_r. destruct (Z.eqb_spec id j) as [<-|N].
      * rewrite Z.eqb_refl, orb_true_r, andb_false_r. cbn. intuition discriminate.
      * replace (j =? id) with false by lia. rewrite orb_false_r. cbn. tauto.
    + intros j keys E. obs. rewrite (C5 j keys E). reflexivity.
    + apply always_snoc; [exact C6|]. cbn. rewrite <- V2, <- V3. auto.
  - pose proof C as [C1 C2 C3 C4 C5 C6]. pose proof (C1 id) as V. rewrite Go in V. destruct V as (V1 & V2 & V3 & V4). rewrite Cp in V4. injection V4 as V4 V5 V6. split.
    + intro j. cbn [fi_objs set_tc]. rewrite set_fobj_get. destruct (Z.eqb_spec id j) as [<-|N].
      * cbn. obs. rewrite V1, V4, V5, V6, Z.eqb_refl, ?orb_false_r, V2, V3. repeat split.
      * specialize (C1 j). unfold obj_view in *. obs. replace (id =? j) with false by lia. rewrite !orb_false_r. exact C1.
    + intros j x E B. cbn [fi_objs set_tc] in E. rewrite set_fobj_get in E. destruct (Z.eqb_spec id j) as [<-|N]; [injection E as <-; exact (C2 id o Go B)|exact (C2 j x E B)].
    + exact C3.
    + intro j. cbn [fi_reg set_tc set_fobj]. rewrite C4. unfold here. obs. rewrite !orb_false_r. reflexivity.
    + intros j keys E. obs. rewrite (C5 j keys E). reflexivity.
    + apply always_snoc; [exact C6|]. cbn. auto.
  - pose proof C as [C1 C2 C3 C4 C5 C6]. pose proof (C1 id) as V. rewrite Go in V. destruct V as (V1 & V2 & V3 & V4). rewrite Cp in V4. injection V4 as V4 V5 V6. split.
    + intro j. rewrite set_fobj_get. destruct (Z.eqb_spec id j) as [<-|N].
      * cbn. obs. rewrite V1, V4, V5, V6, Z.eqb_refl, ?orb_false_r, V2, V3. repeat split.
      * specialize (C1 j). unfold obj_view in *. obs. replace (id =? j) with false by lia. rewrite !orb_false_r. exact C1.
    + intros j x E B. rewrite set_fobj_get in E. destruct (Z.eqb_spec id j) as [<-|N]; [injection E as <-; exact (C2 id o Go B)|exact (C2 j x E B)].
    + exact C3.
    + intro j. cbn [fi_reg set_fobj]. rewrite C4. unfold here. obs. rewrite !orb_false_r. reflexivity.
    + intros j keys E. obs. rewrite (C5 j keys E). reflexivity.
    + apply always_snoc; [exact C6|]. cbn. auto.
  - eapply (closing_quiet _ _ _ _ C); [reflexivity|exact I|apply no_obj; reflexivity|reflexivity|apply (found_same _ _ _ C); reflexivity].
Qed.
Lemma closing_happens auto ka evs : happens auto ka evs -> always close_rule evs.
Proof. intro H. destruct (happens_keeps closing auto ka evs (closing_init auto ka) closing_step H) as (s & C). exact (cg_rules _ _ C). Qed.
