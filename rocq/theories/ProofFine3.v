(** The read timer among the goroutines of a server. *)
From Coq Require Import Permutation.
From Verif Require Import Base LibBase Env EntTerm EntPlat Registry Message Timer Session Server Fine.
From Verif Require Import SpecSession SpecTimer SpecServer SpecFine ProofTimer2 ProofTimer3 ProofFine ProofFine2.

Definition due_state (ka : Z) (evs : list fevent) : (Z -> Z) * dls := fold_left (due_event ka) evs (fun _ => 0, none_due).
Definition clock_of (evs : list fevent) : Z -> Z := fst (due_state 0 evs).
Lemma due_snoc ka evs x : due_state ka (evs ++ [x]) = due_event ka (due_state ka evs) x.
Proof. unfold due_state. rewrite fold_left_app. reflexivity. Qed.
Lemma clocks_same ka evs : fst (due_state ka evs) = clock_of evs.
Proof.
  unfold clock_of. induction evs as [|x evs IH] using rev_ind; [reflexivity|]. rewrite !due_snoc. destruct x; cbn; try exact IH. rewrite IH. reflexivity.
Qed.
Definition timed (x : fevent) : bool := match x with XClock _ _ | XDel _ | XIns _ | XRemove _ | XTick _ _ => true | _ => false end.
Lemma due_untimed ka evs x : timed x = false -> due_state ka (evs ++ [x]) = due_state ka evs.
Proof. intro T. rewrite due_snoc. destruct x; try discriminate T; destruct (due_state ka evs); reflexivity. Qed.

Definition want (p : gpc) (id x : Z) : option ucall :=
  match p with GDel _ => Some (Ucall id id x false) | GIns _ => Some (Ucall id id x true) | _ => None end.
Definition want_at (ka : Z) (evs : list fevent) (s : fine) (id : Z) : option ucall :=
  match fobj_get (fi_objs s) id with Some o => want (fo_pc o) id (wrapped (clock_of evs id) ka) | None => None end.
(** What has happened of the Update a goroutine is in *)
Definition under_way (evs : list fevent) (s : fine) (id : Z) : Prop :=
  match fobj_get (fi_objs s) id with
  | Some o =>
      match fo_pc o with
      | GDel _ => exists a1 a2, evs = a1 ++ XClock id (clock_of evs id) :: a2 /\ (forall v, ~ In (XClock id v) a2) /\ ~ In (XIns id) a2
      | GIns _ => exists a1 a2 a3, evs = a1 ++ XClock id (clock_of evs id) :: a2 ++ XDel id :: a3 /\ (forall v, ~ In (XClock id v) (a2 ++ a3)) /\ ~ In (XIns id) (a2 ++ a3)
      | _ => True
      end
  | None => True
  end.
Definition time_rule (ka : Z) (a : list fevent) (ev : fevent) : Prop :=
  match ev with
  | XTick now keys => fires (due ka a) now keys
  | XIns id => refreshes id (clock_of a id) (a ++ [XIns id])
  | _ => True
  end.
Record timing (ka : Z) (evs : list fevent) (s : fine) : Prop := {
  ti_run : exists run, crel (fi_tc s) (Cspec ka run (due ka evs)) /\ NoDup (map uc_tok run) /\ (forall id, find_ucall run id = want_at ka evs s id);
  ti_way : forall id, under_way evs s id;
  ti_rules : always (time_rule ka) evs }.

(** ** Running Updates *)
Lemma find_in l u : NoDup (map uc_tok l) -> In u l -> find_ucall l (uc_tok u) = Some u.
Proof.
  induction l as [|x l IH]; intros N I; [contradiction|]. cbn. inversion N as [|? ? N1 N2]; subst. destruct I as [->|I]; [rewrite Z.eqb_refl; reflexivity|].
  destruct (Z.eqb_spec (uc_tok x) (uc_tok u)) as [E|E]; [|auto]. exfalso. apply N1. rewrite E. apply in_map. exact I.
Qed.
Lemma find_none l t : find_ucall l t = None -> Forall (fun u => uc_tok u <> t) l.
Proof. induction l as [|x l IH]; cbn; [constructor|]. destruct (Z.eqb_spec (uc_tok x) t); [discriminate|]. constructor; auto. Qed.
Lemma find_del l t j : NoDup (map uc_tok l) -> find_ucall (del_ucall l t) j = if t =? j then None else find_ucall l j.
Proof.
  induction l as [|x l IH]; intro N; [cbn; destruct (t =? j); reflexivity|]. inversion N as [|? ? N1 N2]; subst. cbn.
  destruct (Z.eqb_spec (uc_tok x) t) as [E|E].
  - subst t. destruct (Z.eqb_spec (uc_tok x) j) as [E|E]; [subst j|reflexivity]. destruct (find_ucall l (uc_tok x)) eqn:F; [|reflexivity].
    destruct (find_u_in _ _ _ F) as (I & T). exfalso. apply N1. rewrite <- T. apply in_map. exact I.
  - cbn. destruct (Z.eqb_spec (uc_tok x) j) as [E'|E']; [|apply IH; exact N2]. destruct (Z.eqb_spec t j); [congruence|reflexivity].
Qed.
Lemma del_toks l t : NoDup (map uc_tok l) -> NoDup (map uc_tok (del_ucall l t)) /\ ~ In t (map uc_tok (del_ucall l t)).
Proof.
  intro N. assert (Q : ~ In t (map uc_tok (del_ucall l t))).
  { intro I. apply in_map_iff in I as (u & E & I). assert (M : In u l /\ NoDup (map uc_tok (del_ucall l t))).
    { clear E. revert N I. induction l as [|x l IH]; cbn; [tauto|]. intros N. inversion N as [|? ? N1 N2]; subst. destruct (uc_tok x =? t); [auto|].
      cbn. intros [->|I]; [|destruct (IH N2 I); split; [auto|]]; [split; [auto|]|]; (constructor; [|]).
      - intro X. apply N1. clear -X. induction l as [|y l IH]; cbn in *; [exact X|]. destruct (uc_tok y =? t); cbn in X; tauto.
      - clear -N2. induction l as [|y l IH]; cbn in *; [exact N2|]. inversion N2 as [|? ? M1 M2]; subst. destruct (uc_tok y =? t); [exact M2|]. cbn. constructor; [|auto].
        intro X. apply M1. clear -X. induction l as [|z l IH]; cbn in *; [exact X|]. destruct (uc_tok z =? t); cbn in X; tauto.
      - intro X. apply N1. clear -X. induction l as [|y l IH]; cbn in *; [exact X|]. destruct (uc_tok y =? t); cbn in X; tauto.
      - assumption. }
    destruct M as (M1 & M2). pose proof (find_del l t t N) as F. rewrite Z.eqb_refl in F. rewrite <- E in F at 2. rewrite (find_in _ u M2 I) in F. discriminate. }
  split; [|exact Q]. clear Q. induction l as [|x l IH]; cbn; [constructor|]. inversion N as [|? ? N1 N2]; subst. destruct (uc_tok x =? t); [exact N2|]. cbn. constructor; [|auto].
  intro X. apply N1. clear -X. induction l as [|y l IH]; cbn in *; [exact X|]. destruct (uc_tok y =? t); cbn in X; tauto.
Qed.
Lemma want_key ka evs s run u : NoDup (map uc_tok run) -> (forall id, find_ucall run id = want_at ka evs s id) -> In u run -> uc_key u = uc_tok u.
Proof.
  intros N F I. pose proof (find_in _ _ N I) as E. rewrite F in E. unfold want_at in E. destruct (fobj_get (fi_objs s) (uc_tok u)) as [o|]; [|discriminate].
  unfold want in E. destruct (fo_pc o); try discriminate; injection E as E; rewrite <- E; reflexivity.
Qed.

(** ** Steps outside the timer *)
Lemma under_way_more evs s s' x id : (forall v, x <> XClock id v) -> x <> XIns id -> clock_of (evs ++ [x]) id = clock_of evs id ->
  match fobj_get (fi_objs s') id with
  | Some o' => match fo_pc o' with
               | GDel _ => exists o k, fobj_get (fi_objs s) id = Some o /\ fo_pc o = GDel k
               | GIns _ => exists o k, fobj_get (fi_objs s) id = Some o /\ fo_pc o = GIns k
               | _ => True
               end
  | None => True
  end -> under_way evs s id -> under_way (evs ++ [x]) s' id.
Proof.
  intros X1 X2 C H W. unfold under_way in *. destruct (fobj_get (fi_objs s') id) as [o'|]; [|exact I]. rewrite C. destruct (fo_pc o'); try exact I.
  - destruct H as (o & k' & E & P). rewrite E, P in W. destruct W as (a1 & a2 & W1 & W2 & W3). exists a1, (a2 ++ [x]). split; [rewrite W1 at 1; rewrite <- app_assoc; reflexivity|].
    split; [intros v I|intro I]; apply in_app_or in I as [I|[I|[]]]; [exact (W2 v I)|exact (X1 v I)|exact (W3 I)|exact (X2 I)].
  - destruct H as (o & k' & E & P). rewrite E, P in W. destruct W as (a1 & a2 & a3 & W1 & W2 & W3). exists a1, a2, (a3 ++ [x]). split; [rewrite W1 at 1; rewrite <- !app_assoc; cbn; rewrite <- !app_assoc; reflexivity|].
    rewrite app_assoc. split; [intros v I|intro I]; apply in_app_or in I as [I|[I|[]]]; [exact (W2 v I)|exact (X1 v I)|exact (W3 I)|exact (X2 I)].
Qed.
Definition updating (p : gpc) : option bool := match p with GDel _ => Some false | GIns _ => Some true | _ => None end.
Definition same_updates (s s' : fine) : Prop := forall id,
  match fobj_get (fi_objs s') id with Some o' => updating (fo_pc o') | None => None end = match fobj_get (fi_objs s) id with Some o => updating (fo_pc o) | None => None end.
Lemma same_want ka evs x s s' : same_updates s s' -> clock_of (evs ++ [x]) = clock_of evs -> forall id, want_at ka (evs ++ [x]) s' id = want_at ka evs s id.
Proof.
  intros U C id. specialize (U id). unfold want_at. rewrite C. destruct (fobj_get (fi_objs s') id) as [o'|], (fobj_get (fi_objs s) id) as [o|]; try reflexivity.
  - unfold want. destruct (fo_pc o'), (fo_pc o); try reflexivity; discriminate U.
  - unfold want. destruct (fo_pc o'); try reflexivity; discriminate U.
  - unfold want. destruct (fo_pc o); try reflexivity; discriminate U.
Qed.
Lemma same_way evs x s s' id : same_updates s s' -> (forall v, x <> XClock id v) -> x <> XIns id -> clock_of (evs ++ [x]) id = clock_of evs id -> under_way evs s id -> under_way (evs ++ [x]) s' id.
Proof.
  intros U X1 X2 C W. apply (under_way_more evs s s' x id X1 X2 C); [|exact W]. specialize (U id). destruct (fobj_get (fi_objs s') id) as [o'|]; [|exact I].
  destruct (fo_pc o'); try exact I; destruct (fobj_get (fi_objs s) id) as [o|]; try discriminate U; destruct (fo_pc o) eqn:P; try discriminate U; eauto.
Qed.
Lemma timing_quiet ka evs s s' x : timing ka evs s -> timed x = false -> fi_tc s' = fi_tc s -> same_updates s s' -> timing ka (evs ++ [x]) s'.
Proof.
  intros [(run & T1 & T2 & T3) W R] Q E U.
  assert (C : clock_of (evs ++ [x]) = clock_of evs) by (unfold clock_of; rewrite (due_untimed 0 evs x Q); reflexivity).
  split.
  - exists run. unfold due. fold (due_state ka (evs ++ [x])). rewrite (due_untimed ka evs x Q), E. split; [exact T1|]. split; [exact T2|].
    intro id. rewrite T3. symmetry. apply same_want; assumption.
  - intro id. apply (same_way evs x s s' id U); [intros v Ex; subst; discriminate|intro Ex; subst; discriminate|rewrite C; reflexivity|exact (W id)].
  - apply always_snoc; [exact R|]. destruct x; try exact I; discriminate Q.
Qed.
Lemma timing_silent ka evs s s' : timing ka evs s -> fi_tc s' = fi_tc s -> same_updates s s' -> timing ka evs s'.
Proof.
  intros [(run & T1 & T2 & T3) W R] E U. split; [|intro id|exact R].
  - exists run. rewrite E. split; [exact T1|]. split; [exact T2|]. intro id. rewrite T3. specialize (U id). unfold want_at.
    destruct (fobj_get (fi_objs s') id) as [o'|], (fobj_get (fi_objs s) id) as [o|]; try reflexivity; unfold want.
    + destruct (fo_pc o'), (fo_pc o); try reflexivity; discriminate U.
    + destruct (fo_pc o'); try reflexivity; discriminate U.
    + destruct (fo_pc o); try reflexivity; discriminate U.
  - specialize (W id). specialize (U id). unfold under_way in *. destruct (fobj_get (fi_objs s') id) as [o'|], (fobj_get (fi_objs s) id) as [o|]; auto.
    + destruct (fo_pc o'), (fo_pc o); auto; discriminate U.
    + destruct (fo_pc o'); auto; discriminate U.
Qed.
Lemma one_update s s' i o o' : fi_objs s' = fobj_set (fi_objs s) i o' -> fobj_get (fi_objs s) i = Some o -> updating (fo_pc o') = updating (fo_pc o) -> same_updates s s'.
Proof. intros E G U id. rewrite E, fobj_get_set. destruct (Z.eqb_spec i id) as [<-|N]; [rewrite G; exact U|reflexivity]. Qed.
Lemma no_update s s' : fi_objs s' = fi_objs s -> same_updates s s'. Proof. intros E id. rewrite E. reflexivity. Qed.
Lemma same_updates_trans a b c : same_updates a b -> same_updates b c -> same_updates a c.
Proof. intros H1 H2 id. rewrite H2. apply H1. Qed.

Lemma timing_init auto ka : timing ka [] (fine_init auto ka).
Proof.
  split; cbn.
  - exists []. split; [|split; [constructor|reflexivity]]. constructor; cbn; auto using tight_new, view_new; constructor.
  - intro id. exact I.
  - apply always_nil.
Qed.

Lemma want_some ka evs s id o : fobj_get (fi_objs s) id = Some o -> want_at ka evs s id = want (fo_pc o) id (wrapped (clock_of evs id) ka).
Proof. intro E. unfold want_at. rewrite E. reflexivity. Qed.
Lemma updating_on_message auto m p : on_message auto m = Ok p -> updating p = None.
Proof. unfold on_message. intro Om. repeat (match type of Om with context [match ?x with _ => _ end] => destruct x; try discriminate Om end); injection Om as <-; reflexivity. Qed.
Ltac calm T := eapply (timing_quiet _ _ _ _ _ T); [reflexivity|reflexivity|eapply one_update; [reflexivity|eassumption|try reflexivity]].
Lemma crel_ok c s o c' : crel c s -> match o with TStart tok k _ => Forall (fun u => uc_key u <> k /\ uc_tok u <> tok) (cs_run s) | _ => True end -> tstep c o = Ok c' ->
  crel c' (cspec_step s o) /\ match o with TTick now => exists ks, tc_fired c' = (now, ks) :: tc_fired c /\ fires (cs_dl s) now ks | _ => True end.
Proof. intros R A E. destruct (crel_step c s o R A) as (c1 & E1 & R1 & L). rewrite E in E1. injection E1 as <-. split; [exact R1|]. destruct o; auto. Qed.

Lemma timing_step ka evs s e s' : timing ka evs s -> does s e s' -> timing ka (evs ++ e) s'.
Proof.
  intros T D. destruct D as [id Go|id o k now t Go P St|id o k t Go P St|id o k t Go P St|id o Go P|id o m p Go P Rm Om|id o m okk Go P|id o m oc Go P|id o Go P Cl|id o Go P Cl|id o m c Go P St|id o m c Go P St
    |id o m h Go P Eh|id o h m Go P|id o p Go P|id o e p c Go P St|id o cb e c Go St|id o tok t0 cb e icc sent c Go F St|id o tok m ok closes c o1 evs1 Go F L St R
    |id o tok t0 cb e icc n c Go F St|e|b id o e ids n c Gc Ii Go St|b e n Gc|id|id o Go Cl|id o b Go|now t keys Tk St Ef|id keys Tk|id keys o Tk Go Cl|id keys o Tk Go Cl
    |id o Go Cp Cl Cb|id o t Go Cp St|id o Go Cp|msgid h].
  - eapply (timing_quiet _ _ _ _ _ T); [reflexivity|reflexivity|]. intro j. cbn [fi_objs set_freg]. rewrite set_fobj_get. destruct (Z.eqb_spec id j) as [<-|N]; [rewrite Go|]; reflexivity.
  - destruct T as [(run & T1 & T2 & T3) W Ru]. pose proof (T3 id) as Fi. rewrite (want_some _ _ _ _ _ Go), P in Fi. cbn in Fi.
    assert (A : Forall (fun u => uc_key u <> id /\ uc_tok u <> id) run).
    { apply find_none in Fi. rewrite Forall_forall in *. intros u Iu. rewrite (want_key _ _ _ _ _ T2 T3 Iu). split; apply Fi; exact Iu. }
    destruct (crel_ok _ _ (TStart id id now) _ T1 A St) as (T1' & _). cbn in T1'.
    assert (Cid : forall j, clock_of (evs ++ [XClock id now]) j = if j =? id then now else clock_of evs j) by (intro j; unfold clock_of; rewrite due_snoc; reflexivity).
    split.
    + exists (Ucall id id (wrapped now ka) false :: run). split; [unfold due; fold (due_state ka (evs ++ [XClock id now])); rewrite due_snoc; cbn; exact T1'|]. split.
      * cbn. constructor; [|exact T2]. intro Iu. apply in_map_iff in Iu as (u & Eu & Iu). rewrite Forall_forall in A. destruct (A u Iu) as (_ & A2). exact (A2 Eu).
      * intro j. cbn. unfold want_at. cbn [fi_objs set_tc]. rewrite set_fobj_get, Cid. destruct (Z.eqb_spec id j) as [<-|N]; [rewrite Z.eqb_refl; reflexivity|]. rewrite T3. unfold want_at.
        replace (j =? id) with false by lia. reflexivity.
    + intro j. destruct (Z.eqb_spec id j) as [<-|N].
      * unfold under_way. cbn [fi_objs set_tc]. rewrite set_fobj_get, Z.eqb_refl. cbn. rewrite Cid, Z.eqb_refl. exists evs, []. split; [reflexivity|]. split; [intros v []|intros []].
      * apply (under_way_more evs s _ _ j); [intros v E; injection E; congruence|discriminate|rewrite Cid; replace (j =? id) with false by lia; reflexivity| |exact (W j)].
        cbn [fi_objs set_tc]. rewrite set_fobj_get. replace (id =? j) with false by lia. destruct (fobj_get (fi_objs s) j) as [o'|]; [|exact I]. destruct (fo_pc o') eqn:P'; eauto.
    + apply always_snoc; [exact Ru|exact I].
  - destruct T as [(run & T1 & T2 & T3) W Ru]. pose proof (T3 id) as Fi. rewrite (want_some _ _ _ _ _ Go), P in Fi. cbn in Fi.
    destruct (crel_ok _ _ (TDel id) _ T1 I St) as (T1' & _). cbn in T1'. unfold running in T1'. cbn in T1'. rewrite Fi in T1'. cbn in T1'.
    assert (C : clock_of (evs ++ [XDel id]) = clock_of evs) by (unfold clock_of; rewrite due_snoc; reflexivity).
    split.
    + eexists. split; [unfold due; fold (due_state ka (evs ++ [XDel id])); rewrite due_snoc; cbn; exact T1'|]. split.
      * cbn. destruct (del_toks run id T2) as (N1 & N2). constructor; assumption.
      * intro j. cbn. unfold want_at. cbn [fi_objs set_tc]. rewrite set_fobj_get, C. destruct (Z.eqb_spec id j) as [<-|N]; [reflexivity|]. rewrite find_del by exact T2.
        replace (id =? j) with false by lia. rewrite T3. reflexivity.
    + intro j. destruct (Z.eqb_spec id j) as [<-|N].
      * specialize (W id). unfold under_way in *. rewrite Go, P in W. cbn [fi_objs set_tc]. rewrite set_fobj_get, Z.eqb_refl. cbn. rewrite C.
        destruct W as (a1 & a2 & W1 & W2 & W3). exists a1, a2, []. rewrite app_nil_r. split; [rewrite W1 at 1; rewrite <- app_assoc; reflexivity|auto].
      * apply (under_way_more evs s _ _ j); [intros v E; discriminate|discriminate|rewrite C; reflexivity| |exact (W j)].
        cbn [fi_objs set_tc]. rewrite set_fobj_get. replace (id =? j) with false by lia. destruct (fobj_get (fi_objs s) j) as [o'|]; [|exact I]. destruct (fo_pc o') eqn:P'; eauto.
    + apply always_snoc; [exact Ru|exact I].
  - destruct T as [(run & T1 & T2 & T3) W Ru]. pose proof (T3 id) as Fi. rewrite (want_some _ _ _ _ _ Go), P in Fi. cbn in Fi.
    destruct (crel_ok _ _ (TIns id) _ T1 I St) as (T1' & _). cbn in T1'. unfold running in T1'. cbn in T1'. rewrite Fi in T1'. cbn in T1'.
    assert (C : clock_of (evs ++ [XIns id]) = clock_of evs) by (unfold clock_of; rewrite due_snoc; reflexivity).
    split.
    + eexists. split; [unfold due; fold (due_state ka (evs ++ [XIns id])); rewrite due_snoc; cbn; rewrite clocks_same; exact T1'|]. split.
      * destruct (del_toks run id T2) as (N1 & N2). exact N1.
      * intro j. cbn. rewrite find_del by exact T2. unfold want_at. cbn [fi_objs set_tc]. rewrite set_fobj_get, C. destruct (Z.eqb_spec id j) as [<-|N]; [destruct k; reflexivity|]. rewrite T3. reflexivity.
    + intro j. destruct (Z.eqb_spec id j) as [<-|N].
      * unfold under_way. cbn [fi_objs set_tc]. rewrite set_fobj_get, Z.eqb_refl. destruct k; exact I.
      * apply (under_way_more evs s _ _ j); [intros v E; discriminate|intro E; injection E; congruence|rewrite C; reflexivity| |exact (W j)].
        cbn [fi_objs set_tc]. rewrite set_fobj_get. replace (id =? j) with false by lia. destruct (fobj_get (fi_objs s) j) as [o'|]; [|exact I]. destruct (fo_pc o') eqn:P'; eauto.
    + apply always_snoc; [exact Ru|]. cbn. specialize (W id). unfold under_way in W. rewrite Go, P in W. destruct W as (a1 & a2 & a3 & W1 & W2 & W3).
      exists a1, a2, a3. split; [rewrite W1 at 1; rewrite <- !app_assoc; cbn; rewrite <- !app_assoc; reflexivity|auto].
  - calm T. rewrite P. reflexivity.
  - calm T. rewrite P. cbn. rewrite (updating_on_message _ _ _ Om). reflexivity.
  - calm T. rewrite P. destruct okk; reflexivity.
  - calm T. rewrite P. destruct oc; reflexivity.
  - calm T. rewrite P. reflexivity.
  - replace (evs ++ [XFail id; XShut id]) with ((evs ++ [XFail id]) ++ [XShut id]) by (rewrite <- app_assoc; reflexivity).
    assert (T' : timing ka (evs ++ [XFail id]) (set_fobj s id (at_pc o GEnd))) by (calm T; rewrite P; reflexivity).
    eapply (timing_quiet _ _ _ _ _ T'); [reflexivity|reflexivity|]. eapply one_update; [reflexivity|rewrite set_fobj_get, Z.eqb_refl; reflexivity|reflexivity].
  - calm T. rewrite P. reflexivity.
  - calm T. rewrite P. cbn. destruct (taken (fo_cfg o) m); reflexivity.
  - calm T. rewrite P. cbn. destruct h; reflexivity.
  - calm T. rewrite P. reflexivity.
  - calm T. rewrite P. cbn. destruct p; reflexivity.
  - calm T. rewrite P. reflexivity.
  - calm T.
  - calm T.
  - assert (U : updating (fo_pc (if closes then fshut o1 else o1)) = updating (fo_pc o)).
    { assert (U1 : updating (fo_pc o1) = updating (fo_pc o)); [|destruct closes; exact U1]. unfold returned in R. destruct (fo_pc (with_cfg o c)) eqn:P; try (injection R as <- <-; reflexivity).
      change (fo_pc o = GSend tok0 then_merge) in P. destruct (tok0 =? tok); injection R as <- <-; [|reflexivity]. rewrite P. cbn. destruct then_merge; reflexivity. }
    assert (T1 : timing ka (evs ++ [XWire id tok (if ok then Some m else None)]) (set_casts (set_fobj s id (if closes then fshut o1 else o1)) (map (cast_returned tok ok) (fi_casts s)))) by (calm T; exact U).
    assert (T2 : timing ka ((evs ++ [XWire id tok (if ok then Some m else None)]) ++ (if closes then [XShut id] else [])) (set_casts (set_fobj s id (if closes then fshut o1 else o1)) (map (cast_returned tok ok) (fi_casts s)))).
    { destruct closes; [|rewrite app_nil_r; exact T1]. eapply (timing_quiet _ _ _ _ _ T1); [reflexivity|reflexivity|apply no_update; reflexivity]. }
    replace (evs ++ _) with (((evs ++ [XWire id tok (if ok then Some m else None)]) ++ (if closes then [XShut id] else [])) ++ evs1) by (rewrite <- !app_assoc; reflexivity).
    unfold returned in R. destruct (fo_pc (with_cfg o c)); try (injection R as <- <-; rewrite app_nil_r; exact T2).
    destruct (tok0 =? tok); injection R as <- <-; [|rewrite app_nil_r; exact T2]. eapply (timing_quiet _ _ _ _ _ T2); [reflexivity|reflexivity|apply no_update; reflexivity].
  - calm T.
  - eapply (timing_quiet _ _ _ _ _ T); [reflexivity|reflexivity|apply no_update; reflexivity].
  - calm T.
  - eapply (timing_quiet _ _ _ _ _ T); [reflexivity|reflexivity|apply no_update; reflexivity].
  - eapply (timing_quiet _ _ _ _ _ T); [reflexivity|reflexivity|apply no_update; reflexivity].
  - calm T.
  - rewrite app_nil_r. eapply (timing_silent _ _ _ _ T); [reflexivity|]. eapply one_update; [reflexivity|eassumption|reflexivity].
  - destruct T as [(run & T1 & T2 & T3) W Ru]. destruct (crel_ok _ _ (TTick now) _ T1 I St) as (T1' & ks & Ek & Fk). cbn in T1', Fk. rewrite Ef in Ek. injection Ek as <-.
    assert (C : clock_of (evs ++ [XTick now keys]) = clock_of evs) by (unfold clock_of; rewrite due_snoc; reflexivity).
    split.
    + exists run. split; [unfold due; fold (due_state ka (evs ++ [XTick now keys])); rewrite due_snoc; exact T1'|]. split; [exact T2|]. intro j. rewrite T3. unfold want_at. rewrite C. reflexivity.
    + intro j. apply (same_way evs _ s); [apply no_update; reflexivity|discriminate|discriminate|rewrite C; reflexivity|exact (W j)].
    + apply always_snoc; [exact Ru|exact Fk].
  - eapply (timing_quiet _ _ _ _ _ T); [reflexivity|reflexivity|apply no_update; reflexivity].
  - eapply (timing_quiet _ _ _ _ _ T); [reflexivity|reflexivity|apply no_update; reflexivity].
  - replace (evs ++ [XTimeout id; XShut id]) with ((evs ++ [XTimeout id]) ++ [XShut id]) by (rewrite <- app_assoc; reflexivity).
    assert (T' : timing ka (evs ++ [XTimeout id]) (set_tick s (TKeys keys))) by (eapply (timing_quiet _ _ _ _ _ T); [reflexivity|reflexivity|apply no_update; reflexivity]).
    eapply (timing_quiet _ _ _ _ _ T'); [reflexivity|reflexivity|eapply one_update; [reflexivity|exact Go|reflexivity]].
  - calm T.
  - destruct T as [(run & T1 & T2 & T3) W Ru]. destruct (crel_ok _ _ (TRemove id) _ T1 I St) as (T1' & _). cbn in T1'.
    assert (C : clock_of (evs ++ [XRemove id]) = clock_of evs) by (unfold clock_of; rewrite due_snoc; reflexivity).
    assert (U : same_updates s (set_tc (set_fobj s id (at_close o CHandler)) t)) by (eapply one_update; [reflexivity|exact Go|reflexivity]).
    split.
    + exists run. split; [unfold due; fold (due_state ka (evs ++ [XRemove id])); rewrite due_snoc; exact T1'|]. split; [exact T2|]. intro j. rewrite T3. symmetry. apply same_want; assumption.
    + intro j. apply (same_way evs _ s); [exact U|discriminate|discriminate|rewrite C; reflexivity|exact (W j)].
    + apply always_snoc; [exact Ru|exact I].
  - calm T.
  - eapply (timing_quiet _ _ _ _ _ T); [reflexivity|reflexivity|apply no_update; reflexivity].
Qed.
Lemma timing_happens auto ka evs : happens auto ka evs -> always (time_rule ka) evs.
Proof. intro H. destruct (happens_keeps (timing ka) auto ka evs (timing_init auto ka) (timing_step ka) H) as (s & C). exact (ti_rules _ _ _ C). Qed.
