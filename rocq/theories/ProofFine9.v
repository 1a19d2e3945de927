(** The goroutine of the timer. *)
From Verif Require Import Base LibBase Env EntTerm EntPlat Registry Message Timer Session Server Fine.
From Verif Require Import SpecSession SpecTimer SpecServer SpecFine ProofFine ProofFine2 ProofFine3.

(** ** One check after the other *)
Definition checks (l : list fevent) : Prop := exists groups, l = flat_map a_check groups.
Definition fin_keys (ks : list Z) (s : list fevent) : Prop := exists l, map fst l = ks /\ s = flat_map calls_back l.
Definition fin_tick (t : tpc) (s : list fevent) : Prop :=
  match t with TKeys ks => fin_keys ks s | TFound id ks => exists s', s = XTimeout id :: s' /\ fin_keys ks s' end.
(** The keys of the last check *)
Definition last_check (id : Z) (a : list fevent) : Prop := exists a1 now keys a2, a = a1 ++ XTick now keys :: a2 /\ forallb (fun ev => negb (is_tick ev)) a2 = true /\ In id keys.
Definition tick_rule (a : list fevent) (ev : fevent) : Prop := match ev with XGet id _ | XTimeout id => last_check id a | _ => True end.
Definition to_do (t : tpc) : list Z := match t with TKeys ks => ks | TFound id ks => id :: ks end.
Record ticking (evs : list fevent) (s : fine) : Prop := {
  tg_order : forall l, fin_tick (fi_tick s) l -> checks (filter of_timer evs ++ l);
  tg_keys : forall id, In id (to_do (fi_tick s)) -> last_check id evs;
  tg_rules : always tick_rule evs }.
Lemma ticking_init auto ka : ticking [] (fine_init auto ka).
Proof.
  split; cbn.
  - intros l (k & E & ->). apply map_eq_nil in E. subst. exists []. reflexivity.
  - intros id [].
  - apply always_nil.
Qed.
Lemma last_more id a x : is_tick x = false -> last_check id a -> last_check id (a ++ [x]).
Proof.
  intros T (a1 & now & keys & a2 & -> & F & I). exists a1, now, keys, (a2 ++ [x]). split; [rewrite <- app_assoc; reflexivity|]. split; [|exact I]. rewrite forallb_app, F. cbn. rewrite T. reflexivity.
Qed.
Lemma timer_snoc evs x : filter of_timer (evs ++ [x]) = filter of_timer evs ++ if of_timer x then [x] else [].
Proof. rewrite filter_app. cbn. destruct (of_timer x); reflexivity. Qed.
Lemma ticking_quiet evs s s' x : ticking evs s -> of_timer x = false -> fi_tick s' = fi_tick s -> ticking (evs ++ [x]) s'.
Proof.
  intros [T1 T2 T3] Q E. split.
  - rewrite timer_snoc, Q, app_nil_r, E. exact T1.
  - rewrite E. intros id I. apply last_more; [destruct x; try discriminate Q; reflexivity|auto].
  - apply always_snoc; [exact T3|]. destruct x; try discriminate Q; exact I.
Qed.
Ltac still T := eapply (ticking_quiet _ _ _ _ T); reflexivity.
Lemma ticking_step evs s e s' : ticking evs s -> does s e s' -> ticking (evs ++ e) s'.
Proof.
  intros T D. destruct D as [id Go|id o k now t Go P St|id o k t Go P St|id o k t Go P St|id o Go P|id o m p Go P Rm Om|id o m okk Go P|id o m oc Go P|id o Go P Cl|id o Go P Cl|id o m c Go P St|id o m c Go P St
    |id o m h Go P Eh|id o h m Go P|id o p Go P|id o e p c Go P St|id o cb e c Go St|id o tok t0 cb e icc sent c Go F St|id o tok m ok closes c o1 evs1 Go F L St R
    |id o tok t0 cb e icc n c Go F St|e|b id o e ids n c Gc Ii Go St|b e n Gc|id|id o Go Cl|id o b Go|now t keys Tk St Ef|id keys Tk|id keys o Tk Go Cl|id keys o Tk Go Cl
    |id o Go Cp Cl Cb|id o t Go Cp St|id o Go Cp|msgid h];
    try (still T).
  - replace (evs ++ [XFail id; XShut id]) with ((evs ++ [XFail id]) ++ [XShut id]) by (rewrite <- app_assoc; reflexivity).
    assert (T' : ticking (evs ++ [XFail id]) s) by still T. still T'.
  - set (x := XWire id tok (if ok then Some m else None)).
    replace (evs ++ _) with (((evs ++ [x]) ++ (if closes then [XShut id] else [])) ++ evs1) by (rewrite <- !app_assoc; reflexivity).
    assert (T1 : ticking (evs ++ [x]) s) by still T.
    assert (T2 : ticking ((evs ++ [x]) ++ (if closes then [XShut id] else [])) s) by (destruct closes; [still T1|rewrite app_nil_r; exact T1]).
    assert (K : evs1 = [] \/ evs1 = [XReplied id tok]).
    { unfold returned in R. destruct (fo_pc (with_cfg o c)); try (injection R as <- <-; auto; fail). destruct (_ =? _); injection R as <- <-; auto. }
    destruct K as [->| ->]; [rewrite app_nil_r; destruct T2 as [U1 U2 U3]; split; assumption|still T2].
  - rewrite app_nil_r. destruct T as [U1 U2 U3]; split; assumption.
  - destruct T as [T1 T2 T3]. split.
    + rewrite timer_snoc. cbn. intros l (k & <- & ->). rewrite Tk in T1. destruct (T1 [] ltac:(exists []; split; reflexivity)) as (groups & E). rewrite app_nil_r in E.
      exists (groups ++ [(now, k)]). rewrite flat_map_app, <- E. cbn. rewrite app_nil_r, <- app_assoc. reflexivity.
    + cbn. intros id I. exists evs, now, keys, []. auto.
    + apply always_snoc; [exact T3|exact I].
  - destruct T as [T1 T2 T3]. rewrite Tk in T1, T2. assert (L : last_check id evs) by (apply T2; left; reflexivity). split.
    + rewrite timer_snoc. cbn. intros l F. rewrite <- app_assoc. apply T1. cbn. destruct (mem (fi_reg s) id).
      * destruct F as (s' & -> & k & <- & ->). exists ((id, true) :: k). split; reflexivity.
      * destruct F as (k & <- & ->). exists ((id, false) :: k). split; reflexivity.
    + cbn. intros i I. apply last_more; [reflexivity|]. apply T2. destruct (mem (fi_reg s) id); cbn in *; auto.
    + apply always_snoc; [exact T3|exact L].
  - destruct T as [T1 T2 T3]. rewrite Tk in T1, T2. assert (L : last_check id evs) by (apply T2; left; reflexivity). split.
    + rewrite timer_snoc. cbn. intros l F. rewrite <- app_assoc. apply T1. exists l. auto.
    + cbn. intros i I. apply last_more; [reflexivity|]. apply T2. right. exact I.
    + apply always_snoc; [exact T3|exact L].
  - replace (evs ++ [XTimeout id; XShut id]) with ((evs ++ [XTimeout id]) ++ [XShut id]) by (rewrite <- app_assoc; reflexivity).
    assert (T' : ticking (evs ++ [XTimeout id]) (set_tick s (TKeys keys))); [|still T'].
    destruct T as [T1 T2 T3]. rewrite Tk in T1, T2. assert (L : last_check id evs) by (apply T2; left; reflexivity). split.
    + rewrite timer_snoc. cbn. intros l F. rewrite <- app_assoc. apply T1. exists l. auto.
    + cbn. intros i I. apply last_more; [reflexivity|]. apply T2. right. exact I.
    + apply always_snoc; [exact T3|exact L].
Qed.
Lemma ticking_happens auto ka evs : happens auto ka evs -> always tick_rule evs /\ exists more groups, filter of_timer evs ++ more = flat_map a_check groups.
Proof.
  intro H. destruct (happens_keeps ticking auto ka evs (ticking_init auto ka) ticking_step H) as (s & [T1 T2 T3]). split; [exact T3|].
  assert (Fk : forall ks, fin_keys ks (flat_map calls_back (map (fun i => (i, false)) ks))) by (intro ks; exists (map (fun i => (i, false)) ks); split; [rewrite map_map; cbn; apply map_id|reflexivity]).
  destruct (fi_tick s) as [ks|id ks].
  - destruct (T1 _ (Fk ks)) as (g & E). eauto.
  - destruct (T1 (XTimeout id :: flat_map calls_back (map (fun i => (i, false)) ks)) ltac:(eexists; split; [reflexivity|apply Fk])) as (g & E). eauto.
Qed.

(** ** A deadline is that of the last completed Update. *)
Definition undone (id : Z) (ev : fevent) : bool := match ev with XDel i | XIns i | XRemove i => i =? id | _ => false end.
Lemma due_origin ka id : forall a d, always (time_rule ka) a -> due ka a id = Some d ->
  exists u a0 a3, a = a0 ++ a3 /\ refreshes id u a0 /\ d = wrapped u ka /\ forallb (fun ev => negb (undone id ev)) a3 = true.
Proof.
  intro a. induction a as [|x a IH] using rev_ind; intros d A H; [discriminate H|].
  assert (A' : always (time_rule ka) a) by (intros p ev q E; apply (A p ev (q ++ [x])); rewrite E, <- app_assoc; reflexivity).
  assert (Rx : time_rule ka a x) by (apply (A a x []); reflexivity).
  unfold due in H. fold (due_state ka (a ++ [x])) in H. rewrite due_snoc in H.
  assert (K : due ka a id = Some d -> undone id x = false -> exists u a0 a3, a ++ [x] = a0 ++ a3 /\ refreshes id u a0 /\ d = wrapped u ka /\ forallb (fun ev => negb (undone id ev)) a3 = true).
  { intros Hd U. destruct (IH d A' Hd) as (u & a0 & a3 & E & R & D & F). exists u, a0, (a3 ++ [x]). split; [rewrite E, app_assoc; reflexivity|]. split; [exact R|]. split; [exact D|].
    rewrite forallb_app, F. cbn. rewrite U. reflexivity. }
  unfold due in K. fold (due_state ka a) in K.
  destruct x; cbn in H; try (apply K; [exact H|reflexivity]).
  - unfold put in H. destruct (Z.eqb_spec id id0) as [E|N]; [discriminate|]. apply K; [exact H|cbn; lia].
  - unfold put in H. destruct (Z.eqb_spec id id0) as [E|N]; [|apply K; [exact H|cbn; lia]]. subst id0. injection H as <-. exists (clock_of a id), (a ++ [XIns id]), []. rewrite app_nil_r.
    split; [reflexivity|]. split; [exact Rx|]. split; [rewrite (clocks_same ka a); reflexivity|reflexivity].
  - unfold without_expired in H. destruct (expired _ now id); [discriminate|]. apply K; [exact H|reflexivity].
  - unfold put in H. destruct (Z.eqb_spec id id0) as [E|N]; [discriminate|]. apply K; [exact H|cbn; lia].
Qed.

(** ** What closes a session *)
Definition shuts (id : Z) (ev : fevent) : bool := match ev with XTimeout i | XFail i | XWire i _ None => i =? id | _ => false end.
Definition shutting (evs : list fevent) : Prop := forall id, existsb (shuts id) evs = true -> shut_in evs id = true.
Lemma shutting_none evs x : shutting evs -> (forall id, shuts id x = false) -> shutting (evs ++ [x]).
Proof.
  intros H Q id E. rewrite existsb_app in E. cbn in E. rewrite Q, !orb_false_r in E. rewrite shut_snoc, (H id E). reflexivity.
Qed.
Lemma shutting_some evs x i : shutting evs -> (forall id, shuts id x = (i =? id)) -> shut_in evs i = true -> shutting (evs ++ [x]).
Proof.
  intros H Q C id E. rewrite existsb_app in E. cbn in E. rewrite Q, orb_false_r in E. rewrite shut_snoc. apply orb_true_iff in E as [E|E]; [rewrite (H id E); reflexivity|].
  apply Z.eqb_eq in E. subst. rewrite C. reflexivity.
Qed.
Lemma shutting_both evs x i : shutting evs -> (forall id, shuts id x = (i =? id)) -> shutting ((evs ++ [x]) ++ [XShut i]).
Proof.
  intros H Q id E. rewrite !existsb_app in E. cbn in E. rewrite Q, !orb_false_r in E. rewrite !shut_snoc. apply orb_true_iff in E as [E|E]; [rewrite (H id E); reflexivity|]. rewrite E. apply orb_true_r.
Qed.
Lemma shutting_step evs s e s' : closing evs s /\ shutting evs -> does s e s' -> closing (evs ++ e) s' /\ shutting (evs ++ e).
Proof.
  intros (C & H) D. split; [exact (closing_step _ _ _ _ C D)|].
  assert (V : forall id o, fobj_get (fi_objs s) id = Some o -> fo_closed o = shut_in evs id) by (intros id o G; pose proof (cg_obj _ _ C id) as V; rewrite G in V; apply V).
  destruct D as [id Go|id o k now t Go P St|id o k t Go P St|id o k t Go P St|id o Go P|id o m p Go P Rm Om|id o m okk Go P|id o m oc Go P|id o Go P Cl|id o Go P Cl|id o m c Go P St|id o m c Go P St
    |id o m h Go P Eh|id o h m Go P|id o p Go P|id o e p c Go P St|id o cb e c Go St|id o tok t0 cb e icc sent c Go F St|id o tok m ok closes c o1 evs1 Go F L St R
    |id o tok t0 cb e icc n c Go F St|e|b id o e ids n c Gc Ii Go St|b e n Gc|id|id o Go Cl|id o b Go|now t keys Tk St Ef|id keys Tk|id keys o Tk Go Cl|id keys o Tk Go Cl
    |id o Go Cp Cl Cb|id o t Go Cp St|id o Go Cp|msgid h];
    try (apply (shutting_none _ _ H); reflexivity).
  - apply (shutting_some _ _ id H); [reflexivity|]. rewrite <- (V id o Go). exact Cl.
  - replace (evs ++ [XFail id; XShut id]) with ((evs ++ [XFail id]) ++ [XShut id]) by (rewrite <- app_assoc; reflexivity). apply shutting_both; [exact H|reflexivity].
  - set (x := XWire id tok (if ok then Some m else None)).
    replace (evs ++ _) with (((evs ++ [x]) ++ (if closes then [XShut id] else [])) ++ evs1) by (rewrite <- !app_assoc; reflexivity).
    assert (K : evs1 = [] \/ evs1 = [XReplied id tok]).
    { unfold returned in R. destruct (fo_pc (with_cfg o c)); try (injection R as <- <-; auto; fail). destruct (_ =? _); injection R as <- <-; auto. }
    assert (H' : shutting ((evs ++ [x]) ++ (if closes then [XShut id] else []))).
    { unfold link_send in L. destruct (fo_closed o) eqn:Cl; [|destruct (fo_full o)]; injection L as <- <-; rewrite ?app_nil_r.
      - apply (shutting_some _ _ id H); [reflexivity|]. rewrite <- (V id o Go). exact Cl.
      - apply shutting_both; [exact H|reflexivity].
      - apply (shutting_none _ _ H). reflexivity. }
    destruct K as [->| ->]; [rewrite app_nil_r; exact H'|apply (shutting_none _ _ H'); reflexivity].
  - rewrite app_nil_r. exact H.
  - apply (shutting_some _ _ id H); [reflexivity|]. rewrite <- (V id o Go). exact Cl.
  - replace (evs ++ [XTimeout id; XShut id]) with ((evs ++ [XTimeout id]) ++ [XShut id]) by (rewrite <- app_assoc; reflexivity). apply shutting_both; [exact H|reflexivity].
Qed.
Lemma shutting_happens auto ka evs : happens auto ka evs -> shutting evs.
Proof.
  intro H. destruct (happens_keeps (fun a s => closing a s /\ shutting a) auto ka evs) as (s & _ & S0); [|intros a s x s' A D; exact (shutting_step _ _ _ _ A D)|exact H|exact S0].
  split; [apply closing_init|]. intros id E. discriminate E.
Qed.
