(** The goroutine of a session does one message after the other. *)
From Verif Require Import Base LibBase Bits LibBits Env EntTerm EntPlat Registry Message Timer Session Server Fine.
From Verif Require Import SpecSession SpecTimer SpecServer SpecFine ProofFine.

Section Goroutine.
Variable merging : bool.
Definition whole (id : Z) (l : list fevent) : Prop := exists u ok turns, l = opening id u ok ++ concat turns /\ Forall (turn merging id) turns.
(** What a goroutine still does with a message, from where it is *)
Definition fin_then (id : Z) (k : then_) (s : list fevent) : Prop :=
  match k with ThenAddCb => exists ok, s = [XAddCb id ok] | ThenRun h m => s = [XHandle id h m; XReturn id] end.
Definition fin_load (id : Z) (m : message) (s : list fevent) : Prop :=
  exists h u, s = XLoad id m h :: match h with Some n => [XClock id u; XDel id; XIns id; XHandle id n m; XReturn id] | None => [] end.
Definition fin_merge (id : Z) (m : message) (s : list fevent) : Prop := s = [XMerged id None] \/ exists c r, s = XMerged id (Some c) :: r /\ passed id (with_data m c) r.
Definition fin_pass (id : Z) (p : option message) (s : list fevent) : Prop := match p with None => s = [] | Some m => fin_merge id m s end.
Definition finish (id : Z) (p : gpc) (s : list fevent) : Prop :=
  match p with
  | GClock k => exists u s', s = XClock id u :: XDel id :: XIns id :: s' /\ fin_then id k s'
  | GDel k => exists s', s = XDel id :: XIns id :: s' /\ fin_then id k s'
  | GIns k => exists s', s = XIns id :: s' /\ fin_then id k s'
  | GAddCb => exists ok, s = [XAddCb id ok]
  | GRecv => s = []
  | GStore m => (exists tok, s = [XStored id false; XReply id tok (response m 1); XReplied id tok]) \/
                exists tok s', s = XStored id true :: XReply id tok (response m 0) :: XReplied id tok :: s' /\ fin_merge id m s'
  | GMerge m => fin_merge id m s
  | GReply e p => exists tok s', s = XReply id tok e :: XReplied id tok :: s' /\ fin_pass id p s'
  | GSend tok p => exists s', s = XReplied id tok :: s' /\ fin_pass id p s'
  | GIcc m => passed id m s
  | GTake m => exists cb s', s = XTake id m cb :: (match cb with Some _ => [XReturn id] | None => [] end) ++ s' /\ fin_load id m s'
  | GLoad m => fin_load id m s
  | GRun h m => s = [XHandle id h m; XReturn id]
  | GBusy (Some m) => exists s', s = XReturn id :: s' /\ fin_load id m s'
  | GBusy None => s = [XReturn id]
  | GEnd => False
  end.
Definition progress (id : Z) (p : gpc) (l : list fevent) : Prop :=
  match p with GEnd => exists l0, l = l0 ++ [XFail id] /\ whole id l0 | _ => forall s, finish id p s -> whole id (l ++ s) end.
(** Handlers, and the end of Reply *)
Definition turn_rule (a : list fevent) (ev : fevent) : Prop :=
  match ev with
  | XLoad _ m h => h = handler_now a (h_id (m_hdr m))
  | XReplied id tok => exists a' r, a = a' ++ [XWire id tok r] \/ a = a' ++ [XWire id tok r; XShut id]
  | _ => True
  end.
Record turning (evs : list fevent) (s : fine) : Prop := {
  tu_auto : fi_auto s = merging;
  tu_handlers : forall i, load_handler (fi_handlers s) i = handler_now evs i;
  tu_own : forall id, match fobj_get (fi_objs s) id with Some o => progress id (fo_pc o) (filter (own id) evs) | None => filter (own id) evs = [] end;
  tu_rules : always turn_rule evs }.
Lemma turning_init ka : turning [] (fine_init merging ka).
Proof.
  split; cbn; try reflexivity.
  apply always_nil.
Qed.
Lemma handler_snoc evs x i : handler_now (evs ++ [x]) i = match x with XHandler j h => if j =? i then Some h else handler_now evs i | _ => handler_now evs i end.
Proof. unfold handler_now. rewrite fold_left_app. reflexivity. Qed.
Lemma own_snoc id evs x : filter (own id) (evs ++ [x]) = filter (own id) evs ++ if own id x then [x] else [].
Proof. rewrite filter_app. cbn. destruct (own id x); reflexivity. Qed.

(** An event that is not of a goroutine of a session *)
Lemma turning_quiet evs s s' x : turning evs s -> (forall id, own id x = false) -> (forall i h, x <> XHandler i h) -> turn_rule evs x ->
  fi_auto s' = fi_auto s -> fi_handlers s' = fi_handlers s ->
  (forall id, match fobj_get (fi_objs s') id, fobj_get (fi_objs s) id with Some o', Some o => fo_pc o' = fo_pc o | None, None => True | _, _ => False end) -> turning (evs ++ [x]) s'.
Proof.
  intros [T1 T2 T3 T4] O X R E1 E2 E3. split.
  - congruence.
  - intro i. rewrite E2, T2, handler_snoc. destruct x; try reflexivity. destruct (X msgid h eq_refl).
  - intro id. rewrite own_snoc, O, app_nil_r. specialize (E3 id). specialize (T3 id). destruct (fobj_get (fi_objs s') id), (fobj_get (fi_objs s) id); try contradiction; [rewrite E3|]; exact T3.
  - apply always_snoc; assumption.
Qed.
Lemma one_pc s s' i o o' : fi_objs s' = fobj_set (fi_objs s) i o' -> fobj_get (fi_objs s) i = Some o -> fo_pc o' = fo_pc o ->
  forall id, match fobj_get (fi_objs s') id, fobj_get (fi_objs s) id with Some o', Some o => fo_pc o' = fo_pc o | None, None => True | _, _ => False end.
Proof. intros E G F id. rewrite E, fobj_get_set. destruct (Z.eqb_spec i id) as [<-|N]; [rewrite G; exact F|]. destruct (fobj_get (fi_objs s) id); auto. Qed.
Lemma no_pc s s' : fi_objs s' = fi_objs s ->
  forall id, match fobj_get (fi_objs s') id, fobj_get (fi_objs s) id with Some o', Some o => fo_pc o' = fo_pc o | None, None => True | _, _ => False end.
Proof. intros -> id. destruct (fobj_get (fi_objs s) id); auto. Qed.
(** A goroutine goes on. *)
Lemma turning_one evs s s' x id o o' : turning evs s -> own id x = true -> turn_rule evs x -> fobj_get (fi_objs s) id = Some o -> fi_auto s' = fi_auto s -> fi_handlers s' = fi_handlers s ->
  fi_objs s' = fobj_set (fi_objs s) id o' -> (progress id (fo_pc o) (filter (own id) evs) -> progress id (fo_pc o') (filter (own id) evs ++ [x])) -> turning (evs ++ [x]) s'.
Proof.
  intros [T1 T2 T3 T4] A R G E1 E2 E3 P. split.
  - congruence.
  - intro i. rewrite E2, T2, handler_snoc. destruct x; try reflexivity. discriminate A.
  - intro j. rewrite E3, fobj_get_set, own_snoc. destruct (Z.eqb_spec id j) as [<-|N].
    + rewrite A. apply P. specialize (T3 id). rewrite G in T3. exact T3.
    + assert (Aj : own j x = false) by (destruct x; cbn in *; try reflexivity; apply Z.eqb_eq in A; subst; apply Z.eqb_neq; exact N).
      rewrite Aj, app_nil_r. exact (T3 j).
  - apply always_snoc; assumption.
Qed.
Lemma progress_one id p p' x l : p <> GEnd -> p' <> GEnd -> (forall s, finish id p' s -> finish id p (x :: s)) -> progress id p l -> progress id p' (l ++ [x]).
Proof.
  intros N N' F H. assert (H' : forall s, finish id p s -> whole id (l ++ s)) by (destruct p; try exact H; destruct (N eq_refl)).
  assert (K : forall s, finish id p' s -> whole id ((l ++ [x]) ++ s)) by (intros s Fs; rewrite <- app_assoc; apply H', F, Fs).
  destruct p'; try exact K. destruct (N' eq_refl).
Qed.
Lemma progress_recv id p' x l : p' <> GEnd -> (forall s, finish id p' s -> turn merging id (x :: s)) -> progress id GRecv l -> progress id p' (l ++ [x]).
Proof.
  intros N' F H. specialize (H [] eq_refl). rewrite app_nil_r in H. destruct H as (u & ok & turns & -> & A).
  assert (K : forall s, finish id p' s -> whole id (((opening id u ok ++ concat turns) ++ [x]) ++ s)).
  { intros s Fs. exists u, ok, (turns ++ [x :: s]). split; [rewrite concat_app; cbn; rewrite app_nil_r, <- !app_assoc; reflexivity|].
    apply Forall_app. split; [exact A|constructor; [apply F; exact Fs|constructor]]. }
  destruct p'; try exact K. destruct (N' eq_refl).
Qed.

Lemma turn_passed id m s : received m -> has_body m = true -> part_of merging m = None -> passed id m s -> turn merging id (XRecv id m :: s).
Proof. intros R B P F. exists m, s. split; [reflexivity|]. rewrite B, P. exact F. Qed.
Lemma recv_turn id m p s : received m -> on_message merging m = Ok p -> finish id p s -> p <> GEnd /\ turn merging id (XRecv id m :: s).
Proof.
  intros Rm Om F. pose proof Rm as (_ & _ & _ & Hp & _ & Rb). unfold on_message in Om. destruct (m_body m) as [|k|b] eqn:B.
  - injection Om as <-. split; [discriminate|]. destruct F as (tok & s' & -> & F). cbn in F. subst s'. exists m, [XReply id tok (response m 3); XReplied id tok].
    split; [reflexivity|]. unfold has_body. rewrite B. exists tok. reflexivity.
  - injection Om as <-. split; [discriminate|]. destruct F as (tok & s' & -> & F). cbn in F. subst s'. exists m, [XReply id tok (response m 3); XReplied id tok].
    split; [reflexivity|]. unfold has_body. rewrite B. exists tok. reflexivity.
  - assert (Hb : has_body m = true) by (unfold has_body; rewrite B; reflexivity). rewrite is_enable_packet_bit in Om.
    destruct (h_packet (m_hdr m)) as [[sum sq]|] eqn:Hk.
    + destruct Hp as (_ & _ & Hp). rewrite Hp in Om. cbn [negb] in Om. rewrite orb_false_r in Om. destruct merging eqn:M; cbn [negb] in Om.
      * destruct b; try (injection Om as <-; split; [discriminate|]; rewrite <- M; apply turn_passed; [exact Rm|exact Hb|unfold part_of; rewrite Hk, B; reflexivity|exact F]).
        destruct Rb as (_ & _ & data & Ed). rewrite Ed in Om.
        assert (Pt : exists q, part_of true m = Some q) by (unfold part_of; rewrite Hk, B; eexists; reflexivity). destruct Pt as (q & Pt).
        injection Om as <-. split; [discriminate|]. exists m, s. split; [reflexivity|]. rewrite Hb, Pt. destruct F as [(tok & ->)|(tok & s' & -> & [->|(c & r & -> & F)])].
        -- left. eexists. split; [reflexivity|exists tok; reflexivity].
        -- right. left. exists [XReply id tok (response m 0); XReplied id tok]. split; [reflexivity|exists tok; reflexivity].
        -- right. right. exists [XReply id tok (response m 0); XReplied id tok], c, r. split; [reflexivity|]. split; [exists tok; reflexivity|exact F].
      * injection Om as <-. split; [discriminate|]. rewrite <- M. apply turn_passed; [exact Rm|exact Hb|rewrite M; unfold part_of; rewrite Hk, B; destruct b; reflexivity|exact F].
    + rewrite Hp in Om. cbn [negb] in Om. rewrite orb_true_r in Om. injection Om as <-. split; [discriminate|]. apply turn_passed; [exact Rm|exact Hb|unfold part_of; rewrite Hk; reflexivity|exact F].
Qed.
Lemma finish_some id p : p <> GEnd -> exists s, finish id p s.
Proof.
  assert (Fk : forall k, exists s, fin_then id k s) by (intros [|h m]; [exists [XAddCb id true], true; reflexivity|eexists; reflexivity]).
  assert (Fl : forall m, exists s, fin_load id m s) by (intro m; exists [XLoad id m None], None, 0; reflexivity).
  assert (Fi : forall m, exists s, passed id m s) by (intro m; exists [XIcc id m; XTake id m None; XLoad id m None], None, None, 0; reflexivity).
  assert (Fp : forall p, exists s, fin_pass id p s) by (intros [m|]; [exists [XMerged id None]; left; reflexivity|exists []; reflexivity]).
  intro N. destruct p as [k|k|k| | |m|e o|tok o|m|m|m|m|h m|[m|]|]; cbn.
  - destruct (Fk k) as (s & F). exists (XClock id 0 :: XDel id :: XIns id :: s), 0, s. auto.
  - destruct (Fk k) as (s & F). eauto.
  - destruct (Fk k) as (s & F). eauto.
  - exists [XAddCb id true], true. reflexivity.
  - eauto.
  - eexists. left. exists 0. reflexivity.
  - destruct (Fp o) as (s & F). exists (XReply id 0 e :: XReplied id 0 :: s), 0, s. auto.
  - destruct (Fp o) as (s & F). eauto.
  - exists [XMerged id None]. left. reflexivity.
  - apply Fi.
  - destruct (Fl m) as (s & F). exists (XTake id m None :: s), None, s. auto.
  - apply Fl.
  - eauto.
  - destruct (Fl m) as (s & F). eauto.
  - eauto.
  - destruct (N eq_refl).
Qed.
Ltac quietly T := eapply (turning_quiet _ _ _ _ T); [reflexivity|discriminate|try exact I|reflexivity|reflexivity|first [eapply one_pc; [reflexivity|eassumption|reflexivity]|apply no_pc; reflexivity]].
Ltac onward T := eapply (turning_one _ _ _ _ _ _ _ T); [apply Z.eqb_refl|try exact I|eassumption|reflexivity|reflexivity|reflexivity|].
Lemma turning_step evs s e s' : turning evs s -> does s e s' -> turning (evs ++ e) s'.
Proof.
  intros T D. destruct D as [id Go|id o k now t Go P St|id o k t Go P St|id o k t Go P St|id o Go P|id o m p Go P Rm Om|id o m okk Go P|id o m oc Go P|id o Go P Cl|id o Go P Cl|id o m c Go P St|id o m c Go P St
    |id o m h Go P Eh|id o h m Go P|id o p Go P|id o e p c Go P St|id o cb e c Go St|id o tok t0 cb e icc sent c Go F St|id o tok m ok closes c o1 evs1 Go F L St R
    |id o tok t0 cb e icc n c Go F St|e|b id o e ids n c Gc Ii Go St|b e n Gc|id|id o Go Cl|id o b Go|now t keys Tk St Ef|id keys Tk|id keys o Tk Go Cl|id keys o Tk Go Cl
    |id o Go Cp Cl Cb|id o t Go Cp St|id o Go Cp|msgid h].
  - destruct T as [T1 T2 T3 T4]. split.
    + exact T1.
    + intro i. rewrite handler_snoc. exact (T2 i).
    + intro j. cbn [fi_objs set_freg]. rewrite set_fobj_get, own_snoc. cbn [own]. destruct (Z.eqb_spec id j) as [<-|N].
      * specialize (T3 id). rewrite Go in T3. rewrite T3. intros s0 (u & s1 & -> & ok & ->). exists u, ok, []. split; [reflexivity|constructor].
      * rewrite app_nil_r. exact (T3 j).
    + apply always_snoc; [exact T4|exact I].
  - onward T. apply progress_one; [rewrite P; discriminate|discriminate|]. rewrite P. intros s0 (s1 & -> & Fk). exists now, s1. auto.
  - onward T. apply progress_one; [rewrite P; discriminate|discriminate|]. rewrite P. intros s0 (s1 & -> & Fk). exists s1. auto.
  - onward T. apply progress_one; [rewrite P; discriminate|destruct k; discriminate|]. rewrite P. intros s0 Fk. exists s0. split; [reflexivity|]. destruct k; exact Fk.
  - onward T. apply progress_one; [rewrite P; discriminate|discriminate|]. rewrite P. intros s0 ->. exists (negb (fo_closed o)). reflexivity.
  - rewrite (tu_auto _ _ T) in Om. onward T. rewrite P. cbn [fo_pc at_pc].
    assert (Np : p <> GEnd) by (intros ->; unfold on_message in Om; repeat (match type of Om with context [match ?x with _ => _ end] => destruct x; try discriminate Om end)).
    apply progress_recv; [exact Np|]. intros s0 Fs. apply (recv_turn id m p s0 Rm Om Fs).
  - onward T. apply progress_one; [rewrite P; discriminate|cbn; destruct okk; discriminate|]. rewrite P. cbn [fo_pc at_pc]. intros s0 Fs. destruct okk; destruct Fs as (tok & s1 & -> & F).
    + right. exists tok, s1. auto.
    + left. exists tok. cbn in F. subst s1. reflexivity.
  - onward T. apply progress_one; [rewrite P; discriminate|cbn; destruct oc; discriminate|]. rewrite P. cbn [fo_pc at_pc]. intros s0 Fs. destruct oc as [c|].
    + right. exists c, s0. auto.
    + cbn in Fs. subst s0. left. reflexivity.
  - onward T. rewrite P. cbn. intro H. exists (filter (own id) evs). split; [reflexivity|]. specialize (H [] eq_refl). rewrite app_nil_r in H. exact H.
  - replace (evs ++ [XFail id; XShut id]) with ((evs ++ [XFail id]) ++ [XShut id]) by (rewrite <- app_assoc; reflexivity).
    assert (T' : turning (evs ++ [XFail id]) (set_fobj s id (at_pc o GEnd))).
    { onward T. rewrite P. cbn. intro H. exists (filter (own id) evs). split; [reflexivity|]. specialize (H [] eq_refl). rewrite app_nil_r in H. exact H. }
    eapply (turning_quiet _ _ _ _ T'); [reflexivity|discriminate|exact I|reflexivity|reflexivity|eapply one_pc; [reflexivity|rewrite set_fobj_get, Z.eqb_refl; reflexivity|reflexivity]].
  - onward T. apply progress_one; [rewrite P; discriminate|discriminate|]. rewrite P. intros s0 (cb & s1 & -> & h & u & ->). exists cb, h, u. reflexivity.
  - onward T. apply progress_one; [rewrite P; discriminate|cbn; destruct (taken (fo_cfg o) m); discriminate|]. rewrite P. cbn [fo_pc at_pc]. intros s0 Fs.
    destruct (taken (fo_cfg o) m) as [q|].
    + destruct Fs as (s1 & -> & Fl). exists (Some q), s1. auto.
    + exists None, s0. auto.
  - eapply (turning_one _ _ _ _ _ _ _ T); [apply Z.eqb_refl|cbn; rewrite Eh; apply (tu_handlers _ _ T)|eassumption|reflexivity|reflexivity|reflexivity|].
    apply progress_one; [rewrite P; discriminate|cbn; destruct h; discriminate|]. rewrite P. cbn [fo_pc at_pc]. clear Eh. intros s0 Fs. destruct h as [h|].
    + destruct Fs as (u & s1 & -> & ->). exists (Some h), u. reflexivity.
    + cbn in Fs. subst s0. exists None, 0. reflexivity.
  - onward T. apply progress_one; [rewrite P; discriminate|discriminate|]. rewrite P. intros s0 ->. reflexivity.
  - onward T. apply progress_one; [rewrite P; discriminate|destruct p; discriminate|]. rewrite P. cbn [fo_pc at_pc]. intros s0 Fs. destruct p; [exists s0; auto|]. cbn in Fs. subst s0. reflexivity.
  - onward T. apply progress_one; [rewrite P; discriminate|discriminate|]. rewrite P. intros s0 (s1 & -> & Fp). exists (fi_toks s), s1. auto.
  - quietly T.
  - quietly T.
  - set (x := XWire id tok (if ok then Some m else None)).
    replace (evs ++ _) with (((evs ++ [x]) ++ (if closes then [XShut id] else [])) ++ evs1) by (rewrite <- !app_assoc; reflexivity).
    assert (T' : turning ((evs ++ [x]) ++ (if closes then [XShut id] else [])) s).
    { assert (T1 : turning (evs ++ [x]) s) by (eapply (turning_quiet _ _ _ _ T); [reflexivity|discriminate|exact I|reflexivity|reflexivity|apply no_pc; reflexivity]).
      destruct closes; [|rewrite app_nil_r; exact T1]. eapply (turning_quiet _ _ _ _ T1); [reflexivity|discriminate|exact I|reflexivity|reflexivity|apply no_pc; reflexivity]. }
    assert (Ru : turn_rule ((evs ++ [x]) ++ (if closes then [XShut id] else [])) (XReplied id tok)).
    { exists evs, (if ok then Some m else None). destruct closes; [right; rewrite <- app_assoc; reflexivity|left; rewrite app_nil_r; reflexivity]. }
    unfold returned in R. destruct (fo_pc (with_cfg o c)) eqn:P; cbn in P;
      try (injection R as <- <-; rewrite app_nil_r; destruct T' as [U1 U2 U3 U4]; split; try assumption;
           intro j; cbn [fi_objs set_casts]; rewrite set_fobj_get; destruct (Z.eqb_spec id j) as [<-|N]; [|exact (U3 j)]; specialize (U3 id); rewrite Go in U3; destruct closes; cbn; exact U3).
    destruct (Z.eqb_spec tok0 tok) as [Et|Et]; injection R as <- <-.
    + subst tok0. eapply (turning_one _ _ _ _ _ _ _ T'); [apply Z.eqb_refl|exact Ru|exact Go|reflexivity|reflexivity|reflexivity|].
      replace (fo_pc (if closes then _ else _)) with (after_reply then_merge) by (destruct closes; reflexivity).
      apply progress_one; [rewrite P; discriminate|destruct then_merge; discriminate|]. rewrite P. intros s0 Fs. exists s0. split; [reflexivity|]. destruct then_merge; exact Fs.
    + rewrite app_nil_r. destruct T' as [U1 U2 U3 U4]; split; try assumption.
      intro j; cbn [fi_objs set_casts]; rewrite set_fobj_get; destruct (Z.eqb_spec id j) as [<-|N]; [|exact (U3 j)]; specialize (U3 id); rewrite Go in U3; destruct closes; cbn; exact U3.
  - quietly T.
  - quietly T.
  - quietly T.
  - quietly T.
  - quietly T.
  - quietly T.
  - rewrite app_nil_r. destruct T as [U1 U2 U3 U4]; split; try assumption.
    intro j; rewrite set_fobj_get; destruct (Z.eqb_spec id j) as [<-|N]; [|exact (U3 j)]; specialize (U3 id); rewrite Go in U3; exact U3.
  - quietly T.
  - quietly T.
  - quietly T.
  - replace (evs ++ [XTimeout id; XShut id]) with ((evs ++ [XTimeout id]) ++ [XShut id]) by (rewrite <- app_assoc; reflexivity).
    assert (T' : turning (evs ++ [XTimeout id]) (set_tick s (TKeys keys))) by (quietly T). quietly T'.
  - quietly T.
  - quietly T.
  - quietly T.
  - destruct T as [U1 U2 U3 U4]; split.
    + exact U1.
    + intro i. rewrite handler_snoc. cbn. rewrite U2. reflexivity.
    + intro j. rewrite own_snoc. cbn. rewrite app_nil_r. exact (U3 j).
    + apply always_snoc; [exact U4|exact I].
Qed.
End Goroutine.
Lemma turning_happens merging ka evs : happens merging ka evs -> always turn_rule evs /\
  forall id, filter (own id) evs = [] \/ (exists more, whole merging id (filter (own id) evs ++ more)) \/ exists l, filter (own id) evs = l ++ [XFail id] /\ whole merging id l.
Proof.
  intro H. destruct (happens_keeps (turning merging) merging ka evs (turning_init merging ka) (turning_step merging) H) as (s & T). split; [exact (tu_rules _ _ _ T)|].
  intro id. pose proof (tu_own _ _ _ T id) as P. destruct (fobj_get (fi_objs s) id) as [o|]; [|auto]. right.
  destruct (fo_pc o) eqn:E; try (left; destruct (finish_some id (fo_pc o) ltac:(rewrite E; discriminate)) as (more & F); exists more; apply P; rewrite E in F; exact F).
  right. exact P.
Qed.
