(** Broadcasts among the goroutines of a server. *)
From Coq Require Import Permutation.
From Verif Require Import Base LibBase Env EntTerm EntPlat Registry Message Timer Session Server Fine.
From Verif Require Import SpecSession SpecTimer SpecServer SpecFine ProofSession ProofSession2 ProofFine ProofFine2 ProofFine4 ProofFine5.

Definition is_wired (evs : list fevent) (x : Z * Z * entity) : Prop := exists r, In (XWire (fst (fst x)) (snd (fst x)) r) evs.
Definition taken_calls (evs : list fevent) (l : list (Z * Z * entity)) : list (Z * Z * entity) := filter (fun x => taken_by_link evs (snd (fst x))) l.
Definition cast_known (evs : list fevent) (b : Z) (c : cast) : Prop :=
  (exists a ids rest, evs = a ++ XCast b (ca_ent c) ids :: rest /\ NoDup ids /\ Permutation (map (fun x => fst (fst x)) (cast_calls b evs) ++ ca_left c) ids) /\
  Forall (fun x => snd x = ca_ent c) (cast_calls b evs) /\
  match ca_cur c with
  | None => Forall (is_wired evs) (cast_calls b evs) /\ ca_count c = Z.of_nat (length (taken_calls evs (cast_calls b evs)))
  | Some (id, tok) => exists l, cast_calls b evs = l ++ [(id, tok, ca_ent c)] /\ Forall (is_wired evs) l /\ ca_count c = Z.of_nat (length (taken_calls evs l)) /\ (forall r, ~ In (XWire id tok r) evs)
  end.
Definition cast_rule (a : list fevent) (ev : fevent) : Prop :=
  match ev with
  | XCast b _ _ => (forall e ids, ~ In (XCast b e ids) a) /\ cast_calls b a = []
  | XCastTo b id _ e => (exists ids, In (XCast b e ids) a /\ In id ids) /\ ~ In id (map (fun x => fst (fst x)) (cast_calls b a)) /\ (forall n, ~ In (XCount b n) a) /\ Forall (is_wired a) (cast_calls b a)
  | XCount b n => (forall k, ~ In (XCount b k) a) /\
      exists e ids, In (XCast b e ids) a /\ Permutation (map (fun x => fst (fst x)) (cast_calls b a)) ids /\ Forall (fun x => snd x = e) (cast_calls b a) /\
        Forall (is_wired a) (cast_calls b a) /\ n = Z.of_nat (length (taken_calls a (cast_calls b a)))
  | _ => True
  end.
Record casting (evs : list fevent) (s : fine) : Prop := {
  cs_known : forall b c, cast_get (fi_casts s) b = Some c -> cast_known evs b c;
  cs_fresh : forall b c, cast_get (fi_casts s) b = Some c -> b < fi_toks s;
  cs_cast : forall b e ids, In (XCast b e ids) evs -> b < fi_toks s;
  cs_calls : forall b id tok e, In (XCastTo b id tok e) evs -> b < fi_toks s;
  cs_count : forall b n, In (XCount b n) evs -> b < fi_toks s /\ cast_get (fi_casts s) b = None;
  cs_rules : always cast_rule evs }.
Lemma casting_init auto ka : casting [] (fine_init auto ka).
Proof. split; cbn; try (intros; discriminate); try (intros; contradiction). apply always_nil. Qed.

(** ** Lists of Broadcasts *)
Lemma cast_get_set l b c b' : cast_get (cast_set l b c) b' = if b' =? b then match cast_get l b with Some _ => Some c | None => None end else cast_get l b'.
Proof.
  induction l as [|[i x] l IH]; cbn; [destruct (b' =? b); reflexivity|]. rewrite (Z.eqb_sym b' b) in *.
  destruct (Z.eqb_spec i b) as [E|N]; cbn; destruct (Z.eqb_spec i b') as [E'|N'], (Z.eqb_spec b b') as [E2|N2]; subst; try congruence; try reflexivity; exact IH.
Qed.
Lemma cast_get_del l b b' : cast_get (cast_del l b) b' = if b' =? b then None else cast_get l b'.
Proof.
  unfold cast_del. induction l as [|[i x] l IH]; cbn; [destruct (b' =? b); reflexivity|]. rewrite (Z.eqb_sym b' b) in *.
  destruct (Z.eqb_spec i b) as [E|N]; cbn; destruct (Z.eqb_spec i b') as [E'|N'], (Z.eqb_spec b b') as [E2|N2]; subst; try congruence; try reflexivity; exact IH.
Qed.
Lemma cast_get_map tok ok l b : cast_get (map (cast_returned tok ok) l) b = match cast_get l b with Some c => Some (snd (cast_returned tok ok (b, c))) | None => None end.
Proof.
  induction l as [|[i x] l IH]; [reflexivity|]. cbn [map cast_get]. unfold cast_returned at 1. destruct (Z.eqb_spec i b) as [->|N].
  - unfold cast_returned. destruct (ca_cur x) as [[? t]|]; [destruct (t =? tok)|]; rewrite Z.eqb_refl; reflexivity.
  - destruct (ca_cur x) as [[? t]|]; [destruct (t =? tok)|]; replace (i =? b) with false by (symmetry; apply Z.eqb_neq; exact N); exact IH.
Qed.

(** ** Readings *)
Lemma calls_snoc b evs x : cast_calls b (evs ++ [x]) = cast_calls b evs ++ match x with XCastTo b' id tok e => if b' =? b then [(id, tok, e)] else [] | _ => [] end.
Proof. unfold cast_calls. rewrite flat_map_app. cbn. rewrite app_nil_r. reflexivity. Qed.
Lemma taken_snoc evs x tok : taken_by_link (evs ++ [x]) tok = taken_by_link evs tok || match x with XWire _ t (Some _) => t =? tok | _ => false end.
Proof. unfold taken_by_link. rewrite existsb_app. cbn. rewrite orb_false_r. reflexivity. Qed.
Lemma calls_in b evs id tok e : In (id, tok, e) (cast_calls b evs) <-> In (XCastTo b id tok e) evs.
Proof.
  unfold cast_calls. rewrite in_flat_map. split.
  - intros (x & I & K). destruct x; try contradiction. destruct (Z.eqb_spec b0 b) as [->|]; [|contradiction]. destruct K as [K|[]]. injection K as -> -> ->. exact I.
  - intro I. eexists. split; [exact I|]. cbn. rewrite Z.eqb_refl. left. reflexivity.
Qed.
Lemma wired_more evs x c : is_wired evs c -> is_wired (evs ++ [x]) c.
Proof. intros (r & I). exists r. apply in_or_app. auto. Qed.
Lemma taken_in evs tok : taken_by_link evs tok = true -> exists id r, In (XWire id tok r) evs.
Proof. unfold taken_by_link. rewrite existsb_exists. intros (x & I & E). destruct x; try discriminate. destruct sent; [|discriminate]. apply Z.eqb_eq in E. subst. eauto. Qed.
Definition of_cast (x : fevent) : bool := match x with XCast _ _ _ | XCastTo _ _ _ _ | XCount _ _ | XWire _ _ _ => true | _ => false end.
Lemma known_quiet evs x b c : of_cast x = false -> cast_known evs b c -> cast_known (evs ++ [x]) b c.
Proof.
  intros Q ((a & ids & rest & E & N & P) & F & K).
  assert (Ec : cast_calls b (evs ++ [x]) = cast_calls b evs) by (rewrite calls_snoc; destruct x; try discriminate Q; apply app_nil_r).
  assert (Et : forall l, taken_calls (evs ++ [x]) l = taken_calls evs l).
  { intro l. apply filter_ext. intro y. rewrite taken_snoc. destruct x; try discriminate Q; apply orb_false_r. }
  unfold cast_known. rewrite Ec. split; [|split; [exact F|]].
  - exists a, ids, (rest ++ [x]). split; [rewrite E, <- app_assoc; reflexivity|auto].
  - destruct (ca_cur c) as [[id tok]|].
    + destruct K as (l & K1 & K2 & K3 & K4). exists l. split; [exact K1|]. split; [eapply Forall_impl; [|exact K2]; intro; apply wired_more|]. split; [rewrite Et; exact K3|].
      intros r I. apply in_app_or in I as [I|[I|[]]]; [exact (K4 r I)|subst; discriminate].
    + destruct K as (K1 & K2). split; [eapply Forall_impl; [|exact K1]; intro; apply wired_more|rewrite Et; exact K2].
Qed.
Lemma casting_quiet evs s s' x : casting evs s -> of_cast x = false -> fi_casts s' = fi_casts s -> fi_toks s <= fi_toks s' -> casting (evs ++ [x]) s'.
Proof.
  intros [C1 C2 C3 C4 C5 C6] Q E T. split.
  - intros b c G. rewrite E in G. apply known_quiet; [exact Q|auto].
  - intros b c G. rewrite E in G. specialize (C2 b c G). lia.
  - intros b e ids I. apply in_app_or in I as [I|[I|[]]]; [specialize (C3 b e ids I); lia|subst; discriminate].
  - intros b id tok e I. apply in_app_or in I as [I|[I|[]]]; [specialize (C4 b id tok e I); lia|subst; discriminate].
  - intros b n I. rewrite E. apply in_app_or in I as [I|[I|[]]]; [specialize (C5 b n I); intuition lia|subst; discriminate].
  - apply always_snoc; [exact C6|]. destruct x; try discriminate Q; exact I.
Qed.

(** ** Names tell sessions apart *)
Lemma names_apart (evs : list fevent) (i j tok : Z) : NoDup (names evs) -> In tok (names_on i evs) -> In tok (names_on j evs) -> i = j.
Proof.
  unfold names, names_on, begun_on. generalize (flat_map begun evs). intros l N I J. apply in_map_iff in I as (x & Ex & I), J as (y & Ey & J).
  apply filter_In in I as (I & Fx), J as (J & Fy). apply Z.eqb_eq in Fx, Fy.
  assert (x = y); [|subst y; congruence]. rewrite <- Ey in Ex. clear -N I J Ex.
  induction l as [|z l IH]; [contradiction|]. cbn in N. inversion N as [|? ? N1 N2]; subst. destruct I as [->|I], J as [->|J].
  - reflexivity.
  - exfalso. apply N1. rewrite Ex. apply in_map_iff. exists y. auto.
  - exfalso. apply N1. rewrite <- Ex. apply in_map_iff. exists x. auto.
  - auto.
Qed.
Lemma cast_begun b evs id tok e : In (id, tok, e) (cast_calls b evs) -> In tok (names_on id evs).
Proof.
  rewrite calls_in. intro I. unfold names_on, begun_on. apply in_map_iff. exists (id, tok, false, e). split; [reflexivity|]. apply filter_In. split; [|apply Z.eqb_refl].
  apply in_flat_map. eexists. split; [exact I|]. left. reflexivity.
Qed.
Lemma wire_begun evs s id tok r : calling evs s -> In (XWire id tok r) evs -> In tok (names_on id evs).
Proof.
  intros C I. pose proof (ca_obj _ _ C id) as V. destruct (fobj_get (fi_objs s) id) as [o|].
  - destruct V as (V & _). apply (tk_seen _ _ _ V). eauto.
  - specialize (V _ I). cbn in V. rewrite Z.eqb_refl in V. discriminate.
Qed.

(** A call of Send returns. *)
Lemma known_wire evs s id tok (m : message) (ok : bool) b c : calling evs s -> In tok (names_on id evs) -> (forall r, ~ In (XWire id tok r) evs) -> cast_known evs b c ->
  cast_known (evs ++ [XWire id tok (if ok then Some m else None)]) b (snd (cast_returned tok ok (b, c))).
Proof.
  intros C L W ((a & ids & rest & E & N & P) & F & K). set (x := XWire id tok (if ok then Some m else None)).
  assert (Ec : cast_calls b (evs ++ [x]) = cast_calls b evs) by (rewrite calls_snoc; apply app_nil_r).
  assert (Nt : taken_by_link evs tok = false).
  { destruct (taken_by_link evs tok) eqn:Tk; [|reflexivity]. apply taken_in in Tk as (i & r & I). pose proof (wire_begun _ _ _ _ _ C I) as Li.
    rewrite (names_apart evs i id tok (ca_names _ _ C) Li L) in I. destruct (W r I). }
  assert (Ew : forall l, Forall (is_wired evs) l -> (forall y, In y l -> In y (cast_calls b evs)) -> taken_calls (evs ++ [x]) l = taken_calls evs l).
  { intros l Fw Il. unfold taken_calls. apply filter_ext_in. intros [[i t] e0] Iy. cbn. rewrite taken_snoc. unfold x. destruct ok; [|apply orb_false_r].
    destruct (Z.eqb_spec tok t) as [<-|]; [|apply orb_false_r]. exfalso. rewrite Forall_forall in Fw. destruct (Fw _ Iy) as (r & Iw). cbn in Iw.
    rewrite (names_apart evs i id tok (ca_names _ _ C) (cast_begun _ _ _ _ _ (Il _ Iy)) L) in Iw. destruct (W r Iw). }
  assert (A : forall c' : cast, ca_ent c' = ca_ent c -> ca_left c' = ca_left c ->
    (exists a ids rest, evs ++ [x] = a ++ XCast b (ca_ent c') ids :: rest /\ NoDup ids /\ Permutation (map (fun x => fst (fst x)) (cast_calls b (evs ++ [x])) ++ ca_left c') ids) /\
    Forall (fun x => snd x = ca_ent c') (cast_calls b (evs ++ [x]))).
  { intros c' -> ->. rewrite Ec. split; [|exact F]. exists a, ids, (rest ++ [x]). split; [rewrite E, <- app_assoc; reflexivity|auto]. }
  assert (M : forall l, Forall (is_wired evs) l -> Forall (is_wired (evs ++ [x])) l) by (intros l Fl; eapply Forall_impl; [|exact Fl]; intro; apply wired_more).
  unfold cast_returned. destruct (ca_cur c) as [[i t]|] eqn:Cu.
  - destruct K as (l & K1 & K2 & K3 & K4). assert (Il : forall y, In y l -> In y (cast_calls b evs)) by (intros y I; rewrite K1; apply in_or_app; auto).
    destruct (Z.eqb_spec t tok) as [->|Nt'].
    + assert (Lc : In tok (names_on i evs)) by (apply (cast_begun b evs i tok (ca_ent c)); rewrite K1; apply in_or_app; right; left; reflexivity).
      assert (i = id) as -> by (apply (names_apart evs i id tok (ca_names _ _ C)); assumption).
      split; [apply A; reflexivity|]. split; [apply A; reflexivity|]. cbn. rewrite Ec, K1. split.
      * apply Forall_app. split; [apply M; exact K2|]. constructor; [|constructor]. eexists. apply in_or_app. right. left. reflexivity.
      * unfold taken_calls. rewrite filter_app. fold (taken_calls (evs ++ [x]) l). rewrite (Ew l K2 Il), app_length, K3. cbn. rewrite taken_snoc, Nt. unfold x. destruct ok; cbn; rewrite ?Z.eqb_refl; cbn; lia.
    + split; [apply A; reflexivity|]. split; [apply A; reflexivity|]. cbn. rewrite Cu, Ec. exists l. split; [exact K1|]. split; [apply M; exact K2|]. split; [rewrite (Ew l K2 Il); exact K3|].
      intros r I. apply in_app_or in I as [I|[I|[]]]; [exact (K4 r I)|]. injection I as _ I _. congruence.
  - destruct K as (K1 & K2). split; [apply A; reflexivity|]. split; [apply A; reflexivity|]. cbn. rewrite Cu, Ec. split; [apply M; exact K1|]. rewrite (Ew _ K1); auto.
Qed.
Lemma remove_perm (id : Z) (ids : list Z) : NoDup ids -> In id ids -> Permutation ids (id :: remove Z.eq_dec id ids) /\ NoDup (remove Z.eq_dec id ids).
Proof.
  intro N. induction N as [|x l X N IH]; [contradiction|]. intros [->|I]; cbn.
  - destruct (Z.eq_dec id id) as [_|]; [|congruence]. rewrite notin_remove by exact X. split; [reflexivity|exact N].
  - destruct (Z.eq_dec id x) as [->|Ne]; [contradiction|]. destruct (IH I) as (P & Q). split.
    + etransitivity; [apply perm_skip; exact P|apply perm_swap].
    + constructor; [|exact Q]. intro J. apply in_remove in J as (J & _). exact (X J).
Qed.
Lemma cast_other (l : list (Z * cast)) b c x y : cast_get ((x, y) :: l) b = Some c -> (x = b /\ y = c) \/ cast_get l b = Some c.
Proof. cbn. destruct (Z.eqb_spec x b); [intro H; injection H as ->; auto|auto]. Qed.
Definition all_in (evs : list fevent) (s : fine) : Prop := closing evs s /\ calling evs s /\ casting evs s.
Lemma casting_step evs s e s' : all_in evs s -> does s e s' -> casting (evs ++ e) s'.
Proof.
  intros (Cl0 & Ca & C) D. destruct D as [id Go|id o k now t Go P St|id o k t Go P St|id o k t Go P St|id o Go P|id o m p Go P Rm Om|id o m okk Go P|id o m oc Go P|id o Go P Cl|id o Go P Cl|id o m c Go P St|id o m c Go P St
    |id o m h Go P Eh|id o h m Go P|id o p Go P|id o e p c Go P St|id o cb e c Go St|id o tok t0 cb e icc sent c Go F St|id o tok m ok closes c o1 evs1 Go F L St R
    |id o tok t0 cb e icc n c Go F St|e|b id o e ids n c Gc Ii Go St|b e n Gc|id|id o Go Cl|id o b Go|now t keys T St Ef|id keys T|id keys o T Go Cl|id keys o T Go Cl
    |id o Go Cp Cl Cb|id o t Go Cp St|id o Go Cp|msgid h];
    try (eapply (casting_quiet _ _ _ _ C); [reflexivity|reflexivity|cbn; lia]; fail).
  - replace (evs ++ [XFail id; XShut id]) with ((evs ++ [XFail id]) ++ [XShut id]) by (rewrite <- app_assoc; reflexivity).
    assert (C' : casting (evs ++ [XFail id]) s) by (eapply (casting_quiet _ _ _ _ C); [reflexivity|reflexivity|cbn; lia]).
    eapply (casting_quiet _ _ _ _ C'); [reflexivity|reflexivity|cbn; lia].
  - set (x := XWire id tok (if ok then Some m else None)).
    assert (V : obj_talks evs id o) by (pose proof (ca_obj _ _ Ca id) as V; rewrite Go in V; exact V). destruct V as (V1 & _ & _).
    destruct (talk_wire _ _ _ _ _ _ _ V1 F St) as (_ & W & _).
    assert (Lv : In tok (names_on id evs)).
    { unfold call_message in F. destruct (find_call (sc_calls (fo_cfg o)) tok) eqn:Fc; [|discriminate]. apply (tk_live_in _ _ _ V1). unfold live. apply in_or_app. left. exact (call_live _ _ _ Fc). }
    set (s1 := set_casts (set_fobj s id (if closes then fshut o1 else o1)) (map (cast_returned tok ok) (fi_casts s))).
    assert (C' : casting (evs ++ [x]) s1).
    { destruct C as [C1 C2 C3 C4 C5 C6]. split; cbn.
      - intros b c0 G. rewrite cast_get_map in G. destruct (cast_get (fi_casts s) b) as [c1|] eqn:Gc; [|discriminate]. injection G as <-. eapply known_wire; [exact Ca|exact Lv|exact W|auto].
      - intros b c0 G. rewrite cast_get_map in G. destruct (cast_get (fi_casts s) b) as [c1|] eqn:Gc; [|discriminate]. eauto.
      - intros b e ids I. apply in_app_or in I as [I|[I|[]]]; [eauto|discriminate].
      - intros b i t e I. apply in_app_or in I as [I|[I|[]]]; [eauto|discriminate].
      - intros b n I. apply in_app_or in I as [I|[I|[]]]; [|discriminate]. destruct (C5 b n I) as (I1 & I2). rewrite cast_get_map, I2. auto.
      - apply always_snoc; [exact C6|exact I]. }
    replace (evs ++ _) with (((evs ++ [x]) ++ (if closes then [XShut id] else [])) ++ evs1) by (rewrite <- !app_assoc; reflexivity).
    assert (C'' : casting ((evs ++ [x]) ++ (if closes then [XShut id] else [])) s1).
    { destruct closes; [|rewrite app_nil_r; exact C']. eapply (casting_quiet _ _ _ _ C'); [reflexivity|reflexivity|lia]. }
    assert (K : evs1 = [] \/ evs1 = [XReplied id tok]).
    { unfold returned in R. destruct (fo_pc (with_cfg o c)); try (injection R as <- <-; auto; fail). destruct (_ =? _); injection R as <- <-; auto. }
    destruct K as [->| ->]; [rewrite app_nil_r; exact C''|]. eapply (casting_quiet _ _ _ _ C''); [reflexivity|reflexivity|lia].
  - destruct C as [C1 C2 C3 C4 C5 C6].
    assert (Nc : cast_calls (fi_toks s) evs = []).
    { destruct (cast_calls (fi_toks s) evs) as [|[[i t] e0] l] eqn:E; [reflexivity|]. assert (I : In (i, t, e0) (cast_calls (fi_toks s) evs)) by (rewrite E; left; reflexivity).
      apply calls_in, C4 in I. lia. }
    split; cbn.
    + intros b c G. destruct (Z.eqb_spec (fi_toks s) b) as [<-|Nb].
      * injection G as <-. unfold cast_known. cbn. rewrite calls_snoc, Nc. cbn. split; [|split; [constructor|split; [constructor|reflexivity]]].
        exists evs, (fi_reg s), []. split; [reflexivity|]. split; [exact (cg_nodup _ _ Cl0)|reflexivity].
      * destruct (C1 b c G) as ((a & ids & rest & E & N & P) & F & K).
        assert (Ec : cast_calls b (evs ++ [XCast (fi_toks s) e (fi_reg s)]) = cast_calls b evs) by (rewrite calls_snoc; apply app_nil_r).
        assert (Et : forall l, taken_calls (evs ++ [XCast (fi_toks s) e (fi_reg s)]) l = taken_calls evs l) by (intro l; apply filter_ext; intro y; rewrite taken_snoc; apply orb_false_r).
        unfold cast_known. rewrite Ec. split; [|split; [exact F|]].
        -- exists a, ids, (rest ++ [XCast (fi_toks s) e (fi_reg s)]). split; [rewrite E at 1; rewrite <- app_assoc; reflexivity|auto].
        -- destruct (ca_cur c) as [[id tok]|].
           ++ destruct K as (l & K1 & K2 & K3 & K4). exists l. split; [exact K1|]. split; [eapply Forall_impl; [|exact K2]; intro; apply wired_more|]. split; [rewrite Et; exact K3|].
              intros r I. apply in_app_or in I as [I|[I|[]]]; [exact (K4 r I)|discriminate].
           ++ destruct K as (K1 & K2). split; [eapply Forall_impl; [|exact K1]; intro; apply wired_more|rewrite Et; exact K2].
    + intros b c G. destruct (Z.eqb_spec (fi_toks s) b) as [<-|Nb]; [lia|]. specialize (C2 b c G). lia.
    + intros b e0 ids I. apply in_app_or in I as [I|[I|[]]]; [specialize (C3 _ _ _ I); lia|]. injection I as <- _ _. lia.
    + intros b i t e0 I. apply in_app_or in I as [I|[I|[]]]; [specialize (C4 _ _ _ _ I); lia|discriminate].
    + intros b n I. apply in_app_or in I as [I|[I|[]]]; [|discriminate]. destruct (C5 b n I) as (I1 & I2). split; [lia|]. destruct (Z.eqb_spec (fi_toks s) b); [lia|exact I2].
    + apply always_snoc; [exact C6|]. cbn. split; [|exact Nc]. intros e0 ids I. apply C3 in I. lia.
  - destruct C as [C1 C2 C3 C4 C5 C6]. destruct (C1 _ _ Gc) as ((a & ids0 & rest & E & N & P) & F & K1 & K2). cbn in P, F, K2, E.
    pose proof (C2 _ _ Gc) as Bt. set (x := XCastTo b id (fi_toks s) e).
    assert (Nd : NoDup ids) by (eapply Permutation_NoDup in N; [|apply Permutation_sym; exact P]; clear -N; induction (map (fun x => fst (fst x)) (cast_calls b evs)) as [|y l IH]; [exact N|inversion N; auto]).
    destruct (remove_perm id ids Nd Ii) as (Pr & _).
    assert (Et : forall l, taken_calls (evs ++ [x]) l = taken_calls evs l) by (intro l; apply filter_ext; intro y; rewrite taken_snoc; apply orb_false_r).
    assert (Fr : ~ In id (map (fun x => fst (fst x)) (cast_calls b evs))).
    { intro I. eapply Permutation_NoDup in N; [|apply Permutation_sym; exact P]. apply in_split in I as (l1 & l2 & El). rewrite El in N. rewrite <- app_assoc in N. cbn in N. apply NoDup_remove_2 in N. apply N, in_or_app. right. apply in_or_app. right. exact Ii. }
    split; cbn.
    + intros b' c' G. rewrite cast_get_set, Gc in G. destruct (Z.eqb_spec b' b) as [->|Nb].
      * injection G as <-. unfold cast_known. cbn. rewrite calls_snoc. cbn. rewrite Z.eqb_refl. split; [|split].
        -- exists a, ids0, (rest ++ [x]). split; [rewrite E at 1; rewrite <- app_assoc; reflexivity|]. split; [exact N|]. rewrite map_app. cbn. rewrite <- app_assoc. cbn.
           etransitivity; [|exact P]. apply Permutation_app_head, Permutation_sym. exact Pr.
        -- apply Forall_app. split; [exact F|]. constructor; [reflexivity|constructor].
        -- exists (cast_calls b evs). split; [reflexivity|]. split; [eapply Forall_impl; [|exact K1]; intro; apply wired_more|]. split; [rewrite Et; exact K2|].
           intros r I. apply in_app_or in I as [I|[I|[]]]; [|discriminate]. apply (wire_begun _ _ _ _ _ Ca), names_on_in, (ca_toks _ _ Ca) in I. lia.
      * destruct (C1 b' c' G) as ((a' & ids' & rest' & E' & N' & P') & F' & K').
        assert (Ec : cast_calls b' (evs ++ [x]) = cast_calls b' evs) by (rewrite calls_snoc; cbn; replace (b =? b') with false by lia; apply app_nil_r).
        unfold cast_known. rewrite Ec. split; [|split; [exact F'|]].
        -- exists a', ids', (rest' ++ [x]). split; [rewrite E' at 1; rewrite <- app_assoc; reflexivity|auto].
        -- destruct (ca_cur c') as [[id' tok']|].
           ++ destruct K' as (l & K3 & K4 & K5 & K6). exists l. split; [exact K3|]. split; [eapply Forall_impl; [|exact K4]; intro; apply wired_more|]. split; [rewrite Et; exact K5|].
              intros r I. apply in_app_or in I as [I|[I|[]]]; [exact (K6 r I)|discriminate].
           ++ destruct K' as (K3 & K4). split; [eapply Forall_impl; [|exact K3]; intro; apply wired_more|rewrite Et; exact K4].
    + intros b' c' G. rewrite cast_get_set, Gc in G. destruct (Z.eqb_spec b' b) as [->|Nb]; [lia|]. specialize (C2 b' c' G). lia.
    + intros b' e0 ids1 I. apply in_app_or in I as [I|[I|[]]]; [specialize (C3 _ _ _ I); lia|discriminate].
    + intros b' i t e0 I. apply in_app_or in I as [I|[I|[]]]; [specialize (C4 _ _ _ _ I); lia|]. injection I as <- _ _ _. lia.
    + intros b' n' I. apply in_app_or in I as [I|[I|[]]]; [|discriminate]. destruct (C5 b' n' I) as (I1 & I2). split; [lia|]. rewrite cast_get_set. destruct (Z.eqb_spec b' b) as [->|]; [congruence|exact I2].
    + apply always_snoc; [exact C6|]. cbn. split.
      * exists ids0. split; [rewrite E; apply in_or_app; right; left; reflexivity|]. eapply Permutation_in; [exact P|]. apply in_or_app. right. exact Ii.
      * split; [exact Fr|]. split; [|exact K1]. intros k I. destruct (C5 _ _ I). congruence.
  - destruct C as [C1 C2 C3 C4 C5 C6]. destruct (C1 _ _ Gc) as ((a & ids0 & rest & E & N & P) & F & K1 & K2). cbn in P, F, K2, E. rewrite app_nil_r in P. pose proof (C2 _ _ Gc) as Bt.
    split; cbn.
    + intros b' c' G. rewrite cast_get_del in G. destruct (Z.eqb_spec b' b) as [->|Nb]; [discriminate|].
      destruct (C1 b' c' G) as ((a' & ids' & rest' & E' & N' & P') & F' & K').
      assert (Ec : cast_calls b' (evs ++ [XCount b n]) = cast_calls b' evs) by (rewrite calls_snoc; apply app_nil_r).
      assert (Et : forall l, taken_calls (evs ++ [XCount b n]) l = taken_calls evs l) by (intro l; apply filter_ext; intro y; rewrite taken_snoc; apply orb_false_r).
      unfold cast_known. rewrite Ec. split; [|split; [exact F'|]].
      * exists a', ids', (rest' ++ [XCount b n]). split; [rewrite E' at 1; rewrite <- app_assoc; reflexivity|auto].
      * destruct (ca_cur c') as [[id' tok']|].
        -- destruct K' as (l & K3 & K4 & K5 & K6). exists l. split; [exact K3|]. split; [eapply Forall_impl; [|exact K4]; intro; apply wired_more|]. split; [rewrite Et; exact K5|].
           intros r I. apply in_app_or in I as [I|[I|[]]]; [exact (K6 r I)|discriminate].
        -- destruct K' as (K3 & K4). split; [eapply Forall_impl; [|exact K3]; intro; apply wired_more|rewrite Et; exact K4].
    + intros b' c' G. rewrite cast_get_del in G. destruct (Z.eqb_spec b' b) as [->|Nb]; [discriminate|]. eauto.
    + intros b' e0 ids1 I. apply in_app_or in I as [I|[I|[]]]; [eauto|discriminate].
    + intros b' i t e0 I. apply in_app_or in I as [I|[I|[]]]; [eauto|discriminate].
    + intros b' n' I. rewrite cast_get_del. apply in_app_or in I as [I|[I|[]]].
      * destruct (C5 b' n' I) as (I1 & I2). split; [exact I1|]. destruct (b' =? b); [reflexivity|exact I2].
      * injection I as <- <-. rewrite Z.eqb_refl. auto.
    + apply always_snoc; [exact C6|]. cbn. split; [intros k I; destruct (C5 _ _ I); congruence|]. exists e, ids0. split; [rewrite E; apply in_or_app; right; left; reflexivity|]. auto.
  - rewrite app_nil_r. destruct C as [C1 C2 C3 C4 C5 C6]. split; assumption.
  - replace (evs ++ [XTimeout id; XShut id]) with ((evs ++ [XTimeout id]) ++ [XShut id]) by (rewrite <- app_assoc; reflexivity).
    assert (C' : casting (evs ++ [XTimeout id]) s) by (eapply (casting_quiet _ _ _ _ C); [reflexivity|reflexivity|cbn; lia]).
    eapply (casting_quiet _ _ _ _ C'); [reflexivity|reflexivity|cbn; lia].
Qed.
Lemma casting_happens auto ka evs : happens auto ka evs -> always cast_rule evs.
Proof.
  intro H. assert (K : exists s, all_in evs s).
  { apply (happens_keeps all_in auto ka evs); [|intros e0 s x s' A D; split; [exact (closing_step _ _ _ _ (proj1 A) D)|split; [exact (calling_step _ _ _ _ (proj1 (proj2 A)) D)|exact (casting_step _ _ _ _ A D)]]|exact H].
    split; [apply closing_init|split; [apply calling_init|apply casting_init]]. }
  destruct K as (s & _ & _ & C). exact (cs_rules _ _ C).
Qed.
