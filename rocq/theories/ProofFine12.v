(** No call, Broadcast or reply gets lost. *)
From Coq Require Import Permutation.
From Verif Require Import Base LibBase Env EntTerm EntPlat Registry Message Timer Session Server Fine.
From Verif Require Import SpecSession SpecTimer SpecServer SpecFine ProofFine ProofFine2 ProofFine4 ProofFine5 ProofFine8.

Definition on_call (s : fine) (id tok : Z) (cb : bool) : Prop :=
  exists o c, fobj_get (fi_objs s) id = Some o /\ find_call (sc_calls (fo_cfg o)) tok = Some c /\ cl_cb c = cb.
Definition ended (evs : list fevent) (id tok : Z) (cb : bool) : Prop :=
  exists r, In (XWire id tok r) evs /\ (cb = true -> r = None \/ In (XAdd id tok) evs).
Record kept (evs : list fevent) (s : fine) : Prop := {
  ke_calls : forall id tok cb e, In (id, tok, cb, e) (flat_map begun evs) -> on_call s id tok cb \/ ended evs id tok cb;
  ke_send : forall id o tok p, fobj_get (fi_objs s) id = Some o -> fo_pc o = GSend tok p -> on_call s id tok false;
  ke_cur : forall b c id tok, cast_get (fi_casts s) b = Some c -> ca_cur c = Some (id, tok) -> on_call s id tok false;
  ke_cast : forall b e ids, In (XCast b e ids) evs -> cast_get (fi_casts s) b <> None \/ exists n, In (XCount b n) evs }.
Lemma kept_init auto ka : kept [] (fine_init auto ka).
Proof. split; cbn; intros; try contradiction; discriminate. Qed.

Lemma ended_more evs x id tok cb : ended evs id tok cb -> ended (evs ++ x) id tok cb.
Proof. intros (r & I & K). exists r. split; [apply in_or_app; auto|]. intro E. destruct (K E) as [K'|K']; [auto|right; apply in_or_app; auto]. Qed.
Lemma find_del l t t' : t <> t' -> find_call (del_call l t) t' = find_call l t'.
Proof.
  intro N. induction l as [|c l IH]; cbn; [reflexivity|]. destruct (Z.eqb_spec (cl_tok c) t); [replace (cl_tok c =? t') with false by lia; reflexivity|].
  cbn. destruct (cl_tok c =? t'); [reflexivity|exact IH].
Qed.
(** The calls of a session as a step leaves them *)
Definition still (c c' : scfg) : Prop := forall tok k, find_call (sc_calls c) tok = Some k -> exists k', find_call (sc_calls c') tok = Some k' /\ cl_cb k' = cl_cb k.
Lemma still_eq c c' : sc_calls c' = sc_calls c -> still c c'. Proof. intros E tok k F. exists k. rewrite E. auto. Qed.
Lemma still_refl c : still c c. Proof. apply still_eq. reflexivity. Qed.
Lemma still_start c tok cb e c' : sstep c (SStart tok cb e) = Ok c' -> find_call (sc_calls c) tok = None ->
  still c c' /\ exists k, find_call (sc_calls c') tok = Some k /\ cl_cb k = cb.
Proof.
  intros H N. injection H as <-. split.
  - intros t k F. cbn. destruct (Z.eqb_spec tok t) as [E|E]; [subst; congruence|]. exists k. auto.
  - cbn. rewrite Z.eqb_refl. eexists. split; reflexivity.
Qed.
Lemma still_next c tok c' : sstep c (SNext tok) = Ok c' -> still c c'.
Proof.
  cbn. destruct (find_call (sc_calls c) tok) as [[t0 cb e icc [n|] sent]|] eqn:F; intro H; injection H as <-; try apply still_refl.
  intros t k Fk. cbn. destruct (Z.eqb_spec tok t) as [E|E].
  - subst. rewrite F in Fk. injection Fk as <-. eexists. split; reflexivity.
  - exists k. rewrite find_del by exact E. auto.
Qed.
Lemma still_icc c m c' : sstep c (SIcc m) = Ok c' -> still c c'.
Proof. cbn. destruct (sc_busy c); intro H; injection H as <-; apply still_eq; reflexivity. Qed.
Lemma still_take c c' : sstep c STake = Ok c' -> still c c'.
Proof.
  cbn. destruct (sc_busy c) as [m|]; [|intro H; injection H as <-; apply still_eq; reflexivity]. unfold bind. destruct (reply_serial m); try discriminate.
  destruct (_ =? 0); [intro H; injection H as <-; apply still_eq; reflexivity|]. destruct (take_request _ _) as [[r|] l]; intro H; injection H as <-; apply still_eq; reflexivity.
Qed.
Lemma wire_others c tok ok c' m : call_message c tok = Some m -> sstep c (SWire tok ok) = Ok c' ->
  (forall t k, t <> tok -> find_call (sc_calls c) t = Some k -> find_call (sc_calls c') t = Some k) /\
  exists k, find_call (sc_calls c) tok = Some k /\ (cl_cb k = true -> ok = true -> exists k', find_call (sc_calls c') tok = Some k' /\ cl_cb k' = true).
Proof.
  unfold call_message. cbn. destruct (find_call (sc_calls c) tok) as [[t0 cb e icc [n|] [|]]|] eqn:F; try discriminate. intros _ H. split.
  - intros t k N Fk. destruct ok; cbn in H; injection H as <-; cbn; [|rewrite find_del by congruence; exact Fk].
    destruct cb; cbn; [replace (tok =? t) with false by lia|]; rewrite find_del by congruence; exact Fk.
  - eexists. split; [reflexivity|]. cbn. intros -> ->. cbn in H. injection H as <-. cbn. rewrite Z.eqb_refl. eexists. split; reflexivity.
Qed.
Lemma add_others c tok c' t0 cb e icc n : find_call (sc_calls c) tok = Some (Call t0 cb e icc (Some n) true) -> sstep c (SAdd tok) = Ok c' ->
  forall t k, t <> tok -> find_call (sc_calls c) t = Some k -> find_call (sc_calls c') t = Some k.
Proof. intros F H t k N Fk. cbn in H. rewrite F in H. injection H as <-. cbn. rewrite find_del by congruence. exact Fk. Qed.

Lemma on_call_set s i o o' s' : fobj_get (fi_objs s) i = Some o -> fi_objs s' = fobj_set (fi_objs s) i o' -> still (fo_cfg o) (fo_cfg o') ->
  forall id tok cb, on_call s id tok cb -> on_call s' id tok cb.
Proof.
  intros Go Es K id tok cb (x & c & G & F & E). unfold on_call. rewrite Es, fobj_get_set. destruct (Z.eqb_spec i id) as [->|N].
  - rewrite Go in G. injection G as <-. destruct (K _ _ F) as (k & F' & E'). exists o', k. split; [reflexivity|]. split; [exact F'|congruence].
  - exists x, c. auto.
Qed.
Lemma on_call_same s s' : fi_objs s' = fi_objs s -> forall id tok cb, on_call s id tok cb -> on_call s' id tok cb.
Proof. unfold on_call. intros -> id tok cb H. exact H. Qed.
Definition sends (p : gpc) : option Z := match p with GSend tok _ => Some tok | _ => None end.
(** Steps that begin and end no call *)
Lemma kept_quiet evs s s' e : kept evs s -> flat_map begun e = [] -> (forall id tok cb, on_call s id tok cb -> on_call s' id tok cb) ->
  (forall id o' tok, fobj_get (fi_objs s') id = Some o' -> sends (fo_pc o') = Some tok -> exists o, fobj_get (fi_objs s) id = Some o /\ sends (fo_pc o) = Some tok) ->
  fi_casts s' = fi_casts s -> (forall b en ids, ~ In (XCast b en ids) e) -> kept (evs ++ e) s'.
Proof.
  intros [K1 K2 K3 K4] B S P C N. split.
  - intros id tok cb en I. rewrite flat_map_app, B, app_nil_r in I. destruct (K1 _ _ _ _ I) as [A|A]; [left; auto|right; apply ended_more; exact A].
  - intros id o' tok p G E. destruct (P id o' tok G) as (o & Go & Eo); [rewrite E; reflexivity|]. destruct (fo_pc o) eqn:Ep; try discriminate Eo. injection Eo as ->. apply S, (K2 id o tok then_merge Go Ep).
  - intros b c id tok G E. rewrite C in G. apply S, (K3 b c id tok G E).
  - intros b en ids I. apply in_app_or in I as [I|I]; [|destruct (N _ _ _ I)]. rewrite C. destruct (K4 b en ids I) as [A|(n & A)]; [auto|right; exists n; apply in_or_app; auto].
Qed.
Lemma kept_obj evs s s' e i o o' : kept evs s -> fobj_get (fi_objs s) i = Some o -> fi_objs s' = fobj_set (fi_objs s) i o' -> still (fo_cfg o) (fo_cfg o') ->
  sends (fo_pc o') = None \/ sends (fo_pc o') = sends (fo_pc o) ->
  flat_map begun e = [] -> fi_casts s' = fi_casts s -> (forall b en ids, ~ In (XCast b en ids) e) -> kept (evs ++ e) s'.
Proof.
  intros K Go Es St Sp B C N. apply (kept_quiet evs s s' e K B); [exact (on_call_set s i o o' s' Go Es St)| |exact C|exact N].
  intros id x tok G E. rewrite Es, fobj_get_set in G. destruct (Z.eqb_spec i id) as [->|Ni]; [|exists x; auto]. injection G as <-. exists o. split; [exact Go|].
  destruct Sp as [Sp|Sp]; congruence.
Qed.
(** Steps that begin a call *)
Lemma fresh_call evs s id o : calling evs s -> fobj_get (fi_objs s) id = Some o -> find_call (sc_calls (fo_cfg o)) (fi_toks s) = None.
Proof.
  intros C Go. destruct (find_call (sc_calls (fo_cfg o)) (fi_toks s)) as [k|] eqn:F; [exfalso|reflexivity]. pose proof (ca_obj _ _ C id) as V. rewrite Go in V. destruct V as (V & _ & _).
  assert (I : In (fi_toks s) (names evs)). { apply (names_on_in id), (tk_live_in _ _ _ V), in_or_app. left. exact (call_live _ _ _ F). }
  pose proof (ca_toks _ _ C _ I). lia.
Qed.
Lemma kept_begin evs s s' x id o o' cb e : calling evs s -> kept evs s -> fobj_get (fi_objs s) id = Some o -> sstep (fo_cfg o) (SStart (fi_toks s) cb e) = Ok (fo_cfg o') ->
  fi_objs s' = fobj_set (fi_objs s) id o' -> begun x = [(id, fi_toks s, cb, e)] -> (forall b en ids, x <> XCast b en ids) ->
  sends (fo_pc o') = sends (fo_pc o) \/ (sends (fo_pc o') = Some (fi_toks s) /\ cb = false) ->
  (forall b c, cast_get (fi_casts s') b = Some c -> (exists c', cast_get (fi_casts s) b = Some c' /\ ca_cur c' = ca_cur c) \/ (ca_cur c = Some (id, fi_toks s) /\ cb = false)) ->
  (forall b, cast_get (fi_casts s) b <> None -> cast_get (fi_casts s') b <> None) -> kept (evs ++ [x]) s'.
Proof.
  intros Ca [K1 K2 K3 K4] Go St Es B N Sp Cs Cn. destruct (still_start _ _ _ _ _ St (fresh_call _ _ _ _ Ca Go)) as (S1 & k & Fk & Ek).
  pose proof (on_call_set s id o o' s' Go Es S1) as S.
  assert (New : on_call s' id (fi_toks s) cb). { exists o', k. rewrite Es, fobj_get_set, Z.eqb_refl. auto. }
  split.
  - intros id' tok cb' en I. rewrite flat_map_app in I. apply in_app_or in I as [I|I].
    + destruct (K1 _ _ _ _ I) as [A|A]; [left; auto|right; apply ended_more; exact A].
    + cbn in I. rewrite B, app_nil_r in I. destruct I as [I|[]]. injection I as <- <- <- <-. left. exact New.
  - intros i y tok p G E. rewrite Es, fobj_get_set in G. destruct (Z.eqb_spec id i) as [<-|Ni]; [|apply S, (K2 i y tok p G E)]. injection G as <-.
    rewrite E in Sp. cbn in Sp. destruct Sp as [Sp|(Sp & ->)]; [|injection Sp as ->; exact New].
    destruct (fo_pc o) eqn:Ep; try discriminate Sp. injection Sp as <-. apply S, (K2 id o tok then_merge Go Ep).
  - intros b c i t G E. destruct (Cs b c G) as [(c' & G' & E')|(E' & ->)]; [apply S, (K3 b c' i t G'); congruence|]. rewrite E in E'. injection E' as -> ->. exact New.
  - intros b en ids I. apply in_app_or in I as [I|[I|[]]]; [|destruct (N _ _ _ I)]. destruct (K4 b en ids I) as [A|(n & A)]; [auto|right; exists n; apply in_or_app; auto].
Qed.
Ltac no_cast := intros ? ? ? I; cbn in I; repeat destruct I as [I|I]; try discriminate I; contradiction.
Lemma on_message_sends auto m p : on_message auto m = Ok p -> sends p = None.
Proof.
  unfold on_message. destruct (m_body m) as [|i|b]; try (intro H; injection H as <-; reflexivity). destruct (negb auto || _); [intro H; injection H as <-; reflexivity|].
  destruct b; try (intro H; injection H as <-; reflexivity). destruct (h_packet (m_hdr m)), (a0801_packet e); try discriminate. intro H; injection H as <-; reflexivity.
Qed.
Lemma kept_step evs s e s' : calling evs s -> kept evs s -> does s e s' -> kept (evs ++ e) s'.
Proof.
  intros Ca K D. destruct D as [id Go|id o k now t Go P St|id o k t Go P St|id o k t Go P St|id o Go P|id o m p Go P Rm Om|id o m okk Go P|id o m oc Go P|id o Go P Cl|id o Go P Cl|id o m c Go P St|id o m c Go P St
    |id o m h Go P Eh|id o h m Go P|id o p Go P|id o e p c Go P St|id o cb e c Go St|id o tok t0 cb e icc sent c Go F St|id o tok m ok closes c o1 evs1 Go F L St R
    |id o tok t0 cb e icc n c Go F St|e|b id o e ids n c Gc Ii Go St|b e n Gc|id|id o Go Cl|id o b Go|now t keys T St Ef|id keys T|id keys o T Go Cl|id keys o T Go Cl
    |id o Go Cp Cl Cb|id o t Go Cp St|id o Go Cp|msgid h];
    try (eapply (kept_obj evs s _ _ id o _ K Go); [reflexivity|apply still_refl|cbn; auto; try (destruct k); auto|reflexivity|reflexivity|no_cast]; fail);
    try (apply (kept_quiet evs s _ _ K); [reflexivity|apply on_call_same; reflexivity|cbn; intros i o' t0 G E; exists o'; auto|reflexivity|no_cast]; fail).
  - apply (kept_quiet evs s _ _ K); [reflexivity| | |reflexivity|no_cast].
    + intros i tok cb (o & c & G & X). exists o, c. cbn. rewrite fobj_get_set. destruct (Z.eqb_spec id i); [congruence|auto].
    + cbn. intros i o' tok G E. rewrite fobj_get_set in G. destruct (Z.eqb_spec id i); [|eauto]. injection G as <-. discriminate E.
  - eapply (kept_obj evs s _ _ id o _ K Go); [reflexivity|apply still_refl|left; exact (on_message_sends _ _ _ Om)|reflexivity|reflexivity|no_cast].
  - eapply (kept_obj evs s _ _ id o _ K Go); [reflexivity|apply still_refl|left; cbn; destruct okk; reflexivity|reflexivity|reflexivity|no_cast].
  - eapply (kept_obj evs s _ _ id o _ K Go); [reflexivity|apply still_refl|left; cbn; destruct oc; reflexivity|reflexivity|reflexivity|no_cast].
  - apply (kept_quiet evs s _ _ K); [reflexivity| | |reflexivity|no_cast].
    + intros i tok cb (y & c & G & X). unfold on_call. cbn. setoid_rewrite fobj_get_set. setoid_rewrite fobj_get_set. destruct (Z.eqb_spec id i) as [<-|]; [|exists y, c; auto].
      rewrite Go in G. injection G as <-. exists (fshut (at_pc o GEnd)), c. auto.
    + cbn. intros i o' tok G E. rewrite !fobj_get_set in G. destruct (Z.eqb_spec id i); [injection G as <-; discriminate E|eauto].
  - eapply (kept_obj evs s _ _ id o _ K Go); [reflexivity|exact (still_icc _ _ _ St)|left; reflexivity|reflexivity|reflexivity|no_cast].
  - eapply (kept_obj evs s _ _ id o _ K Go); [reflexivity|exact (still_take _ _ St)|left; cbn; destruct (taken _ _); reflexivity|reflexivity|reflexivity|no_cast].
  - eapply (kept_obj evs s _ _ id o _ K Go); [reflexivity|apply still_refl|left; cbn; destruct h; reflexivity|reflexivity|reflexivity|no_cast].
  - eapply (kept_obj evs s _ _ id o _ K Go); [reflexivity|apply still_refl|left; cbn; destruct p; reflexivity|reflexivity|reflexivity|no_cast].
  - eapply (kept_begin evs s _ _ id o (at_pc (with_cfg o c) (GSend (fi_toks s) p)) false e Ca K Go); [exact St|reflexivity|reflexivity|discriminate|right; auto| |auto].
    cbn. intros b x G. left. exists x. auto.
  - eapply (kept_begin evs s _ _ id o (with_cfg o c) cb e Ca K Go); [exact St|reflexivity|reflexivity|discriminate|left; reflexivity| |auto].
    cbn. intros b x G. left. exists x. auto.
  - eapply (kept_obj evs s _ _ id o _ K Go); [reflexivity|exact (still_next _ _ _ St)|right; reflexivity|reflexivity|reflexivity|no_cast].
  - destruct (wire_others _ _ _ _ _ F St) as (W1 & k & W2 & W3). destruct K as [K1 K2 K3 K4].
    set (o2 := if closes then fshut o1 else o1).
    assert (E2 : fo_cfg o2 = c). { assert (fo_cfg o1 = c) by (unfold returned in R; cbn in R; destruct (fo_pc o) as [| | | | | | |tok'| | | | | | |]; try (injection R as <- _; reflexivity); destruct (tok' =? tok); injection R as <- _; reflexivity). unfold o2. destruct closes; exact H. }
    assert (Others : forall i t cb, (i <> id \/ t <> tok) -> on_call s i t cb -> on_call (set_casts (set_fobj s id o2) (map (cast_returned tok ok) (fi_casts s))) i t cb).
    { intros i t cb N (y & q & G & Fq & Eq). unfold on_call. cbn. rewrite fobj_get_set. destruct (Z.eqb_spec id i) as [<-|]; [|exists y, q; auto]. rewrite Go in G. injection G as <-.
      exists o2, q. split; [reflexivity|]. split; [|exact Eq]. rewrite E2. apply W1; [destruct N as [N|N]; congruence|exact Fq]. }
    assert (Eb : flat_map begun (XWire id tok (if ok then Some m else None) :: (if closes then [XShut id] else []) ++ evs1) = []).
    { unfold returned in R. cbn in R. destruct (fo_pc o) as [| | | | | | |tok'| | | | | | |]; try (injection R as _ <-; destruct closes; reflexivity). destruct (tok' =? tok); injection R as _ <-; destruct closes; reflexivity. }
    split.
    + intros i t cb e0 I. rewrite flat_map_app, Eb, app_nil_r in I. destruct (K1 _ _ _ _ I) as [A|A]; [|right; apply ended_more; exact A].
      destruct (Z.eq_dec i id) as [->|N]; [|left; apply Others; auto]. destruct (Z.eq_dec t tok) as [->|N]; [|left; apply Others; auto].
      destruct A as (y & q & G & Fq & Eq). rewrite Go in G. injection G as <-. rewrite W2 in Fq. injection Fq as <-. destruct ok.
      * destruct cb.
        -- left. destruct (W3 Eq eq_refl) as (k' & Fk & Ek). exists o2, k'. cbn. rewrite fobj_get_set, Z.eqb_refl, E2. auto.
        -- right. eexists. split; [apply in_or_app; right; left; reflexivity|discriminate].
      * right. eexists. split; [apply in_or_app; right; left; reflexivity|auto].
    + intros i y t p G E. cbn in G. rewrite fobj_get_set in G. destruct (Z.eqb_spec id i) as [<-|N]; [|apply Others; [auto|exact (K2 i y t p G E)]]. injection G as <-.
      assert (E1 : fo_pc o1 = GSend t p) by (unfold o2 in E; destruct closes; exact E).
      unfold returned in R. cbn in R. destruct (fo_pc o) as [| | | | | | |tok' p'| | | | | | |] eqn:Po; try (injection R as <- _; cbn in E1; congruence).
      destruct (Z.eqb_spec tok' tok) as [->|N]; injection R as <- _; cbn in E1; [destruct p'; discriminate E1|]. rewrite Po in E1. injection E1 as -> ->. apply Others; [auto|]. exact (K2 id o t p Go Po).
    + intros b c' i t G E. cbn in G. rewrite cast_get_map in G. destruct (cast_get (fi_casts s) b) as [c0|] eqn:G0; [|discriminate]. injection G as <-. unfold cast_returned in E.
      destruct (ca_cur c0) as [[i0 t0]|] eqn:E0; cbn in E; [|congruence]. destruct (Z.eqb_spec t0 tok) as [->|N]; cbn in E; [discriminate|]. rewrite E0 in E. injection E as -> ->. apply Others; [auto|].
      exact (K3 b c0 i t G0 E0).
    + intros b e0 ids I. cbn. rewrite cast_get_map. apply in_app_or in I as [I|I].
      * destruct (K4 b e0 ids I) as [A|(n & A)]; [left; destruct (cast_get (fi_casts s) b); congruence|right; exists n; apply in_or_app; auto].
      * exfalso. unfold returned in R. cbn in R. assert (X : evs1 = [] \/ evs1 = [XReplied id tok]) by (destruct (fo_pc o) as [| | | | | | |tok'| | | | | | |]; try (injection R as _ <-; auto); destruct (tok' =? tok); injection R as _ <-; auto).
        destruct X as [-> | ->], closes; cbn in I; repeat destruct I as [I|I]; try discriminate I; contradiction.
  - pose proof (ca_obj _ _ Ca id) as V. rewrite Go in V. destruct V as (V & _ & _).
    assert (Kk : In (Call t0 cb e icc (Some n) true) (sc_calls (fo_cfg o)) /\ t0 = tok).
    { clear - F. induction (sc_calls (fo_cfg o)) as [|q l IH]; cbn in F; [discriminate|]. destruct (Z.eqb_spec (cl_tok q) tok); [injection F as ->; split; [left; reflexivity|assumption]|destruct (IH F); split; [right; assumption|assumption]]. }
    destruct Kk as (Kk & ->). pose proof (proj1 (Forall_forall _ _) (tk_calls _ _ _ V) _ Kk) as [_ _ _ Ks]. cbn in Ks. destruct Ks as (-> & m & n' & Wi & _).
    assert (Others : forall i t cb, (i <> id \/ t <> tok) -> on_call s i t cb -> on_call (set_fobj s id (with_cfg o c)) i t cb).
    { intros i t cb N (y & q & G & Fq & Eq). unfold on_call. cbn. rewrite fobj_get_set. destruct (Z.eqb_spec id i) as [<-|]; [|exists y, q; auto]. rewrite Go in G. injection G as <-.
      exists (with_cfg o c), q. split; [reflexivity|]. split; [|exact Eq]. cbn. apply (add_others _ _ _ _ _ _ _ _ F St); [destruct N as [N|N]; congruence|exact Fq]. }
    assert (False_ : forall i t, on_call s i t false -> i <> id \/ t <> tok).
    { intros i t (y & q & G & Fq & Eq). destruct (Z.eq_dec i id) as [->|]; [|auto]. destruct (Z.eq_dec t tok) as [->|]; [|auto]. exfalso. rewrite Go in G. injection G as <-. rewrite F in Fq. injection Fq as <-. discriminate Eq. }
    destruct K as [K1 K2 K3 K4]. split.
    + intros i t cb e0 I. rewrite flat_map_app in I. cbn in I. rewrite app_nil_r in I. destruct (K1 _ _ _ _ I) as [A|A]; [|right; apply ended_more; exact A].
      destruct (Z.eq_dec i id) as [->|N]; [|left; apply Others; auto]. destruct (Z.eq_dec t tok) as [->|N]; [|left; apply Others; auto]. right. eexists. split; [apply in_or_app; left; exact Wi|].
      intros _. right. apply in_or_app. right. left. reflexivity.
    + intros i y t p G E. cbn in G. rewrite fobj_get_set in G. destruct (Z.eqb_spec id i) as [<-|N]; [|pose proof (K2 i y t p G E) as Q; apply Others; [apply False_, Q|exact Q]]. injection G as <-.
      pose proof (K2 id o t p Go E) as Q. apply Others; [apply False_, Q|exact Q].
    + intros b c' i t G E. pose proof (K3 b c' i t G E) as Q. apply Others; [apply False_, Q|exact Q].
    + intros b e0 ids I. apply in_app_or in I as [I|[I|[]]]; [|discriminate]. destruct (K4 b e0 ids I) as [A|(n0 & A)]; [auto|right; exists n0; apply in_or_app; auto].
  - destruct K as [K1 K2 K3 K4]. split.
    + intros i t cb e0 I. rewrite flat_map_app in I. cbn in I. rewrite app_nil_r in I. destruct (K1 _ _ _ _ I) as [A|A]; [left; exact A|right; apply ended_more; exact A].
    + exact K2.
    + intros b c i t G E. cbn in G. destruct (fi_toks s =? b); [injection G as <-; discriminate E|exact (K3 b c i t G E)].
    + intros b e0 ids I. cbn. apply in_app_or in I as [I|[I|[]]].
      * destruct (K4 b e0 ids I) as [A|(n0 & A)]; [left; destruct (fi_toks s =? b); congruence|right; exists n0; apply in_or_app; auto].
      * injection I as <- _ _. left. rewrite Z.eqb_refl. discriminate.
  - eapply (kept_begin evs s _ _ id o (with_cfg o c) false e Ca K Go); [exact St|reflexivity|reflexivity|discriminate|left; reflexivity| |].
    + cbn. intros b' x G. rewrite cast_get_set, Gc in G. destruct (b' =? b); [injection G as <-; right; auto|left; exists x; auto].
    + cbn. intros b' G. rewrite cast_get_set, Gc. destruct (b' =? b); congruence.
  - destruct K as [K1 K2 K3 K4]. split.
    + intros i t cb e0 I. rewrite flat_map_app in I. cbn in I. rewrite app_nil_r in I. destruct (K1 _ _ _ _ I) as [A|A]; [left; exact A|right; apply ended_more; exact A].
    + exact K2.
    + intros b' c i t G E. cbn in G. rewrite cast_get_del in G. destruct (b' =? b); [discriminate|exact (K3 b' c i t G E)].
    + intros b' e0 ids I. cbn. rewrite cast_get_del. apply in_app_or in I as [I|[I|[]]]; [|discriminate]. destruct (Z.eqb_spec b' b) as [->|N].
      * right. exists n. apply in_or_app. right. left. reflexivity.
      * destruct (K4 b' e0 ids I) as [A|(n0 & A)]; [auto|right; exists n0; apply in_or_app; auto].
Qed.
