(** Left to themselves the goroutines of a server come to rest, and then everything is done. *)
From Coq Require Import Permutation.
From Verif Require Import Base LibBase Env EntTerm EntPlat Registry Message Timer Session Server Fine.
From Verif Require Import SpecSession SpecTimer SpecServer SpecFine ProofFine ProofFine2 ProofFine3 ProofFine4 ProofFine5 ProofFine6 ProofFine7 ProofFine8 ProofFine9 ProofFine12.

(** ** How much there is to do at most *)
Definition w_then (k : then_) : nat := match k with ThenAddCb => 1 | ThenRun _ _ => 2 end.
Definition w_pass (p : option message) : nat := match p with None => 0 | Some _ => 11 end.
Definition w_pc (p : gpc) : nat :=
  match p with
  | GClock k => 3 + w_then k
  | GDel k => 2 + w_then k
  | GIns k => 1 + w_then k
  | GAddCb => 1
  | GRecv => 0
  | GStore _ => 18
  | GMerge _ => 11
  | GReply _ p => 6 + w_pass p
  | GSend _ p => w_pass p
  | GIcc _ => 10
  | GTake _ => 8
  | GLoad _ => 6
  | GRun _ _ => 2
  | GBusy (Some _) => 7
  | GBusy None => 1
  | GEnd => 0
  end.
Definition w_call (c : call) : nat := match cl_serial c with None => 5 | Some _ => if cl_sent c then 1 else 4 end.
Fixpoint sum {A} (f : A -> nat) (l : list A) : nat := match l with [] => O | x :: t => (f x + sum f t)%nat end.
Definition w_close (p : cpc) : nat := match p with CNot => 3 | CTimer => 2 | CHandler => 1 | COver => 0 end.
Definition w_obj (o : fobj) : nat := w_pc (fo_pc o) + sum w_call (sc_calls (fo_cfg o)) + w_close (fo_close o).
Definition w_cast (c : cast) : nat := 1 + 6 * length (ca_left c).
Definition w_tick (t : tpc) : nat := match t with TKeys ks => 3 * length ks | TFound _ ks => 2 + 3 * length ks end.
Definition work (s : fine) : nat := sum (fun x => w_obj (snd x)) (fi_objs s) + sum (fun x => w_cast (snd x)) (fi_casts s) + w_tick (fi_tick s).

Lemma sum_set l i o o' : fobj_get l i = Some o -> (sum (fun x => w_obj (snd x)) (fobj_set l i o') + w_obj o = sum (fun x => w_obj (snd x)) l + w_obj o')%nat.
Proof.
  induction l as [|[j x] l IH]; cbn -[w_obj w_call]; [discriminate|]. destruct (j =? i); cbn -[w_obj w_call]; [intro H; injection H as ->; lia|]. intro H. specialize (IH H). lia.
Qed.
Lemma sum_del l tok c : find_call l tok = Some c -> (sum w_call (del_call l tok) + w_call c = sum w_call l)%nat.
Proof. induction l as [|x l IH]; cbn -[w_obj w_call]; [discriminate|]. destruct (cl_tok x =? tok); cbn -[w_obj w_call]; [intro H; injection H as ->; lia|]. intro H. specialize (IH H). lia. Qed.
Lemma sum_cast_set l b c c' : cast_get l b = Some c -> (sum (fun x => w_cast (snd x)) (cast_set l b c') + w_cast c = sum (fun x => w_cast (snd x)) l + w_cast c')%nat.
Proof. induction l as [|[j x] l IH]; cbn -[w_cast]; [discriminate|]. destruct (j =? b); cbn -[w_cast]; [intro H; injection H as ->; lia|]. intro H. specialize (IH H). lia. Qed.
Lemma sum_cast_del l b c : cast_get l b = Some c -> (sum (fun x => w_cast (snd x)) (cast_del l b) + w_cast c <= sum (fun x => w_cast (snd x)) l)%nat.
Proof.
  assert (Le : forall l, (sum (fun x => w_cast (snd x)) (cast_del l b) <= sum (fun x => w_cast (snd x)) l)%nat).
  { induction l0 as [|[j x] l0 IH]; cbn -[w_cast]; [lia|]. destruct (j =? b); cbn -[w_cast]; unfold cast_del in IH; lia. }
  induction l as [|[j x] l IH]; cbn -[w_cast]; [discriminate|]. destruct (j =? b); cbn -[w_cast]; [intro H; injection H as ->; specialize (Le l); unfold cast_del in Le; lia|].
  intro H. specialize (IH H). unfold cast_del in IH. lia.
Qed.
Lemma sum_cast_map tok ok l : sum (fun x => w_cast (snd x)) (map (cast_returned tok ok) l) = sum (fun x => w_cast (snd x)) l.
Proof.
  induction l as [|[j x] l IH]; cbn -[w_cast]; [reflexivity|]. rewrite IH. f_equal. destruct (ca_cur x) as [[i t]|]; [destruct (t =? tok)|]; reflexivity.
Qed.
Lemma remove_length (id : Z) ids : In id ids -> (length (remove Z.eq_dec id ids) < length ids)%nat.
Proof. exact (remove_length_lt Z.eq_dec ids id). Qed.

(** Steps that are taken without anything from outside *)
Definition inner (ev : fevent) : bool :=
  match ev with
  | XConnect _ | XRecv _ _ | XFail _ | XStart _ _ _ _ | XCast _ _ _ | XLook _ _ | XShut _ | XTick _ _ | XHandler _ _ => false
  | _ => true
  end.
Lemma itself_inner s op s' e : by_itself op = true -> fstep s op = Ok (s', e) -> (s' = s /\ e = []) \/ (does s e s' /\ exists x r, e = x :: r /\ inner x = true).
Proof.
  intros B H. assert (G : good_op op) by (destruct op; try exact I; discriminate B). destruct (fstep_does _ _ _ _ G H) as [A|D]; [left; exact A|].
  destruct e as [|x r].
  { left. split; [|reflexivity]. clear D. destruct op; try discriminate B; cbn -[sstep tstep] in H; revert H;
    repeat match goal with
    | |- match ?x with _ => _ end = Ok _ -> _ => destruct x; try discriminate
    | |- bind ?x _ = Ok _ -> _ => destruct x; cbn [bind]; try discriminate
    | |- (let '(_, _) := ?x in _) = Ok _ -> _ => destruct x
    end; intro H; try (injection H; intros; subst; try reflexivity; discriminate). }
  right. split; [exact D|]. exists x, r. split; [reflexivity|]. clear D. destruct op; try discriminate B; cbn -[sstep tstep] in H; revert H;
    repeat match goal with
    | |- match ?x with _ => _ end = Ok _ -> _ => destruct x; try discriminate
    | |- bind ?x _ = Ok _ -> _ => destruct x; cbn [bind]; try discriminate
    | |- (let '(_, _) := ?x in _) = Ok _ -> _ => destruct x
    end; intro H; try (injection H; intros; subst; try reflexivity; discriminate).
Qed.
Lemma w_take c c' : sstep c STake = Ok c' -> sc_calls c' = sc_calls c.
Proof.
  cbn. destruct (sc_busy c) as [m|]; [|intro H; injection H as <-; reflexivity]. unfold bind. destruct (reply_serial m); try discriminate.
  destruct (_ =? 0); [intro H; injection H as <-; reflexivity|]. destruct (take_request _ _) as [[r|] l]; intro H; injection H as <-; reflexivity.
Qed.
Lemma w_icc c m c' : sstep c (SIcc m) = Ok c' -> sc_calls c' = sc_calls c.
Proof. cbn. destruct (sc_busy c); intro H; injection H as <-; reflexivity. Qed.
Ltac of_obj Go := match goal with |- context [fobj_set ?l ?i ?o'] => pose proof (sum_set l i _ o' Go) end.
Lemma does_less s x r s' : does s (x :: r) s' -> inner x = true -> (work s' + length (x :: r) <= work s)%nat.
Proof.
  intros D I. remember (x :: r) as e eqn:Ee. destruct D as [id Go|id o k now t Go P St|id o k t Go P St|id o k t Go P St|id o Go P|id o m p Go P Rm Om|id o m okk Go P|id o m oc Go P|id o Go P Cl|id o Go P Cl|id o m c Go P St|id o m c Go P St
    |id o m h Go P Eh|id o h m Go P|id o p Go P|id o e p c Go P St|id o cb e c Go St|id o tok t0 cb e icc sent c Go F St|id o tok m ok closes c o1 evs1 Go F L St R
    |id o tok t0 cb e icc n c Go F St|e|b id o e ids n c Gc Ii Go St|b e n Gc|id|id o Go Cl|id o b Go|now t keys T St Ef|id keys T|id keys o T Go Cl|id keys o T Go Cl
    |id o Go Cp Cl Cb|id o t Go Cp St|id o Go Cp|msgid h]; try discriminate Ee; injection Ee as <- Er; try discriminate I; unfold work; cbn [set_fobj set_tc set_freg set_tick set_casts count_tok fi_objs fi_casts fi_tick];
    try (of_obj Go; unfold w_obj, at_pc, at_close in *; rewrite ?P, ?Cp in *; try destruct k; cbn in *; lia).
  - of_obj Go. unfold w_obj in *. rewrite P in *. destruct okk; cbn in *; lia.
  - of_obj Go. unfold w_obj in *. rewrite P in *. destruct oc; cbn in *; lia.
  - of_obj Go. unfold w_obj in *. rewrite P in *. cbn in *. rewrite (w_icc _ _ _ St) in *. lia.
  - of_obj Go. unfold w_obj in *. rewrite P in *. cbn in *. rewrite (w_take _ _ St) in *. destruct (taken _ _); cbn in *; lia.
  - of_obj Go. unfold w_obj in *. rewrite P in *. destruct h; cbn in *; lia.
  - of_obj Go. unfold w_obj in *. rewrite P in *. destruct p; cbn in *; lia.
  - of_obj Go. injection St as <-. unfold w_obj in *. rewrite P in *. cbn in *. lia.
  - of_obj Go. cbn in St. rewrite F in St. injection St as <-. unfold w_obj in *. cbn -[w_call] in *. pose proof (sum_del _ _ _ F) as Sd. change (w_call (Call t0 cb e icc None sent)) with 5%nat in Sd.
    assert ((w_call (Call tok cb e icc (Some (next_serial (ss_next (sc_sess (fo_cfg o))))) sent) <= 4)%nat) by (unfold w_call; cbn; destruct sent; lia). lia.
  - rewrite sum_cast_map. set (o2 := if closes then fshut o1 else o1). of_obj Go.
    assert (W : (w_obj o2 + 3 <= w_obj o)%nat).
    { unfold call_message in F. destruct (find_call (sc_calls (fo_cfg o)) tok) as [[t0 cb e icc [n|] [|]]|] eqn:Fc; try discriminate F. pose proof (sum_del _ _ _ Fc) as Sd. cbn in St. rewrite Fc in St.
      assert (Wc : (sum w_call (sc_calls c) + 3 <= sum w_call (sc_calls (fo_cfg o)))%nat).
      { change (w_call (Call t0 cb e icc (Some n) false)) with 4%nat in Sd. destruct ok; cbn in St; [destruct cb|]; injection St as <-; cbn -[w_call]; try change (w_call (Call tok true e icc (Some n) true)) with 1%nat; lia. }
      assert (W1 : fo_cfg o1 = c /\ fo_close o1 = fo_close o /\ (w_pc (fo_pc o1) <= w_pc (fo_pc o))%nat).
      { unfold returned in R. cbn in R. destruct (fo_pc o) as [| | | | | | |tok' p'| | | | | | |] eqn:Po; try (injection R as <- _; cbn; rewrite Po; auto; fail).
        destruct (tok' =? tok); injection R as <- _; cbn; [destruct p'; cbn; auto|rewrite Po; auto]. }
      destruct W1 as (W1 & W2 & W3). unfold w_obj, o2. destruct closes; cbn; rewrite W1, W2; lia. }
    assert (Le : (length ((if closes then [XShut id] else []) ++ evs1) <= 2)%nat).
    { rewrite app_length. assert (length evs1 <= 1)%nat by (unfold returned in R; cbn in R; destruct (fo_pc o) as [| | | | | | |tok' p'| | | | | | |]; try (injection R as _ <-; cbn; lia); destruct (tok' =? tok); injection R as _ <-; cbn; lia). destruct closes; cbn; lia. }
    cbn [length]. lia.
  - of_obj Go. cbn in St. rewrite F in St. injection St as <-. unfold w_obj in *. cbn -[w_call] in *. pose proof (sum_del _ _ _ F) as Sd. change (w_call (Call t0 cb e icc (Some n) true)) with 1%nat in Sd. lia.
  - of_obj Go. injection St as <-. pose proof (sum_cast_set _ _ _ (Cast e (remove Z.eq_dec id ids) (Some (id, fi_toks s)) n) Gc) as Sc. pose proof (remove_length _ _ Ii).
    unfold w_obj in *. cbn [fo_cfg with_cfg fo_pc fo_close set_calls sc_calls sum] in *. unfold w_cast at 2 4 in Sc. cbn [ca_left] in Sc. change (w_call {| cl_tok := fi_toks s; cl_cb := false; cl_ent := e; cl_icc := ss_icc (sc_sess (fo_cfg o)); cl_serial := None; cl_sent := false |}) with 5%nat in *. cbn [length]. lia.
  - pose proof (sum_cast_del _ _ _ Gc) as Sc. unfold w_cast at 2 in Sc. cbn [length ca_left] in *. lia.
  - rewrite T. destruct (mem (fi_reg s) id); cbn; lia.
  - rewrite T. cbn. lia.
  - of_obj Go. rewrite T. unfold w_obj in *. cbn in *. lia.
Qed.
Lemma ends_alone : forall more s s' e, forallb by_itself more = true -> frun s more = Ok (s', e) -> (work s' + length e <= work s)%nat.
Proof.
  induction more as [|op more IH]; intros s s' e B R; [injection R as <- <-; cbn; lia|]. cbn in B. apply andb_prop in B as [B1 B2]. cbn in R. unfold bind in R.
  destruct (fstep s op) as [[s1 e1]| |] eqn:E1; try discriminate. destruct (frun s1 more) as [[s2 e2]| |] eqn:E2; try discriminate. injection R as <- <-. rewrite app_length. specialize (IH _ _ _ B2 E2).
  destruct (itself_inner _ _ _ _ B1 E1) as [[-> ->]|(D & x & r & -> & I)]; [cbn; lia|]. pose proof (does_less _ _ _ _ D I). lia.
Qed.

(** ** Nothing moves any more *)
Definition at_rest (s : fine) : Prop := forall op, by_itself op = true -> exists s', fstep s op = Ok (s', []).
(** The steps that may be possible *)
Definition of_session (x : Z * fobj) : list fop :=
  let id := fst x in
  [FClock id 0; FDel id; FIns id; FAddCb id; FStored id true; FMerged id None; FReply id; FIcc id; FTake id; FLoad id; FRun id; FReturn id; FGone id; FRemove id; FClosed id] ++
  flat_map (fun c => [FAdd id (cl_tok c); FWire id (cl_tok c); FNext id (cl_tok c)]) (sc_calls (fo_cfg (snd x))).
Definition of_cast_op (x : Z * cast) : list fop := FCastEnd (fst x) :: map (FCastNext (fst x)) (ca_left (snd x)).
Definition candidates (s : fine) : list fop := FGet :: FTimeout :: flat_map of_session (fi_objs s) ++ flat_map of_cast_op (fi_casts s).
Definition no_move (s : fine) : Prop := forall op, In op (candidates s) -> exists s', fstep s op = Ok (s', []).
Lemma candidates_own s op : In op (candidates s) -> by_itself op = true.
Proof.
  intros [<-|[<-|I]]; [reflexivity|reflexivity|]. apply in_app_or in I as [I|I]; apply in_flat_map in I as (x & _ & I).
  - apply in_app_or in I as [I|I]; [cbn in I; repeat destruct I as [<-|I]; try reflexivity; contradiction|]. apply in_flat_map in I as (c & _ & I). cbn in I. repeat destruct I as [<-|I]; try reflexivity; contradiction.
  - destruct I as [<-|I]; [reflexivity|]. apply in_map_iff in I as (y & <- & _). reflexivity.
Qed.
Lemma fobj_get_in l id o : fobj_get l id = Some o -> In (id, o) l.
Proof. induction l as [|[i x] l IH]; cbn; [discriminate|]. destruct (Z.eqb_spec i id) as [->|]; [intro H; injection H as ->; auto|auto]. Qed.
Lemma cast_get_in l b c : cast_get l b = Some c -> In (b, c) l.
Proof. induction l as [|[i x] l IH]; cbn; [discriminate|]. destruct (Z.eqb_spec i b) as [->|]; [intro H; injection H as ->; auto|auto]. Qed.
Lemma find_call_in l tok c : find_call l tok = Some c -> In c l /\ cl_tok c = tok.
Proof. induction l as [|x l IH]; cbn; [discriminate|]. destruct (Z.eqb_spec (cl_tok x) tok); [intro H; injection H as ->; auto|]. intro H. destruct (IH H). auto. Qed.
Lemma may_session s id o op : fobj_get (fi_objs s) id = Some o -> In op (of_session (id, o)) -> In op (candidates s).
Proof. intros G I. do 2 right. apply in_or_app. left. apply in_flat_map. exists (id, o). split; [exact (fobj_get_in _ _ _ G)|exact I]. Qed.
Lemma may_call s id o tok c op : fobj_get (fi_objs s) id = Some o -> find_call (sc_calls (fo_cfg o)) tok = Some c -> In op [FAdd id tok; FWire id tok; FNext id tok] -> In op (candidates s).
Proof.
  intros G F I. apply (may_session s id o op G). apply in_or_app. right. destruct (find_call_in _ _ _ F) as (F1 & F2). apply in_flat_map. exists c. split; [exact F1|]. rewrite F2. exact I.
Qed.
Lemma may_cast s b c op : cast_get (fi_casts s) b = Some c -> In op (of_cast_op (b, c)) -> In op (candidates s).
Proof. intros G I. do 2 right. apply in_or_app. right. apply in_flat_map. exists (b, c). split; [exact (cast_get_in _ _ _ G)|exact I]. Qed.
Ltac may := solve [cbn; auto|eapply may_session; [eassumption|cbn; auto 20]|eapply may_call; [eassumption|eassumption|cbn; auto]|eapply may_cast; [eassumption|cbn; auto]].
Ltac stuck R op := let s1 := fresh "s1" in let E := fresh "E" in destruct (R op ltac:(may)) as (s1 & E); cbn -[sstep tstep] in E.
Ltac moves E := unfold bind in E; repeat match type of E with
  | match ?x with Ok _ => _ | Err _ => _ | Panic => _ end = _ => destruct x; try discriminate E
  | (let '(_, _) := ?x in _) = _ => destruct x
  end; discriminate E.
Lemma rest_pc s id o : no_move s -> fobj_get (fi_objs s) id = Some o -> match fo_pc o with GRecv | GEnd | GSend _ _ => True | _ => False end.
Proof.
  intros R Go. destruct (fo_pc o) as [k|k|k| | |m|e p|t p|m|m|m|m|h m|p|] eqn:P; try exact I.
  - stuck R (FClock id 0). rewrite Go, P in E. moves E.
  - stuck R (FDel id). rewrite Go, P in E. moves E.
  - stuck R (FIns id). rewrite Go, P in E. moves E.
  - stuck R (FAddCb id). rewrite Go, P in E. discriminate E.
  - stuck R (FStored id true). rewrite Go, P in E. discriminate E.
  - stuck R (FReply id). rewrite Go, P in E. unfold enter in E. cbn in E. discriminate E.
  - stuck R (FMerged id None). rewrite Go, P in E. discriminate E.
  - stuck R (FIcc id). rewrite Go, P in E. moves E.
  - stuck R (FTake id). rewrite Go, P in E. moves E.
  - stuck R (FLoad id). rewrite Go, P in E. discriminate E.
  - stuck R (FRun id). rewrite Go, P in E. discriminate E.
  - stuck R (FReturn id). rewrite Go, P in E. discriminate E.
Qed.
Lemma rest_call s id tok cb : no_move s -> ~ on_call s id tok cb.
Proof.
  intros R (o & c & Go & F & _). destruct c as [t0 cb0 e icc [n|] [|]].
  - stuck R (FAdd id tok). rewrite Go, F in E. cbn in E. rewrite F in E. discriminate E.
  - stuck R (FWire id tok). unfold call_message in E. rewrite Go, F in E. destruct (link_send o) as [ok closes]. moves E.
  - stuck R (FNext id tok). rewrite Go, F in E. moves E.
  - stuck R (FNext id tok). rewrite Go, F in E. moves E.
Qed.
Lemma rest_close s id o : no_move s -> fobj_get (fi_objs s) id = Some o -> fo_closed o = true -> fo_cb o = true -> fo_close o = COver.
Proof.
  intros R Go Cl Cb. destruct (fo_close o) eqn:P; [| | |reflexivity]; exfalso.
  - stuck R (FGone id). rewrite Go, P, Cl, Cb in E. discriminate E.
  - stuck R (FRemove id). rewrite Go, P in E. moves E.
  - stuck R (FClosed id). rewrite Go, P in E. discriminate E.
Qed.
Lemma rest_tick evs s : no_move s -> closing evs s -> fi_tick s = TKeys [].
Proof.
  intros R C. destruct (fi_tick s) as [[|k ks]|id ks] eqn:T; [reflexivity| |]; exfalso.
  - stuck R FGet. rewrite T in E. discriminate E.
  - stuck R FTimeout. rewrite T in E. pose proof (cg_found _ _ C _ _ T) as A. pose proof (cg_obj _ _ C id) as V. destruct (fobj_get (fi_objs s) id) as [o|]; [|destruct V; congruence].
    destruct (fclose _ _ _). discriminate E.
Qed.
Lemma rest_cast evs s b c : no_move s -> closing evs s -> casting evs s -> kept evs s -> cast_get (fi_casts s) b = Some c -> False.
Proof.
  intros R C Cs K G. destruct c as [e ids [[id tok]|] n].
  - exact (rest_call s id tok false R (ke_cur _ _ K _ _ _ _ G eq_refl)).
  - destruct ids as [|id ids].
    + stuck R (FCastEnd b). rewrite G in E. discriminate E.
    + stuck R (FCastNext b id). rewrite G in E. cbn in E. rewrite Z.eqb_refl in E. cbn [orb] in E.
      destruct (cs_known _ _ Cs _ _ G) as ((a & ids0 & rest & Ee & _ & P) & _ & _). cbn in P, Ee.
      pose proof (cg_rules _ _ C _ _ _ Ee) as (_ & H). assert (I : In id ids0) by (eapply Permutation_in; [exact P|apply in_or_app; right; left; reflexivity]). apply H in I.
      unfold here in I. apply andb_prop in I as [I _]. assert (A : accepted evs id = true) by (rewrite Ee; unfold accepted in *; rewrite existsb_app, I; reflexivity).
      pose proof (cg_obj _ _ C id) as V. destruct (fobj_get (fi_objs s) id) as [o|]; [|destruct V; congruence]. unfold enter in E. cbn in E. discriminate E.
Qed.

Record whole_state merging ka (evs : list fevent) (s : fine) : Prop := {
  ws_closing : closing evs s; ws_timing : timing ka evs s; ws_calling : calling evs s; ws_turning : turning merging evs s; ws_casting : casting evs s; ws_ticking : ticking evs s; ws_kept : kept evs s }.
Lemma rest_settled merging ka evs s : whole_state merging ka evs s -> no_move s -> settled merging evs.
Proof.
  intros [C _ Ca T Cs Ti K] R. split.
  - intros id tok cb e I. destruct (ke_calls _ _ K _ _ _ _ I) as [A|A]; [destruct (rest_call _ _ _ _ R A)|exact A].
  - intros b e ids I. destruct (ke_cast _ _ K _ _ _ I) as [A|A]; [|exact A]. destruct (cast_get (fi_casts s) b) as [c|] eqn:G; [destruct (rest_cast _ _ _ _ R C Cs K G)|congruence].
  - pose proof (tg_order _ _ Ti []) as H. rewrite (rest_tick _ _ R C), app_nil_r in H. apply H. exists []. auto.
  - intros id I. pose proof (tu_own _ _ _ T id) as P. pose proof (cg_obj _ _ C id) as V. assert (A : accepted evs id = true) by (apply existsb_exists; exists (XConnect id); split; [exact I|apply Z.eqb_refl]).
    destruct (fobj_get (fi_objs s) id) as [o|] eqn:Go; [|destruct V; congruence]. pose proof (rest_pc _ _ _ R Go) as Q.
    destruct (fo_pc o) as [k|k|k| | |m|e p|t p|m|m|m|m|h m|p|] eqn:Po; try contradiction.
    + destruct (P [] eq_refl) as (u & ok & turns & E & F). rewrite app_nil_r in E. exists u, ok, turns, []. rewrite app_nil_r. auto.
    + destruct (rest_call _ _ _ _ R (ke_send _ _ K _ _ _ _ Go Po)).
    + destruct P as (l0 & E & u & ok & turns & E' & F). exists u, ok, turns, [XFail id]. rewrite E, E', <- app_assoc. auto.
  - intros id I1 I2. pose proof (cg_obj _ _ C id) as V. unfold obj_view in V. assert (S2 : shut_in evs id = true) by (apply existsb_exists; exists (XShut id); split; [exact I2|apply Z.eqb_refl]).
    assert (H2 : hooked_in evs id = true) by (apply existsb_exists; exists (XAddCb id true); split; [exact I1|apply Z.eqb_refl]).
    destruct (fobj_get (fi_objs s) id) as [o|] eqn:Go; [|destruct V as (_ & V & _); congruence]. destruct V as (_ & V1 & V2 & V3). rewrite (rest_close _ _ _ R Go) in V3 by congruence.
    cbn in V3. injection V3 as _ _ V3. apply existsb_exists in V3 as (x & Ix & E). destruct x; try discriminate E. apply Z.eqb_eq in E. subst. exact Ix.
Qed.

Lemma whole_step merging ka evs s e s' : whole_state merging ka evs s -> does s e s' -> whole_state merging ka (evs ++ e) s'.
Proof.
  intros [C Ti Ca T Cs Tg K] D. split.
  - exact (closing_step _ _ _ _ C D).
  - exact (timing_step _ _ _ _ _ Ti D).
  - exact (calling_step _ _ _ _ Ca D).
  - exact (turning_step _ _ _ _ _ T D).
  - exact (casting_step _ _ _ _ (conj C (conj Ca Cs)) D).
  - exact (ticking_step _ _ _ _ Tg D).
  - exact (kept_step _ _ _ _ Ca K D).
Qed.
Lemma whole_init merging ka : whole_state merging ka [] (fine_init merging ka).
Proof. split; [apply closing_init|apply timing_init|apply calling_init|apply turning_init|apply casting_init|apply ticking_init|apply kept_init]. Qed.
Lemma whole_run merging ka ops s evs : fine_received ops -> frun (fine_init merging ka) ops = Ok (s, evs) -> whole_state merging ka evs s.
Proof. intros G R. exact (frun_keeps (whole_state merging ka) (fun a b c d => whole_step merging ka a b c d) ops [] _ _ _ (whole_init merging ka) G R). Qed.
Lemma ends merging ka ops s evs : fine_received ops -> frun (fine_init merging ka) ops = Ok (s, evs) ->
  exists n, forall more s' e, forallb by_itself more = true -> frun s more = Ok (s', e) -> (length e <= n)%nat.
Proof. intros _ _. exists (work s). intros more s' e B R. pose proof (ends_alone more s s' e B R). lia. Qed.
Lemma settles merging ka ops s evs : fine_received ops -> frun (fine_init merging ka) ops = Ok (s, evs) ->
  (forall op, by_itself op = true -> exists s', fstep s op = Ok (s', [])) -> settled merging evs.
Proof. intros G R H. apply (rest_settled merging ka evs s (whole_run _ _ _ _ _ G R)). intros op I. apply H, (candidates_own s), I. Qed.
Lemma moves_or_not ka evs s merging : whole_state merging ka evs s -> no_move s \/ exists op s' x e, by_itself op = true /\ fstep s op = Ok (s', x :: e).
Proof.
  intro W. assert (Go : forall op, In op (candidates s) -> exists s' e, fstep s op = Ok (s', e)).
  { intros op I. apply (fstep_fine ka evs s op (ws_timing _ _ _ _ W) (ws_calling _ _ _ _ W)). apply candidates_own in I. destruct op; try exact Logic.I; discriminate I. }
  assert (Own : forall op, In op (candidates s) -> by_itself op = true) by (intro op; apply candidates_own). unfold no_move. revert Go Own. generalize (candidates s). intro l.
  induction l as [|op l IH]; intros Go Own; [left; intros ? []|]. destruct (Go op (or_introl eq_refl)) as (s' & [|x e] & E).
  - destruct IH as [IH|IH]; [intros ? ?; apply Go; right; assumption|intros ? ?; apply Own; right; assumption| |right; exact IH]. left. intros op' [<-|I]; [exists s'; exact E|exact (IH op' I)].
  - right. exists op, s', x, e. split; [apply Own; left; reflexivity|exact E].
Qed.
Lemma can_settle_from merging ka : forall n s evs, (work s <= n)%nat -> whole_state merging ka evs s ->
  exists more s' e, forallb by_itself more = true /\ frun s more = Ok (s', e) /\ settled merging (evs ++ e).
Proof.
  induction n as [|n IH]; intros s evs L W; destruct (moves_or_not ka evs s merging W) as [Q|(op & s1 & x & e1 & B & E)].
  1, 3: exists [], s, []; split; [reflexivity|split; [reflexivity|rewrite app_nil_r; exact (rest_settled _ _ _ _ W Q)]].
  all: destruct (itself_inner _ _ _ _ B E) as [[_ X]|(D & y & r & Ey & I)]; [discriminate X|]; injection Ey as <- <-; pose proof (does_less _ _ _ _ D I) as Le; cbn [length] in Le; try lia.
  destruct (IH s1 (evs ++ x :: e1) ltac:(lia) (whole_step _ _ _ _ _ _ W D)) as (more & s' & e & B' & R & S).
  exists (op :: more), s', ((x :: e1) ++ e). split; [cbn; rewrite B; exact B'|]. split; [cbn; rewrite E; cbn; rewrite R; reflexivity|]. rewrite <- app_assoc in S. exact S.
Qed.
Lemma can_settle merging ka ops s evs : fine_received ops -> frun (fine_init merging ka) ops = Ok (s, evs) ->
  exists more s' e, forallb by_itself more = true /\ frun s more = Ok (s', e) /\ settled merging (evs ++ e).
Proof. intros G R. exact (can_settle_from merging ka (work s) s evs (le_n _) (whole_run _ _ _ _ _ G R)). Qed.
