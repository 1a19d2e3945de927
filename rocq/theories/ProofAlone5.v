(** Connections do not disturb each other, goroutine by goroutine: the server with one connection taken alone. *)
From Verif Require Import Base LibBase Env EntTerm EntPlat Registry Message Timer Session Server Fine World.
From Verif Require Import SpecSession SpecTimer SpecServer SpecFine SpecAlone2.
From Verif Require Import ProofTimer2 ProofTimer3 ProofFine ProofFine2 ProofFine3 ProofFine4 ProofFine5 ProofFine7 ProofFine8 ProofFine12 ProofFine13 ProofWorld2.

Definition cur_of (id : Z) (c : option (Z * Z)) : option (Z * Z) := match c with Some (i, t) => if i =? id then Some (i, t) else None | None => None end.
Definition tick_of (id : Z) (t : tpc) : tpc :=
  match t with
  | TKeys l => TKeys (filter (Z.eqb id) l)
  | TFound i l => if i =? id then TFound i (filter (Z.eqb id) l) else TKeys (filter (Z.eqb id) l)
  end.
Definition same_casts (id : Z) (l l' : list (Z * cast)) : Prop :=
  forall b c, cast_get l b = Some c -> exists n, cast_get l' b = Some (Cast (ca_ent c) (filter (Z.eqb id) (ca_left c)) (cur_of id (ca_cur c)) n).
Record like (id : Z) (s s' : fine) : Prop := {
  lk_auto : fi_auto s' = fi_auto s;
  lk_handlers : fi_handlers s' = fi_handlers s;
  lk_toks : fi_toks s' = fi_toks s;
  lk_obj : fobj_get (fi_objs s') id = fobj_get (fi_objs s) id;
  lk_none : forall i, i <> id -> fobj_get (fi_objs s') i = None;
  lk_reg : fi_reg s' = filter (Z.eqb id) (fi_reg s);
  lk_tick : fi_tick s' = tick_of id (fi_tick s);
  lk_casts : same_casts id (fi_casts s) (fi_casts s') }.

Lemma like_init id auto ka : like id (fine_init auto ka) (fine_init auto ka).
Proof. constructor; try reflexivity. intros b c E. discriminate E. Qed.

Section Like.
Variable id : Z.
Notation like := (like id).
Lemma like_set s s' o : like s s' -> like (set_fobj s id o) (set_fobj s' id o).
Proof.
  intros [A B C D E F G H]. constructor; cbn; auto.
  - rewrite !fobj_get_set, Z.eqb_refl. reflexivity.
  - intros i N. rewrite fobj_get_set. destruct (Z.eqb_spec id i); [congruence|auto].
Qed.
Lemma like_set_other s s' i o : i <> id -> like s s' -> like (set_fobj s i o) s'.
Proof. intros N [A B C D E F G H]. constructor; cbn; auto. rewrite fobj_get_set. destruct (Z.eqb_spec i id); [congruence|auto]. Qed.
Lemma like_tc s s' t t' : like s s' -> like (set_tc s t) (set_tc s' t').
Proof. intros [A B C D E F G H]. constructor; auto. Qed.
Lemma like_tc_l s s' t : like s s' -> like (set_tc s t) s'.
Proof. intros [A B C D E F G H]. constructor; auto. Qed.
Lemma like_count s s' : like s s' -> like (count_tok s) (count_tok s').
Proof. intros [A B C D E F G H]. constructor; cbn; auto. congruence. Qed.
Lemma like_casts s s' l l' : like s s' -> same_casts id l l' -> like (set_casts s l) (set_casts s' l').
Proof. intros [A B C D E F G H] K. constructor; auto. Qed.
Lemma like_casts_l s s' l : like s s' -> same_casts id l (fi_casts s') -> like (set_casts s l) s'.
Proof. intros [A B C D E F G H] K. constructor; auto. Qed.
Lemma like_reg s s' r r' : like s s' -> r' = filter (Z.eqb id) r -> like (set_freg s r) (set_freg s' r').
Proof. intros [A B C D E F G H] K. constructor; auto. Qed.
Lemma like_reg_l s s' r : like s s' -> fi_reg s' = filter (Z.eqb id) r -> like (set_freg s r) s'.
Proof. intros [A B C D E F G H] K. constructor; auto. Qed.
Lemma like_tick s s' t t' : like s s' -> t' = tick_of id t -> like (set_tick s t) (set_tick s' t').
Proof. intros [A B C D E F G H] K. constructor; auto. Qed.
Lemma like_tick_l s s' t : like s s' -> fi_tick s' = tick_of id t -> like (set_tick s t) s'.
Proof. intros [A B C D E F G H] K. constructor; auto. Qed.

(** Lists *)
Lemma mem_mine l : mem (filter (Z.eqb id) l) id = mem l id.
Proof.
  unfold mem. induction l as [|x l IH]; cbn; [reflexivity|]. rewrite (Z.eqb_sym x id). destruct (Z.eqb_spec id x) as [<-|N]; cbn; rewrite ?Z.eqb_refl; auto.
Qed.
Lemma filter_negb l : filter (fun i => negb (i =? id)) (filter (Z.eqb id) l) = filter (Z.eqb id) (filter (fun i => negb (i =? id)) l).
Proof. induction l as [|x l IH]; cbn; [reflexivity|]. destruct (Z.eqb_spec id x) as [<-|N]; cbn; rewrite ?Z.eqb_refl; cbn; auto. destruct (Z.eqb_spec x id); [congruence|]. cbn. destruct (Z.eqb_spec id x); [congruence|auto]. Qed.
Lemma filter_others i l : i <> id -> filter (Z.eqb id) (filter (fun x => negb (x =? i)) l) = filter (Z.eqb id) l.
Proof. intros N. induction l as [|x l IH]; cbn; [reflexivity|]. destruct (Z.eqb_spec x i) as [->|M]; cbn; destruct (Z.eqb_spec id i); try congruence; destruct (Z.eqb_spec id x); try congruence; rewrite ?IH; reflexivity. Qed.
Lemma remove_mine l : remove Z.eq_dec id (filter (Z.eqb id) l) = filter (Z.eqb id) (remove Z.eq_dec id l).
Proof. induction l as [|x l IH]; cbn; [reflexivity|]. destruct (Z.eqb_spec id x) as [<-|N]; cbn; [destruct (Z.eq_dec id id); congruence|]. destruct (Z.eq_dec id x); [congruence|]. cbn. destruct (Z.eqb_spec id x); [congruence|auto]. Qed.
Lemma remove_others i l : i <> id -> filter (Z.eqb id) (remove Z.eq_dec i l) = filter (Z.eqb id) l.
Proof. intros N. induction l as [|x l IH]; cbn; [reflexivity|]. destruct (Z.eq_dec i x) as [<-|M]; cbn; [destruct (Z.eqb_spec id i)|destruct (Z.eqb_spec id x)]; congruence. Qed.

(** Broadcasts *)
Lemma casts_wire l l' tok ok : same_casts id l l' -> same_casts id (map (cast_returned tok ok) l) (map (cast_returned tok ok) l').
Proof.
  intros H b c G. rewrite cast_get_map in G. destruct (cast_get l b) as [c0|] eqn:E; [|discriminate]. injection G as <-. destruct (H b c0 E) as (n & E'). rewrite cast_get_map, E'.
  unfold cast_returned. cbn [ca_cur]. destruct (ca_cur c0) as [[i t]|] eqn:Q; cbn [cur_of].
  - destruct (Z.eqb_spec i id) as [->|N].
    + destruct (t =? tok); cbn [snd ca_ent ca_left ca_cur cur_of]; rewrite ?Q; cbn [cur_of]; rewrite ?Z.eqb_refl; eauto.
    + destruct (t =? tok); cbn [snd ca_ent ca_left ca_cur cur_of]; rewrite ?Q; cbn [cur_of]; [eauto|]. destruct (Z.eqb_spec i id); [congruence|]. eauto.
  - cbn [snd ca_ent ca_left ca_cur]. rewrite Q. eauto.
Qed.
Lemma casts_wire_other l l' tok ok : (forall b c, cast_get l b = Some c -> ca_cur c <> Some (id, tok)) -> same_casts id l l' -> same_casts id (map (cast_returned tok ok) l) l'.
Proof.
  intros U H b c G. rewrite cast_get_map in G. destruct (cast_get l b) as [c0|] eqn:E; [|discriminate]. injection G as <-. destruct (H b c0 E) as (n & E'). rewrite E'. specialize (U b c0 E).
  unfold cast_returned. destruct (ca_cur c0) as [[i t]|] eqn:Q; cbn [cur_of].
  - destruct (Z.eqb_spec t tok) as [->|N]; cbn [snd ca_ent ca_left ca_cur]; [|rewrite Q; eauto]. destruct (Z.eqb_spec i id) as [->|M]; [congruence|]. cbn [cur_of]. eauto.
  - cbn [snd]. rewrite Q. eauto.
Qed.
Lemma casts_next l l' b e ids n tok : same_casts id l l' -> cast_get l b = Some (Cast e ids None n) ->
  exists n', cast_get l' b = Some (Cast e (filter (Z.eqb id) ids) None n') /\
    same_casts id (cast_set l b (Cast e (remove Z.eq_dec id ids) (Some (id, tok)) n)) (cast_set l' b (Cast e (remove Z.eq_dec id (filter (Z.eqb id) ids)) (Some (id, tok)) n')).
Proof.
  intros H E. destruct (H b _ E) as (n' & E'). cbn [ca_ent ca_left ca_cur cur_of] in E'. exists n'. split; [exact E'|]. intros b0 c. rewrite !cast_get_set, E, E'.
  destruct (b0 =? b); [|apply H]. intros X. injection X as <-. exists n'. cbn [ca_ent ca_left ca_cur cur_of]. rewrite Z.eqb_refl, remove_mine. reflexivity.
Qed.
Lemma casts_next_other l l' b e ids n tok i : i <> id -> same_casts id l l' -> cast_get l b = Some (Cast e ids None n) ->
  same_casts id (cast_set l b (Cast e (remove Z.eq_dec i ids) (Some (i, tok)) n)) l'.
Proof.
  intros N H E b0 c. rewrite cast_get_set, E. destruct (Z.eqb_spec b0 b) as [->|M]; [|apply H]. intros X. injection X as <-. destruct (H b _ E) as (n' & E'). cbn [ca_ent ca_left ca_cur cur_of] in *.
  exists n'. rewrite remove_others by exact N. destruct (Z.eqb_spec i id); [congruence|exact E'].
Qed.
Lemma casts_end l l' b : same_casts id l l' -> same_casts id (cast_del l b) l'.
Proof. intros H b0 c. rewrite cast_get_del. destruct (b0 =? b); [discriminate|apply H]. Qed.

(** ** A step of the connection is the same step when it is alone. *)
Lemma like_close s s' o : like s s' -> snd (fclose s' id o) = snd (fclose s id o) /\ like (fst (fclose s id o)) (fst (fclose s' id o)).
Proof. intros L. unfold fclose. destruct (fo_closed o); cbn; auto using like_set. Qed.
Ltac stay E E' := injection E as <- <-; injection E' as <- <-; split; [reflexivity|assumption].
Ltac go E E' := injection E as <- <-; injection E' as <- <-; split; [reflexivity|]; auto using like_set, like_tc, like_count.
Lemma same_step s s' op s1 e s1' e' : like s s' -> fstep_of op = Some id -> (forall b, op <> FCastNext b id) -> fstep s op = Ok (s1, e) -> fstep s' op = Ok (s1', e') -> e' = e /\ like s1 s1'.
Proof.
  intros L F NC E E'. pose proof (lk_obj _ _ _ L) as O. pose proof (lk_toks _ _ _ L) as T.
  destruct op; try discriminate F; injection F as ->; cbn [fstep] in E, E'; try rewrite O in E'.
  - destruct (fobj_get (fi_objs s) id) as [o|]; [stay E E'|]. injection E as <- <-. injection E' as <- <-. split; [reflexivity|]. apply like_reg; [apply like_set, L|].
    rewrite (lk_reg _ _ _ L). cbn. rewrite Z.eqb_refl. reflexivity.
  - destruct (fobj_get (fi_objs s) id) as [o|]; [|stay E E']. destruct (fo_pc o); try stay E E'. destruct (tstep (fi_tc s) _) as [t| |]; try discriminate. destruct (tstep (fi_tc s') _) as [t'| |]; try discriminate. cbn [bind] in *. go E E'.
  - destruct (fobj_get (fi_objs s) id) as [o|]; [|stay E E']. destruct (fo_pc o); try stay E E'. destruct (tstep (fi_tc s) _) as [t| |]; try discriminate. destruct (tstep (fi_tc s') _) as [t'| |]; try discriminate. cbn [bind] in *. go E E'.
  - destruct (fobj_get (fi_objs s) id) as [o|]; [|stay E E']. destruct (fo_pc o); try stay E E'. destruct (tstep (fi_tc s) _) as [t| |]; try discriminate. destruct (tstep (fi_tc s') _) as [t'| |]; try discriminate. cbn [bind] in *. go E E'.
  - destruct (fobj_get (fi_objs s) id) as [o|]; [|stay E E']. destruct (fo_pc o); try stay E E'. go E E'.
  - destruct (fobj_get (fi_objs s) id) as [o|]; [|stay E E']. destruct (fo_pc o); try stay E E'. rewrite (lk_auto _ _ _ L) in E'. destruct (on_message (fi_auto s) m); try discriminate. cbn [bind] in *. go E E'.
  - destruct (fobj_get (fi_objs s) id) as [o|]; [|stay E E']. destruct (fo_pc o); try stay E E'. go E E'.
  - destruct (fobj_get (fi_objs s) id) as [o|]; [|stay E E']. destruct (fo_pc o); try stay E E'. go E E'.
  - destruct (fobj_get (fi_objs s) id) as [o|]; [|stay E E']. destruct (fo_pc o); try stay E E'.
    pose proof (like_close _ _ (at_pc o GEnd) (like_set _ _ (at_pc o GEnd) L)) as [Q1 Q2].
    destruct (fclose (set_fobj s id (at_pc o GEnd)) id (at_pc o GEnd)) as [a x]. destruct (fclose (set_fobj s' id (at_pc o GEnd)) id (at_pc o GEnd)) as [a' x']. cbn [fst snd] in *. subst x'. go E E'.
  - destruct (fobj_get (fi_objs s) id) as [o|]; [|stay E E']. destruct (fo_pc o); try stay E E'. destruct (sstep _ _); try discriminate. cbn [bind] in *. go E E'.
  - destruct (fobj_get (fi_objs s) id) as [o|]; [|stay E E']. destruct (fo_pc o); try stay E E'. destruct (sstep _ _); try discriminate. cbn [bind] in *. go E E'.
  - destruct (fobj_get (fi_objs s) id) as [o|]; [|stay E E']. destruct (fo_pc o); try stay E E'. rewrite (lk_handlers _ _ _ L) in E'. go E E'.
  - destruct (fobj_get (fi_objs s) id) as [o|]; [|stay E E']. destruct (fo_pc o); try stay E E'. go E E'.
  - destruct (fobj_get (fi_objs s) id) as [o|]; [|stay E E']. destruct (fo_pc o); try stay E E'. go E E'.
  - destruct (fobj_get (fi_objs s) id) as [o|]; [|stay E E']. destruct (fo_pc o); try stay E E'. unfold enter in *. rewrite T in E'. destruct (sstep _ _); try discriminate. cbn [bind] in *. go E E'.
  - destruct (fobj_get (fi_objs s) id) as [o|]; [|stay E E']. unfold enter in *. rewrite T in E'. destruct (sstep _ _); try discriminate. cbn [bind] in *. go E E'.
  - destruct (fobj_get (fi_objs s) id) as [o|]; [|stay E E']. destruct (find_call _ _) as [[t0 cb en icc [n|] snt]|]; try stay E E'. destruct (sstep _ _); try discriminate. cbn [bind] in *. go E E'.
  - destruct (fobj_get (fi_objs s) id) as [o|]; [|stay E E']. destruct (call_message _ _) as [m|]; [|stay E E']. destruct (link_send o) as [ok cl]. destruct (sstep _ _); try discriminate. cbn [bind] in *.
    destruct (returned _ _ _) as [o1 ev]. injection E as <- <-. injection E' as <- <-. split; [reflexivity|]. apply like_casts; [apply like_set, L|]. apply casts_wire, (lk_casts _ _ _ L).
  - destruct (fobj_get (fi_objs s) id) as [o|]; [|stay E E']. destruct (find_call _ _) as [[t0 cb en icc [n|] [|]]|]; try stay E E'. destruct (sstep _ _); try discriminate. cbn [bind] in *. go E E'.
  - destruct (NC b eq_refl).
  - injection E as <- <-. injection E' as <- <-. rewrite (lk_reg _ _ _ L), mem_mine. split; [reflexivity|exact L].
  - destruct (fobj_get (fi_objs s) id) as [o|]; [|stay E E']. pose proof (like_close _ _ o L) as [Q1 Q2]. destruct (fclose s id o) as [a x]. destruct (fclose s' id o) as [a' x']. cbn [fst snd] in *. subst x'. go E E'.
  - destruct (fobj_get (fi_objs s) id) as [o|]; [|stay E E']. go E E'.
  - destruct (fobj_get (fi_objs s) id) as [o|]; [|stay E E']. destruct (fo_close o); try stay E E'. destruct (fo_closed o && fo_cb o); [|stay E E']. injection E as <- <-. injection E' as <- <-. split; [reflexivity|].
    apply like_reg; [apply like_set, L|]. rewrite (lk_reg _ _ _ L). apply filter_negb.
  - destruct (fobj_get (fi_objs s) id) as [o|]; [|stay E E']. destruct (fo_close o); try stay E E'. destruct (tstep (fi_tc s) _) as [t| |]; try discriminate. destruct (tstep (fi_tc s') _) as [t'| |]; try discriminate. cbn [bind] in *. go E E'.
  - destruct (fobj_get (fi_objs s) id) as [o|]; [|stay E E']. destruct (fo_close o); try stay E E'. go E E'.
Qed.
Lemma same_cast s s' b s1 e : like s s' -> fstep s (FCastNext b id) = Ok (s1, e) ->
  (s1 = s /\ e = []) \/ exists s1', fstep s' (FCastNext b id) = Ok (s1', e) /\ like s1 s1'.
Proof.
  intros L E. cbn [fstep] in *. destruct (cast_get (fi_casts s) b) as [[en ids [cur|] n]|] eqn:G; try (injection E as <- <-; auto; fail).
  destruct (mem ids id) eqn:M; [|injection E as <- <-; auto]. destruct (fobj_get (fi_objs s) id) as [o|] eqn:Go; [|injection E as <- <-; auto].
  destruct (casts_next _ _ b en ids n (fi_toks s) (lk_casts _ _ _ L) G) as (n' & G' & K). right. rewrite G', mem_mine, M, (lk_obj _ _ _ L), Go. unfold enter in *. rewrite (lk_toks _ _ _ L).
  destruct (sstep _ _); try discriminate. cbn [bind] in *. injection E as <- <-. eexists. split; [reflexivity|]. apply like_casts; [apply like_set, like_count, L|exact K].
Qed.

(** ** A step of another connection is none. *)
Definition takes_name (op : fop) : bool := match op with FReply _ | FStart _ _ _ | FCastNext _ _ => true | _ => false end.
Definition other_events (e : list fevent) : Prop := Forall (fun x => exists i, whose x = Some i /\ i <> id) e.
Ltac idle E := injection E as <- <-; split; [constructor|left; assumption].
Ltac own N := constructor; [eexists; split; [reflexivity|exact N]|].
Ltac go1 E N := injection E as <- <-; split; [repeat own N; constructor|left; auto using like_set_other, like_tc_l].
Definition names_kept (s : fine) : Prop := forall j o tok c b c0, fobj_get (fi_objs s) j = Some o -> find_call (sc_calls (fo_cfg o)) tok = Some c ->
  cast_get (fi_casts s) b = Some c0 -> ca_cur c0 = Some (id, tok) -> j = id.
Lemma whole_names merging ka evs s : whole_state merging ka evs s -> names_kept s.
Proof.
  intros [C _ Ca T Cs Ti K] j o tok c b c0 Go F G U. destruct (ke_cur _ _ K _ _ _ _ G U) as (o' & c' & Go' & F' & _).
  assert (X : forall i x y, fobj_get (fi_objs s) i = Some x -> find_call (sc_calls (fo_cfg x)) tok = Some y -> In tok (names_on i evs)).
  { intros i x y Gx Fx. pose proof (ca_obj _ _ Ca i) as V. rewrite Gx in V. destruct V as (V & _ & _). apply (tk_live_in _ _ _ V), in_or_app. left. exact (call_live _ _ _ Fx). }
  exact (names_apart evs j id tok (ca_names _ _ Ca) (X _ _ _ Go F) (X _ _ _ Go' F')).
Qed.
Lemma others_step s s' op s1 e i : like s s' -> names_kept s -> fstep_of op = Some i -> i <> id -> fstep s op = Ok (s1, e) ->
  other_events e /\ (like s1 s' \/ (takes_name op = true /\ like s1 (count_tok s'))).
Proof.
  intros L NK F N E. destruct op; try discriminate F; injection F as ->; cbn [fstep] in E.
  - destruct (fobj_get (fi_objs s) i) as [o|]; [idle E|]. injection E as <- <-. split; [own N; constructor|]. left. apply like_reg_l; [apply like_set_other; auto|].
    rewrite (lk_reg _ _ _ L). cbn. destruct (Z.eqb_spec id i); [congruence|reflexivity].
  - destruct (fobj_get (fi_objs s) i) as [o|]; [|idle E]. destruct (fo_pc o); try idle E. destruct (tstep (fi_tc s) _) as [t| |]; try discriminate. cbn [bind] in *. go1 E N.
  - destruct (fobj_get (fi_objs s) i) as [o|]; [|idle E]. destruct (fo_pc o); try idle E. destruct (tstep (fi_tc s) _) as [t| |]; try discriminate. cbn [bind] in *. go1 E N.
  - destruct (fobj_get (fi_objs s) i) as [o|]; [|idle E]. destruct (fo_pc o); try idle E. destruct (tstep (fi_tc s) _) as [t| |]; try discriminate. cbn [bind] in *. go1 E N.
  - destruct (fobj_get (fi_objs s) i) as [o|]; [|idle E]. destruct (fo_pc o); try idle E. go1 E N.
  - destruct (fobj_get (fi_objs s) i) as [o|]; [|idle E]. destruct (fo_pc o); try idle E. destruct (on_message (fi_auto s) m); try discriminate. cbn [bind] in *. go1 E N.
  - destruct (fobj_get (fi_objs s) i) as [o|]; [|idle E]. destruct (fo_pc o); try idle E. go1 E N.
  - destruct (fobj_get (fi_objs s) i) as [o|]; [|idle E]. destruct (fo_pc o); try idle E. go1 E N.
  - destruct (fobj_get (fi_objs s) i) as [o|]; [|idle E]. destruct (fo_pc o); try idle E. unfold fclose in E. destruct (fo_closed (at_pc o GEnd)); go1 E N.
  - destruct (fobj_get (fi_objs s) i) as [o|]; [|idle E]. destruct (fo_pc o); try idle E. destruct (sstep _ _); try discriminate. cbn [bind] in *. go1 E N.
  - destruct (fobj_get (fi_objs s) i) as [o|]; [|idle E]. destruct (fo_pc o); try idle E. destruct (sstep _ _); try discriminate. cbn [bind] in *. go1 E N.
  - destruct (fobj_get (fi_objs s) i) as [o|]; [|idle E]. destruct (fo_pc o); try idle E. go1 E N.
  - destruct (fobj_get (fi_objs s) i) as [o|]; [|idle E]. destruct (fo_pc o); try idle E. go1 E N.
  - destruct (fobj_get (fi_objs s) i) as [o|]; [|idle E]. destruct (fo_pc o); try idle E. go1 E N.
  - destruct (fobj_get (fi_objs s) i) as [o|]; [|idle E]. destruct (fo_pc o); try idle E. unfold enter in *. destruct (sstep _ _); try discriminate. cbn [bind] in *.
    injection E as <- <-. split; [own N; constructor|]. right. auto using like_set_other, like_count.
  - destruct (fobj_get (fi_objs s) i) as [o|]; [|idle E]. unfold enter in *. destruct (sstep _ _); try discriminate. cbn [bind] in *.
    injection E as <- <-. split; [own N; constructor|]. right. auto using like_set_other, like_count.
  - destruct (fobj_get (fi_objs s) i) as [o|]; [|idle E]. destruct (find_call _ _) as [[t0 cb en icc [n|] snt]|]; try idle E. destruct (sstep _ _); try discriminate. cbn [bind] in *. go1 E N.
  - destruct (fobj_get (fi_objs s) i) as [o|] eqn:Go; [|idle E]. destruct (call_message _ _) as [m|] eqn:CM; [|idle E]. destruct (link_send o) as [ok cl]. destruct (sstep _ _) as [c| |]; try discriminate. cbn [bind] in *.
    destruct (returned _ _ _) as [o1 ev] eqn:RT. injection E as <- <-. split.
    + assert (EV : ev = [] \/ ev = [XReplied i tok]). { unfold returned in RT. destruct (fo_pc (with_cfg o c)); try (injection RT as <- <-; auto; fail). destruct (_ =? _); injection RT as <- <-; auto. }
      own N. apply Forall_app. split; [destruct cl; repeat own N; constructor|]. destruct EV as [-> | ->]; repeat own N; constructor.
    + left. apply like_casts_l; [apply like_set_other; auto|]. apply casts_wire_other; [|exact (lk_casts _ _ _ L)]. intros b c0 G U.
      unfold call_message in CM. destruct (find_call _ _) as [c1|] eqn:FC; [|discriminate]. exact (N (NK _ _ _ _ _ _ Go FC G U)).
  - destruct (fobj_get (fi_objs s) i) as [o|]; [|idle E]. destruct (find_call _ _) as [[t0 cb en icc [n|] [|]]|]; try idle E. destruct (sstep _ _); try discriminate. cbn [bind] in *. go1 E N.
  - destruct (cast_get (fi_casts s) b) as [[en ids [cur|] n]|] eqn:G; try idle E. destruct (mem ids i); [|idle E]. destruct (fobj_get (fi_objs s) i) as [o|]; [|idle E]. unfold enter in *. destruct (sstep _ _); try discriminate. cbn [bind] in *.
    injection E as <- <-. split; [own N; constructor|]. right. split; [reflexivity|]. apply like_casts_l; [apply like_set_other; auto using like_count|]. cbn [fi_casts count_tok]. eapply casts_next_other; eauto. exact (lk_casts _ _ _ L).
  - go1 E N.
  - destruct (fobj_get (fi_objs s) i) as [o|]; [|idle E]. unfold fclose in E. destruct (fo_closed o); go1 E N.
  - destruct (fobj_get (fi_objs s) i) as [o|]; [|idle E]. go1 E N.
  - destruct (fobj_get (fi_objs s) i) as [o|]; [|idle E]. destruct (fo_close o); try idle E. destruct (fo_closed o && fo_cb o); [|idle E]. injection E as <- <-. split; [own N; constructor|]. left.
    apply like_reg_l; [apply like_set_other; auto|]. rewrite (lk_reg _ _ _ L), filter_others; auto.
  - destruct (fobj_get (fi_objs s) i) as [o|]; [|idle E]. destruct (fo_close o); try idle E. destruct (tstep (fi_tc s) _) as [t| |]; try discriminate. cbn [bind] in *. go1 E N.
  - destruct (fobj_get (fi_objs s) i) as [o|]; [|idle E]. destruct (fo_close o); try idle E. go1 E N.
Qed.
(** A Broadcast that only takes a name *)
Lemma like_dummy s1 s' e : like s1 (count_tok s') -> (forall b c, cast_get (fi_casts s1) b = Some c -> b < fi_toks s') ->
  exists s2 ev, fstep s' (FCast e) = Ok (s2, ev) /\ flat_map (felt id) ev = [] /\ like s1 s2.
Proof.
  intros L B. cbn [fstep]. eexists _, _. split; [reflexivity|]. split; [reflexivity|]. destruct L as [A1 A2 A3 A4 A5 A6 A7 A8]. constructor; auto. cbn [set_casts fi_casts].
  intros b c G. specialize (B _ _ G). destruct (A8 b c G) as (n & G'). exists n. cbn [cast_get]. destruct (Z.eqb_spec (fi_toks s') b); [lia|exact G'].
Qed.

(** ** Steps of the server as a whole *)
Lemma due_felt ka evs : fst (due_state ka evs) id = fst (due_state ka (flat_map (felt id) evs)) id /\ snd (due_state ka evs) id = snd (due_state ka (flat_map (felt id) evs)) id.
Proof.
  induction evs as [|x evs (IH1 & IH2)] using rev_ind; [auto|]. rewrite flat_map_app. cbn [flat_map]. rewrite app_nil_r, due_snoc. destruct (timed x) eqn:T.
  - assert (X : felt id x = [] \/ exists y, felt id x = [y] /\ forall a b : (Z -> Z) * dls, fst a id = fst b id -> snd a id = snd b id -> fst (due_event ka a x) id = fst (due_event ka b y) id /\ snd (due_event ka a x) id = snd (due_event ka b y) id).
    { destruct x; try discriminate T; cbn [felt whose]; try (destruct (Z.eqb_spec id0 id) as [->|N]; [right|left; reflexivity]); try right;
      eexists; (split; [reflexivity|]); intros a b A B; cbn [due_event fst snd]; unfold put, without_expired, expired; rewrite ?Z.eqb_refl, ?A, ?B; auto. }
    destruct X as [X|(y & X & Y)].
    + rewrite X, app_nil_r, <- IH1, <- IH2. destruct x; try discriminate T; cbn [felt whose] in X; try discriminate X; destruct (Z.eqb_spec id0 id) as [->|N]; try discriminate X; cbn [due_event fst snd]; unfold put; auto;
      destruct (Z.eqb_spec id id0); try congruence; auto.
    + rewrite X, due_snoc. apply Y; auto.
  - assert (E : forall st, due_event ka st x = st) by (intros st; destruct x; try discriminate T; reflexivity). rewrite E.
    assert (F : due_state ka (flat_map (felt id) evs ++ felt id x) = due_state ka (flat_map (felt id) evs)).
    { assert (G : Forall (fun y => timed y = false) (felt id x)) by (destruct x; try discriminate T; cbn [felt whose]; repeat match goal with |- context [if ?b then _ else _] => destruct b end; auto).
      revert G. generalize (flat_map (felt id) evs). induction (felt id x) as [|y l IHl]; intros a G; [rewrite app_nil_r; reflexivity|]. inversion G; subst. change (a ++ y :: l) with (a ++ [y] ++ l). rewrite app_assoc, IHl by assumption. apply due_untimed; assumption. }
    rewrite F. auto.
Qed.
Lemma due_some ka evs k d : snd (due_state ka evs) k = Some d -> In (XIns k) evs.
Proof.
  induction evs as [|x evs IH] using rev_ind; [discriminate|]. rewrite due_snoc. intros E. apply in_or_app. destruct x; cbn [due_event snd] in E; auto.
  - unfold put in E. destruct (k =? id0); [discriminate|auto].
  - unfold put in E. destruct (Z.eqb_spec k id0) as [->|]; [right; left; reflexivity|auto].
  - unfold without_expired in E. destruct (expired _ _ _); [discriminate|auto].
  - unfold put in E. destruct (k =? id0); [discriminate|auto].
Qed.
Lemma nodup_one l : NoDup l -> (forall k, In k l -> k = id) -> l = filter (Z.eqb id) l /\ (l = [] \/ l = [id]).
Proof.
  intros N H. destruct l as [|a l]; [auto|]. pose proof (H a (or_introl eq_refl)) as ->. destruct l as [|b l]; [cbn; rewrite Z.eqb_refl; auto|]. pose proof (H b (or_intror (or_introl eq_refl))) as ->. inversion N as [|? ? X _]; subst. destruct X. left. reflexivity.
Qed.
Lemma nodup_filter l : NoDup l -> filter (Z.eqb id) l = if existsb (Z.eqb id) l then [id] else [].
Proof.
  induction 1 as [|x l X N IH]; [reflexivity|]. cbn. destruct (Z.eqb_spec id x) as [<-|M]; cbn; [|exact IH]. rewrite IH. destruct (existsb (Z.eqb id) l) eqn:E; [|reflexivity].
  apply existsb_exists in E as (y & I & Y). apply Z.eqb_eq in Y. subst y. contradiction.
Qed.
Lemma keys_alone merging ka evs evs' s s' now keys keys' : like s s' -> whole_state merging ka evs' s' -> flat_map (felt id) evs' = flat_map (felt id) evs ->
  fires (due ka evs) now keys -> fires (due ka evs') now keys' -> keys' = filter (Z.eqb id) keys.
Proof.
  intros L W F (N & I & _) (N' & I' & _).
  assert (X : forall k, In k keys' -> k = id).
  { intros k K. destruct (Z.eq_dec k id) as [|M]; [assumption|]. apply I' in K. unfold expired in K. destruct (due ka evs' k) as [d|] eqn:D; [|discriminate]. apply (due_some ka evs') in D.
    pose proof (tu_own _ _ _ (ws_turning _ _ _ _ W) k) as O. rewrite (lk_none _ _ _ L k M) in O. assert (Y : In (XIns k) (filter (own k) evs')) by (apply filter_In; split; [exact D|apply Z.eqb_refl]). rewrite O in Y. contradiction. }
  assert (Y : existsb (Z.eqb id) keys = existsb (Z.eqb id) keys').
  { apply eq_true_iff_eq. rewrite !existsb_exists.
    assert (Z0 : In id keys <-> In id keys').
    { rewrite I, I'. unfold expired. destruct (due_felt ka evs) as (_ & D). destruct (due_felt ka evs') as (_ & D'). rewrite F, <- D in D'. change (due ka evs id) with (snd (due_state ka evs) id). change (due ka evs' id) with (snd (due_state ka evs') id). rewrite D'. tauto. }
    split; intros (y & A & B); apply Z.eqb_eq in B; subst y; exists id; rewrite Z.eqb_refl; tauto. }
  rewrite (proj1 (nodup_one keys' N' X)), (nodup_filter keys N), (nodup_filter keys' N'), Y. reflexivity.
Qed.
Lemma server_step merging ka evs evs' s s' op s1 e : like s s' -> reached merging ka evs s -> reached merging ka evs' s' -> flat_map (felt id) evs' = flat_map (felt id) evs ->
  fstep_of op = None -> fstep s op = Ok (s1, e) ->
  (like s1 s' /\ flat_map (felt id) e = []) \/ exists s1' e', fstep s' op = Ok (s1', e') /\ like s1 s1' /\ flat_map (felt id) e' = flat_map (felt id) e.
Proof.
  intros L R R' F O E. assert (G : good_op op) by (destruct op; try discriminate O; exact I). destruct op; try discriminate O; cbn [fstep] in E.
  - injection E as <- <-. right. eexists _, _. split; [reflexivity|]. split; [|reflexivity]. rewrite (lk_toks _ _ _ L), (lk_reg _ _ _ L). apply like_casts; [apply like_count, L|]. intros b c. cbn [cast_get].
    destruct (_ =? b); [|apply (lk_casts _ _ _ L)]. intros X. injection X as <-. exists 0. reflexivity.
  - left. destruct (cast_get (fi_casts s) b) as [[en [|] [cur|] n]|]; try (injection E as <- <-; auto; fail). injection E as <- <-. split; [|reflexivity]. apply like_casts_l; [exact L|]. apply casts_end, (lk_casts _ _ _ L).
  - destruct (fi_tick s) as [[|k0 ks]|k0 ks] eqn:T; try (left; injection E as <- <-; auto; fail). right.
    destruct (tstep (fi_tc s) (TTick now)) as [t| |] eqn:TS; try discriminate. cbn [bind] in E. injection E as <- <-.
    destruct (reached_step _ _ _ _ _ R' G) as (s1' & e' & E'). pose proof E' as E0. cbn [fstep] in E0. rewrite (lk_tick _ _ _ L), T in E0. cbn [tick_of filter] in E0.
    destruct (tstep (fi_tc s') (TTick now)) as [t'| |] eqn:TS'; try discriminate. cbn [bind] in E0. injection E0 as <- <-. exists (set_tick (set_tc s' t') (TKeys match tc_fired t' with (_, ks) :: _ => ks | [] => [] end)). eexists. split; [exact E'|].
    destruct (tick_fired _ _ _ TS) as (keys & KF). destruct (tick_fired _ _ _ TS') as (keys' & KF'). rewrite KF, KF' in *.
    assert (E1 : fstep s (FTick now) = Ok (set_tick (set_tc s t) (TKeys keys), [XTick now keys])) by (cbn [fstep]; rewrite T, TS; cbn [bind]; rewrite KF; reflexivity).
    assert (FI : forall ev st st' k, reached merging ka ev st -> fstep st (FTick now) = Ok (st', [XTick now k]) -> fires (due ka ev) now k).
    { intros ev st st' k RR EE. assert (RR1 : reached merging ka (ev ++ [XTick now k]) st') by (eapply (reached_more merging ka ev st [FTick now]); [exact RR|constructor; auto|cbn [frun]; rewrite EE; reflexivity]).
      apply reached_whole in RR1. exact (ti_rules _ _ _ (ws_timing _ _ _ _ RR1) ev (XTick now k) [] eq_refl). }
    assert (KK : keys' = filter (Z.eqb id) keys) by (eapply keys_alone; [exact L|exact (reached_whole _ _ _ _ R')|exact F|exact (FI _ _ _ _ R E1)|exact (FI _ _ _ _ R' E')]).
    split.
    + apply like_tick; [apply like_tc, L|]. cbn [tick_of]. rewrite KK. reflexivity.
    + cbn [flat_map felt]. rewrite KK. assert (FF : filter (Z.eqb id) (filter (Z.eqb id) keys) = filter (Z.eqb id) keys) by (clear; induction keys as [|x l IH]; cbn; [reflexivity|]; destruct (Z.eqb id x) eqn:X; cbn; rewrite ?X, ?IH; reflexivity). rewrite FF. reflexivity.
  - destruct (fi_tick s) as [[|k0 ks]|k0 ks] eqn:T; try (left; injection E as <- <-; auto; fail). injection E as <- <-. destruct (Z.eq_dec k0 id) as [->|N].
    + right. cbn [fstep]. rewrite (lk_tick _ _ _ L), T. cbn [tick_of filter]. rewrite Z.eqb_refl. eexists _, _. split; [reflexivity|]. rewrite (lk_reg _ _ _ L), mem_mine. split; [|reflexivity].
      apply like_tick; [exact L|]. destruct (mem (fi_reg s) id); cbn [tick_of]; rewrite ?Z.eqb_refl; reflexivity.
    + left. split; [|cbn; destruct (Z.eqb_spec k0 id); [congruence|reflexivity]]. apply like_tick_l; [exact L|]. rewrite (lk_tick _ _ _ L), T. cbn [tick_of filter]. destruct (Z.eqb_spec id k0); [congruence|].
      destruct (mem (fi_reg s) k0); cbn [tick_of]; [destruct (Z.eqb_spec k0 id); [congruence|reflexivity]|reflexivity].
  - destruct (fi_tick s) as [[|k0 ks]|k0 ks] eqn:T; try (left; injection E as <- <-; auto; fail). destruct (fobj_get (fi_objs s) k0) as [o|] eqn:Go; [|left; injection E as <- <-; auto]. destruct (Z.eq_dec k0 id) as [->|N].
    + right. cbn [fstep]. rewrite (lk_tick _ _ _ L), T. cbn [tick_of]. rewrite Z.eqb_refl, (lk_obj _ _ _ L), Go.
      assert (L1 : like (set_tick s (TKeys ks)) (set_tick s' (TKeys (filter (Z.eqb id) ks)))) by (apply like_tick; [exact L|reflexivity]).
      destruct (like_close _ _ o L1) as [Q1 Q2]. destruct (fclose (set_tick s (TKeys ks)) id o) as [a x]. destruct (fclose (set_tick s' _) id o) as [a' x']. cbn [fst snd] in *. subst x'. injection E as <- <-.
      eexists _, _. split; [reflexivity|]. auto.
    + left. assert (L1 : like (set_tick s (TKeys ks)) s') by (apply like_tick_l; [exact L|]; rewrite (lk_tick _ _ _ L), T; cbn [tick_of]; destruct (Z.eqb_spec k0 id); [congruence|reflexivity]).
      unfold fclose in E. destruct (fo_closed o); injection E as <- <-; split; try (apply like_set_other; auto); try exact L1; cbn; destruct (Z.eqb_spec k0 id); try congruence; reflexivity.
  - injection E as <- <-. right. eexists _, _. split; [reflexivity|]. split; [|reflexivity]. destruct L. constructor; cbn; auto. congruence.
Qed.
End Like.
