(** The whole process goroutine by goroutine: what a step of the server does to the session of a connection. *)
From Verif Require Import Base LibBase Env EntTerm EntPlat Registry Message Codec Timer Session Multipart Server Host Overlap Fine World.
From Verif Require Import SpecGeo SpecEntity SpecMsg SpecStream SpecSession SpecMulti SpecTimer SpecServer SpecFine SpecHost SpecWorld.
From Verif Require Import ProofServer4 ProofHost ProofHost2 ProofFine ProofFine2 ProofFine6 ProofFine13.

(** ** Lists of events *)
Lemma inside_app a b : inside (a ++ b) = inside a ++ inside b. Proof. apply flat_map_app. Qed.
Lemma inside_fine e : inside (map WFine e) = e. Proof. induction e as [|x e IH]; [reflexivity|]. cbn. f_equal. exact IH. Qed.
Lemma came_app id a b : came id (a ++ b) = came id a ++ came id b. Proof. apply flat_map_app. Qed.
Lemma came_fine id e : came id (map WFine e) = []. Proof. induction e as [|x e IH]; auto. Qed.
Lemma wrote_app id a b : wrote id (a ++ b) = wrote id a ++ wrote id b. Proof. apply flat_map_app. Qed.
Lemma wrote_fine id e : wrote id (map WFine e) = []. Proof. induction e as [|x e IH]; auto. Qed.
Lemma got_app id a b : got_by id (a ++ b) = got_by id a ++ got_by id b. Proof. apply flat_map_app. Qed.
Lemma handed_app id a b : handed id (a ++ b) = handed id a ++ handed id b. Proof. apply flat_map_app. Qed.

(** ** One session under a step of the server *)
Definition fails (id : Z) (e : list fevent) : bool := existsb (fun ev => match ev with XFail i => i =? id | _ => false end) e.
Record effect_on (id : Z) (o o' : fobj) (e : list fevent) : Prop := {
  ef_closed : fo_closed o = true -> fo_closed o' = true;
  ef_full : fo_full o' = fo_full o;
  ef_hand : handed id e = [] \/ exists m, handed id e = [m] /\ fo_full o = false /\ fo_closed o = false /\ plain_msg m;
  ef_end : fo_pc o = GEnd -> fo_pc o' = GEnd;
  ef_recv : got_by id e = [] -> fails id e = false -> fo_pc o = GRecv -> fo_pc o' = GRecv;
  ef_stay : fails id e = false -> fo_pc o' = GEnd -> fo_pc o = GEnd }.
Lemma effect_refl id o e : handed id e = [] -> effect_on id o o e.
Proof. intro H. constructor; auto. Qed.
Lemma on_message_stays auto m p : on_message auto m = Ok p -> p <> GEnd.
Proof.
  unfold on_message. destruct (m_body m) as [|n|b]; try (intro H; injection H as <-; discriminate). destruct (_ || _); [intro H; injection H as <-; discriminate|].
  destruct b; try (intro H; injection H as <-; discriminate). destruct (h_packet _); [|discriminate]. destruct (a0801_packet _); [|discriminate]. intro H; injection H as <-; discriminate.
Qed.
Ltac quiet_effect := constructor; cbn [fo_closed fo_full fo_pc at_pc with_cfg fshut at_close handed got_by fails existsb flat_map app orb]; intros; auto; try congruence.
Lemma does_effect s e s' : does s e s' -> e <> [] -> forall id o, fobj_get (fi_objs s) id = Some o ->
  exists o', fobj_get (fi_objs s') id = Some o' /\ effect_on id o o' e.
Proof.
  intros D N j oj Gj.
  assert (KEEP : fobj_get (fi_objs s') j = Some oj -> handed j e = [] -> exists o', fobj_get (fi_objs s') j = Some o' /\ effect_on j oj o' e).
  { intros A B. exists oj. split; [exact A|apply effect_refl, B]. }
  destruct D; cbn [fi_objs set_freg set_fobj set_tc set_casts set_tick count_tok] in *;
    try (apply KEEP; [exact Gj|reflexivity]);
    try (rewrite ?fobj_get_set in *; destruct (Z.eqb_spec id j) as [->|NE]; [rewrite ?Z.eqb_refl; rewrite Gj in *; try discriminate | apply KEEP; [exact Gj|try reflexivity]]);
    try match goal with H : Some _ = Some _ |- _ => injection H as <- end;
    try (eexists; split; [reflexivity|]; quiet_effect; fail).
  - eexists; split; [reflexivity|]. quiet_effect; destruct k; discriminate.
  - eexists; split; [reflexivity|]. quiet_effect.
    + rewrite Z.eqb_refl in H. discriminate.
    + exfalso. eapply on_message_stays; eauto.
  - eexists; split; [reflexivity|]. quiet_effect. destruct ok; discriminate.
  - eexists; split; [reflexivity|]. quiet_effect. destruct c; discriminate.
  - eexists; split; [reflexivity|]. quiet_effect; rewrite ?Z.eqb_refl in *; discriminate.
  - eexists; split; [reflexivity|]. quiet_effect; rewrite ?Z.eqb_refl in *; discriminate.
  - eexists; split; [reflexivity|]. quiet_effect. destruct (taken _ _); discriminate.
  - eexists; split; [reflexivity|]. quiet_effect. destruct h; discriminate.
  - eexists; split; [reflexivity|]. quiet_effect. destruct p; discriminate.
  - assert (PM : plain_msg m). { unfold call_message in H0. destruct (find_call _ _) as [[t0 cb e icc [n|] [|]]|]; try discriminate. injection H0 as <-. do 3 eexists. reflexivity. }
    assert (RT : fo_closed o1 = fo_closed oj /\ fo_full o1 = fo_full oj /\ (fo_pc oj = GEnd -> fo_pc o1 = GEnd) /\ (fo_pc oj = GRecv -> fo_pc o1 = GRecv) /\ (fo_pc o1 = GEnd -> fo_pc oj = GEnd) /\ handed j evs = [] /\ fails j evs = false).
    { unfold returned in H3. cbn [fo_pc with_cfg] in H3. destruct (fo_pc oj) as [k|k|k| | |m0|e0 p|t0 p|m0|m0|m0|m0|h m0|p|] eqn:P; try (injection H3 as <- <-; cbn; rewrite ?P; repeat split; auto; fail).
      destruct (t0 =? tok); injection H3 as <- <-; cbn [fo_closed fo_full fo_pc with_cfg at_pc]; repeat split; auto; try congruence. destruct p; discriminate. }
    destruct RT as (R1 & R2 & R3 & R4 & R5 & R6 & R7). unfold link_send in H1. exists (if closes then fshut o1 else o1). split; [reflexivity|].
    assert (HD : handed j ((if closes then [XShut j] else []) ++ evs) = []) by (rewrite handed_app, R6; destruct closes; reflexivity).
    constructor.
    + intro C. destruct closes; [reflexivity|congruence].
    + destruct closes; exact R2.
    + destruct (fo_closed oj) eqn:C; [injection H1 as <- <-; left; exact HD|]. destruct (fo_full oj) eqn:F; injection H1 as <- <-; [left; exact HD|]. right. exists m.
      cbn [handed flat_map]. rewrite Z.eqb_refl. change (flat_map _ _) with (handed j ([] ++ evs)). rewrite HD. repeat split; auto.
    + destruct closes; exact R3.
    + intros _ _. destruct closes; exact R4.
    + intros _. destruct closes; exact R5.
  - assert (handed j evs = []). { unfold returned in H3. cbn [fo_pc with_cfg] in H3. destruct (fo_pc o) as [| | | | | | |t0 p| | | | | | |]; try (injection H3 as <- <-; reflexivity). destruct (t0 =? tok); injection H3 as <- <-; reflexivity. }
    cbn [handed flat_map]. destruct ok; [destruct (Z.eqb_spec id j); [contradiction|]|]; cbn [app]; change (flat_map _ _) with (handed j ((if closes then [XShut id] else []) ++ evs)); rewrite handed_app, H4; destruct closes; reflexivity.
Qed.
Lemma does_none s e s' id : does s e s' -> fobj_get (fi_objs s) id = None -> ~ In (XConnect id) e -> fobj_get (fi_objs s') id = None.
Proof.
  intros D G N. destruct D; cbn [fi_objs set_freg set_fobj set_tc set_casts set_tick count_tok] in *; auto; rewrite ?fobj_get_set; (destruct (Z.eqb_spec id0 id) as [->|NE]; [|auto]); try congruence.
  exfalso. apply N. cbn. auto.
Qed.
(** The events of a step, by the operation *)
Lemma fstep_events s op s' e id : fstep s op = Ok (s', e) ->
  ((forall m, op <> FRecv id m) -> got_by id e = []) /\ (op <> FFail id -> fails id e = false) /\ (op <> FConnect id -> ~ In (XConnect id) e) /\
  ((forall ok, op <> FStored id ok) -> (forall c, op <> FMerged id c) -> results id e = []).
Proof.
  assert (RT : forall i o tok o1 evs, returned i o tok = (o1, evs) -> got_by id evs = [] /\ fails id evs = false /\ ~ In (XConnect id) evs /\ results id evs = []).
  { intros i o tok o1 evs R. unfold returned in R. destruct (fo_pc o); try (injection R as <- <-; cbn; auto). destruct (_ =? _); injection R as <- <-; cbn; repeat split; auto. intros [X|[]]; discriminate. }
  assert (CL : forall s0 i o, let e0 := snd (fclose s0 i o) in got_by id e0 = [] /\ fails id e0 = false /\ ~ In (XConnect id) e0 /\ results id e0 = []).
  { intros s0 i o. unfold fclose. destruct (fo_closed o); cbn; repeat split; auto. intros [X|[]]; discriminate. }
  intro H. destruct op; cbn -[sstep tstep fclose] in H; unfold bind in H.
  all: try (repeat match type of H with
       | Ok _ = Ok _ => injection H as <- <-
       | Panic = Ok _ => discriminate H
       | Err _ = Ok _ => discriminate H
       | context [match returned ?a ?b ?c with _ => _ end] => fail 1
       | context [match fclose ?a ?b ?c with _ => _ end] => fail 1
       | context [match ?x with _ => _ end] => destruct x eqn:?
       end; (repeat split; intros; cbn [got_by fails results flat_map existsb filter app In orb]; auto; try tauto; try (intuition congruence);
       try (match goal with |- (if ?a =? ?b then _ else _) ++ _ = _ => destruct (Z.eqb_spec a b); [subst; exfalso; congruence|reflexivity]
            | |- (if ?a =? ?b then _ else _) = _ => destruct (Z.eqb_spec a b); [subst; exfalso; congruence|reflexivity] end)); fail).
  all: destruct (fobj_get (fi_objs s) id0) as [o|] eqn:Go || destruct (fi_tick s) as [ks|i ks]; try (injection H as <- <-; cbn; repeat split; auto; fail).
  - destruct (fo_pc o); try (injection H as <- <-; cbn; repeat split; auto; fail). destruct (on_message (fi_auto s) m); try discriminate. injection H as <- <-. repeat split; cbn; auto; try (intros ? [X|[]]; discriminate).
    intros N. destruct (Z.eqb_spec id0 id) as [->|]; [destruct (N m); reflexivity|reflexivity].
  - destruct (fo_pc o); try (injection H as <- <-; cbn; repeat split; auto; fail). injection H as <- <-. repeat split; cbn; auto; try (intros ? [X|[]]; discriminate).
    intros N _. destruct (Z.eqb_spec id0 id) as [->|]; [destruct (N ok); reflexivity|reflexivity].
  - destruct (fo_pc o); try (injection H as <- <-; cbn; repeat split; auto; fail). injection H as <- <-. repeat split; cbn; auto; try (intros ? [X|[]]; discriminate).
    intros _ N. destruct (Z.eqb_spec id0 id) as [->|]; [destruct (N c); reflexivity|reflexivity].
  - destruct (fo_pc o); try (injection H as <- <-; cbn; repeat split; auto; fail). pose proof (CL (set_fobj s id0 (at_pc o GEnd)) id0 (at_pc o GEnd)) as (C1 & C2 & C3 & C4).
    destruct (fclose _ _ _) as [s1 e1]. cbn [snd] in *. injection H as <- <-. repeat split; cbn; auto.
    + intros N. destruct (Z.eqb_spec id0 id) as [->|]; [congruence|exact C2].
    + intros _ [X|X]; [discriminate|auto].
  - destruct (call_message (fo_cfg o) tok) as [m|]; [|injection H as <- <-; cbn; repeat split; auto]. destruct (link_send o) as [ok closes]. destruct (sstep _ _) as [c| |]; try discriminate.
    destruct (returned id0 (with_cfg o c) tok) as [o1 evs] eqn:R. destruct (RT _ _ _ _ _ R) as (R1 & R2 & R3 & R4). injection H as <- <-. destruct closes; cbn; repeat split; auto; intros _ X; intuition discriminate.
  - pose proof (CL s id0 o) as (C1 & C2 & C3 & C4). injection H as H. rewrite H in C1, C2, C3, C4. cbn [snd] in *. repeat split; auto.
  - destruct (fobj_get (fi_objs s) i) as [o|] eqn:Go; [|injection H as <- <-; cbn; repeat split; auto]. pose proof (CL (set_tick s (TKeys ks)) i o) as (C1 & C2 & C3 & C4).
    destruct (fclose _ _ _) as [s1 e1]. cbn [snd] in *. injection H as <- <-. repeat split; cbn; auto. intros _ [X|X]; [discriminate|auto].
Qed.
