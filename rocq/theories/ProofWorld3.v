(** The whole process goroutine by goroutine: the invariant that ties connections and sessions to the history. *)
From Verif Require Import Base LibBase Env EntTerm EntPlat Registry Message Codec Timer Session Multipart Server Host Overlap Fine World.
From Verif Require Import SpecGeo SpecEntity SpecMsg SpecStream SpecSession SpecMulti SpecTimer SpecServer SpecFine SpecHost SpecWorld.
From Verif Require Import ProofStream ProofStream2 ProofMsg ProofMsg2 ProofServer4 ProofServer6 ProofHost ProofHost2 ProofHost3 ProofFine ProofFine2 ProofFine6 ProofFine13 ProofWorld ProofWorld2.

Section World.
Variables (env : Env) (key : option Z) (merging : bool) (ka : Z).
Hypothesis KEY : key_ok env key.

Record recv_ok (id : Z) (evs : list wevent) (c : conn) (o : fobj) : Prop := {
  rc_bytes : bytes_ok (came id evs);
  rc_split : exists past rest, came id evs = past ++ rest /\
    (forall x, says env key (past ++ x) = (got_by id (inside evs) ++ fst (says env key x), snd (says env key x))) /\
    match cn_at c with
    | AtStart => rest = cn_buf c ++ cn_in c /\ fo_pc o <> GEnd
    | InRead => rest = cn_buf c ++ cn_in c /\ incomplete (cn_buf c) /\ fo_pc o = GRecv
    | Left => fo_pc o = GEnd /\ In (WFine (XFail id)) evs
    end }.
Record send_but (P : Prop) (id : Z) (evs : list wevent) (c : conn) (o : fobj) : Prop := {
  sn_sent : exists ws lost, handed id (inside evs) = ws ++ lost ++ in_flight c ++ cn_queue c /\ Forall2 (frame_of env) ws (wrote id evs) /\ (cn_sending c = true -> lost = []) /\ (length (lost ++ in_flight c) <= 1)%nat;
  sn_dead : cn_sending c = false -> (fo_closed o = true \/ P) /\ cn_flight c = None;
  sn_room : (length (cn_queue c) <= 24)%nat;
  sn_full : fo_full o = now_full c;
  sn_plain : Forall plain_msg (handed id (inside evs)) }.
Definition send_ok := send_but False.
Lemma send_weak (P Q : Prop) id evs c o : (P -> Q) -> send_but P id evs c o -> send_but Q id evs c o.
Proof. intros H [A B C D E]. constructor; auto. intros X. destruct (B X) as [[Y|Y] Z0]; auto. Qed.
Record winv (evs : list wevent) (w : world) : Prop := {
  wi_run : reached merging ka (inside evs) (wo_fine w);
  wi_conn : forall id, match conn_get (wo_conns w) id, fobj_get (fi_objs (wo_fine w)) id with
    | None, None => came id evs = [] /\ wrote id evs = [] /\ got_by id (inside evs) = [] /\ handed id (inside evs) = []
    | Some c, Some o => recv_ok id evs c o /\ send_ok id evs c o
    | _, _ => False
    end;
  wi_why : forall id a b, evs = a ++ WFine (XFail id) :: b -> ends_because env key id a }.

(** ** Small steps of the invariant *)
Definition silent (e : list wevent) : Prop := inside e = [] /\ forall id, came id e = [] /\ wrote id e = [].
Lemma silent_nil : silent []. Proof. split; auto. Qed.
Lemma no_fail e : (forall id, fails id e = false) -> forall id, ~ In (WFine (XFail id)) (map WFine e).
Proof.
  intros F id I. apply in_map_iff in I as (x & E & I). injection E as ->. specialize (F id).
  assert (T : fails id e = true) by (apply existsb_exists; exists (XFail id); split; [exact I|apply Z.eqb_refl]). congruence.
Qed.
Lemma app_split {A} (l e a b : list A) x : l ++ e = a ++ x :: b -> (exists b', l = a ++ x :: b') \/ (exists a', a = l ++ a' /\ e = a' ++ x :: b).
Proof.
  revert a. induction l as [|y l IH]; intros a E; [right; exists a; auto|]. destruct a as [|z a]; cbn in E; injection E as -> E; [left; exists l; reflexivity|].
  destruct (IH a E) as [(b' & ->)|(a' & -> & ->)]; [left; exists b'; reflexivity|right; exists a'; auto].
Qed.
Lemma why_more evs e : (forall id, ~ In (WFine (XFail id)) e) -> (forall id a b, evs = a ++ WFine (XFail id) :: b -> ends_because env key id a) ->
  forall id a b, evs ++ e = a ++ WFine (XFail id) :: b -> ends_because env key id a.
Proof.
  intros N W id a b E. destruct (app_split _ _ _ _ _ E) as [(b' & K)|(a' & _ & K)]; [eapply W; eauto|]. exfalso. apply (N id). rewrite K. apply in_elt.
Qed.
Lemma recv_keep id evs pre e c o o' : recv_ok id evs c o -> acted id e c o o' -> silent pre -> got_by id e = [] -> fails id e = false -> recv_ok id (evs ++ pre ++ map WFine e) (fuller id e c) o'.
Proof.
  intros [B (past & rest & A & P & M)] AC (S1 & S2) G F. destruct (S2 id) as (S3 & S4).
  assert (CE : came id (evs ++ pre ++ map WFine e) = came id evs) by (rewrite !came_app, came_fine, S3, !app_nil_r; reflexivity).
  constructor; rewrite CE; [exact B|]. exists past, rest. split; [exact A|]. split.
  { intros x. rewrite !inside_app, inside_fine, S1, !got_app, G. cbn [app]. change (got_by id []) with (@nil message). rewrite !app_nil_r. apply P. }
  destruct AC as [A1 A2 A3 A4 A5 A6]. cbn [fuller with_send cn_at cn_in cn_buf]. destruct (cn_at c).
  - destruct M as (M1 & M2). split; auto.
  - destruct M as (M1 & M2 & M3). split; auto.
  - destruct M as (M1 & M2). split; auto. apply in_app_iff. auto.
Qed.
Lemma send_keep P id evs pre e c o o' : send_but P id evs c o -> acted id e c o o' -> silent pre -> (P -> fo_closed o' = true) -> send_ok id (evs ++ pre ++ map WFine e) (fuller id e c) o'.
Proof.
  intros [(ws & lost & S & F & L & LO) D R FU PL] [A1 A2 A3 A4 A5 A6] (S1 & S2) HP. destruct (S2 id) as (S3 & S4).
  assert (HE : handed id (inside (evs ++ pre ++ map WFine e)) = handed id (inside evs) ++ handed id e) by (rewrite !inside_app, inside_fine, S1, !handed_app; reflexivity).
  constructor.
  - exists ws, lost. rewrite HE, S. rewrite !wrote_app, wrote_fine, S4, !app_nil_r. split; [|auto]. unfold in_flight. cbn [fuller with_send cn_flight cn_queue]. rewrite <- !app_assoc. reflexivity.
  - cbn [fuller with_send cn_sending cn_flight]. intros X. destruct (D X) as [[Y|Y] Z0]; auto.
  - cbn [fuller with_send cn_queue]. rewrite app_length. destruct A3 as [->|(m & -> & B & _)]; cbn [length]; [lia|]. rewrite FU in B. unfold now_full, queue_size in B. apply Nat.eqb_neq in B. lia.
  - apply A2, FU.
  - rewrite HE. apply Forall_app. split; [exact PL|]. destruct A3 as [->|(m & -> & _ & _ & B)]; auto.
Qed.
(** A step of the server, possibly after an assignment to connections *)
Lemma act_inv evs pre w w0 op : winv evs w -> wo_fine w0 = wo_fine w -> good_op op -> (forall id b, op <> FQueue id b) -> (forall id, op <> FConnect id) -> silent pre ->
  (forall id a b, evs ++ pre = a ++ WFine (XFail id) :: b -> ends_because env key id a) ->
  (forall id, op = FFail id -> ends_because env key id (evs ++ pre)) ->
  (forall id, match conn_get (wo_conns w0) id, fobj_get (fi_objs (wo_fine w)) id with
    | None, None => came id evs = [] /\ wrote id evs = [] /\ got_by id (inside evs) = [] /\ handed id (inside evs) = []
    | Some c, Some o => send_but (op = FShut id) id evs c o /\
        forall e s1 o', fstep (wo_fine w) op = Ok (s1, e) -> acted id e c o o' -> pc_of s1 id = Some (fo_pc o') -> recv_ok id (evs ++ pre ++ map WFine e) (fuller id e c) o'
    | _, _ => False
    end) ->
  exists w' e, act w0 op = Ok (w', map WFine e) /\ winv (evs ++ pre ++ map WFine e) w' /\ wo_fs w' = wo_fs w0 /\ wo_up w' = wo_up w0 /\
    exists s1, fstep (wo_fine w) op = Ok (s1, e) /\ forall id, pc_of (wo_fine w') id = pc_of s1 id.
Proof.
  intros V FE G NQ NC SI WP WF C. pose proof (wi_run _ _ V) as R. rewrite <- FE in R. destruct (act_ok merging ka _ w0 op R G NQ) as (w' & e & s1 & A & E & A1 & A2 & A3 & A4 & A5 & A6 & A7).
  rewrite FE in E, A6, A7. exists w', e. split; [exact A|]. split; [|split; [exact A1|split; [exact A2|]]].
  2:{ exists s1. split; [exact E|]. intros id. apply A5. }
  constructor.
  - rewrite !inside_app, inside_fine, (proj1 SI). exact A3.
  - intros id. specialize (C id). specialize (A4 id). specialize (A6 id). specialize (A7 id). destruct (conn_get (wo_conns w0) id) as [c|], (fobj_get (fi_objs (wo_fine w)) id) as [o|] eqn:Go; try contradiction.
    + destruct (A7 o c eq_refl eq_refl) as (o' & Go' & AC). rewrite A4, Go'. cbn [option_map]. destruct C as (C1 & C2). split.
      * apply C2 with (s1 := s1); auto. destruct (A5 id) as (<- & _). unfold pc_of. rewrite Go'. reflexivity.
      * eapply send_keep; eauto. intros ->. destruct (A5 id) as (_ & A5'). unfold is_closed in A5'. rewrite Go' in A5'. rewrite A5'. cbn [fstep] in E. rewrite Go in E. unfold fclose in E. destruct (fo_closed o) eqn:CL; injection E as <- <-.
        -- rewrite Go. exact CL.
        -- rewrite set_fobj_get, Z.eqb_refl. reflexivity.
    + rewrite A4, A6; auto. cbn [option_map]. destruct C as (C1 & C2 & C3 & C4). destruct (proj2 SI id) as (S3 & S4).
      assert (CE : came id (evs ++ pre ++ map WFine e) = came id evs) by (rewrite !came_app, came_fine, S3, !app_nil_r; reflexivity).
      assert (WE : wrote id (evs ++ pre ++ map WFine e) = wrote id evs) by (rewrite !wrote_app, wrote_fine, S4, !app_nil_r; reflexivity).
      rewrite CE, WE, !inside_app, inside_fine, (proj1 SI), !got_app, !handed_app, C3, C4. split; [auto|]. split; [auto|]. cbn [got_by handed flat_map app].
      (* no session, no events *)
      assert (X : forall o0 : option fobj, True) by auto.
      destruct (fstep_does _ _ _ _ G E) as [(_ & ->)|D]; [auto|]. clear -D Go NC E. split.
      * destruct D; cbn [got_by flat_map app]; auto; try (destruct (Z.eqb_spec id0 id) as [->|]; [congruence|reflexivity]).
        assert (Z0 : got_by id evs = []). { unfold returned in H3. cbn [fo_pc with_cfg] in H3. destruct (fo_pc o) as [| | | | | | |t0 p| | | | | | |]; try (injection H3 as <- <-; reflexivity). destruct (t0 =? tok); injection H3 as <- <-; reflexivity. }
        change (flat_map _ _) with (got_by id ((if closes then [XShut id0] else []) ++ evs)). rewrite got_app, Z0. destruct closes; reflexivity.
      * destruct D; cbn [handed flat_map app]; auto.
        assert (Z0 : handed id evs = []). { unfold returned in H3. cbn [fo_pc with_cfg] in H3. destruct (fo_pc o) as [| | | | | | |t0 p| | | | | | |]; try (injection H3 as <- <-; reflexivity). destruct (t0 =? tok); injection H3 as <- <-; reflexivity. }
        change (flat_map _ _) with (handed id ((if closes then [XShut id0] else []) ++ evs)). rewrite handed_app, Z0. destruct ok; [destruct (Z.eqb_spec id0 id) as [->|]; [congruence|]|]; destruct closes; reflexivity.
  - rewrite app_assoc. intros id a b X. destruct (existsb (fun ev => match ev with XFail _ => true | _ => false end) e) eqn:XF.
    + apply existsb_exists in XF as (x & I & XE). destruct x as [| | | | | | | | | | | | | | |i| | | | | | | | | | | | | | | |]; try discriminate. clear XE.
      assert (OP : op = FFail i).
      { destruct (fstep_events _ _ _ _ i E) as (_ & F & _). assert (T : fails i e = true) by (apply existsb_exists; exists (XFail i); split; [exact I|apply Z.eqb_refl]).
        assert (DEC : op = FFail i \/ op <> FFail i) by (destruct op; try (right; discriminate); destruct (Z.eq_dec id0 i) as [->|]; [left; reflexivity|right; congruence]). destruct DEC as [|N]; auto. rewrite (F N) in T. discriminate. }
      subst op. specialize (WF i eq_refl).
      assert (ES : e = [XFail i] \/ e = [XFail i; XShut i]).
      { cbn [fstep] in E. destruct (fobj_get (fi_objs (wo_fine w)) i) as [o|]; [|injection E as <- <-; contradiction]. destruct (fo_pc o); try (injection E as <- <-; contradiction).
        unfold fclose in E. cbn [fo_closed at_pc] in E. destruct (fo_closed o); injection E as <- <-; auto. }
      destruct (app_split _ _ _ _ _ X) as [(b' & K)|(a' & -> & K)]; [eapply WP; eauto|].
      destruct a' as [|y a']; [rewrite app_nil_r; destruct ES as [-> | ->]; injection K as -> _; exact WF|].
      exfalso. destruct ES as [-> | ->]; cbn [map app] in K; injection K as _ K; destruct a' as [|z [|z' a']]; discriminate.
    + eapply (why_more (evs ++ pre)); eauto. apply no_fail. intros i. apply not_true_is_false. intros T. apply existsb_exists in T as (x & I & XE). destruct x as [| | | | | | | | | | | | | | |j| | | | | | | | | | | | | | | |]; try discriminate.
      apply not_true_iff_false in XF. apply XF. apply existsb_exists. exists (XFail j). auto.
Qed.
End World.
