(** The rules of the interleavings, one by one. *)
From Coq Require Import Permutation.
From Verif Require Import Base LibBase Bits Env EntTerm EntPlat Registry Message Timer Session Server Fine.
From Verif Require Import SpecSession SpecTimer SpecServer SpecFine ProofFine ProofFine2 ProofFine3 ProofFine4 ProofFine5 ProofFine6 ProofFine7 ProofFine8 ProofFine9.

Section Rules.
Variables (merging : bool) (ka : Z) (evs : list fevent).
Hypothesis H : happens merging ka evs.

(** ** Registration and closing *)
Lemma look_here a id f b : evs = a ++ XLook id f :: b -> f = here a id.
Proof. exact (closing_happens _ _ _ H a (XLook id f) b). Qed.
Lemma get_here a id f b : evs = a ++ XGet id f :: b -> f = here a id.
Proof. exact (closing_happens _ _ _ H a (XGet id f) b). Qed.
Lemma connect_once a id b : evs = a ++ XConnect id :: b -> ~ In (XConnect id) (a ++ b).
Proof.
  intros E I. pose proof (closing_happens _ _ _ H a (XConnect id) b E) as R. cbn in R. apply in_app_or in I as [I|I].
  - apply accepted_in in I. congruence.
  - apply in_split in I as (b1 & b2 & ->). pose proof (closing_happens _ _ _ H (a ++ XConnect id :: b1) (XConnect id) b2) as R2. rewrite <- app_assoc in R2. specialize (R2 E). cbn in R2.
    assert (A : accepted (a ++ XConnect id :: b1) id = true) by (apply accepted_in, in_or_app; right; left; reflexivity). congruence.
Qed.
Lemma gone_order a id b : evs = a ++ XGone id :: b -> In (XConnect id) a /\ In (XShut id) a /\ In (XAddCb id true) a /\ ~ In (XGone id) a.
Proof.
  intro E. destruct (closing_happens _ _ _ H a _ b E) as (R1 & R2 & R3 & R4). split; [apply accepted_in; exact R1|]. split; [apply shut_in_in; exact R2|]. split; [apply hooked_in_in; exact R3|].
  exact (not_in_of (gone_in a id) R4).
Qed.
Lemma remove_order a id b : evs = a ++ XRemove id :: b -> In (XGone id) a /\ ~ In (XRemove id) a.
Proof. intro E. destruct (closing_happens _ _ _ H a _ b E) as (R1 & R2). split; [apply gone_in; exact R1|exact (not_in_of (removed_in_in a id) R2)]. Qed.
Lemma closed_order a id b : evs = a ++ XClosed id :: b -> In (XRemove id) a /\ ~ In (XClosed id) a.
Proof. intro E. destruct (closing_happens _ _ _ H a _ b E) as (R1 & R2). split; [apply removed_in_in; exact R1|exact (not_in_of (closed_in_in a id) R2)]. Qed.
Lemma callback_added a id ok b : evs = a ++ XAddCb id ok :: b -> (ok = true <-> ~ In (XShut id) a) /\ ~ In (XAddCb id true) a.
Proof.
  intro E. destruct (closing_happens _ _ _ H a _ b E) as (-> & R2). split; [|exact (not_in_of (hooked_in_in a id) R2)].
  pose proof (shut_in_in a id) as S0. destruct (shut_in a id); cbn; [|intuition discriminate]. split; [discriminate|]. intro X. destruct X. apply S0. reflexivity.
Qed.
Lemma accepted_open a id tok m b : evs = a ++ XWire id tok (Some m) :: b -> In (XConnect id) a /\ ~ In (XShut id) a.
Proof. intro E. destruct (closing_happens _ _ _ H a _ b E) as (R1 & R2). split; [apply accepted_in; exact R1|exact (not_in_of (shut_in_in a id) R2)]. Qed.
Lemma shut_by id ev : In ev evs -> ev = XTimeout id \/ ev = XFail id \/ (exists tok, ev = XWire id tok None) -> In (XShut id) evs.
Proof.
  intros I K. apply shut_in_in, (shutting_happens _ _ _ H id). apply existsb_exists. exists ev. split; [exact I|]. destruct K as [->|[->|(tok & ->)]]; apply Z.eqb_refl.
Qed.

(** ** The read timer *)
Lemma check_exact a now keys b : evs = a ++ XTick now keys :: b -> fires (due ka a) now keys.
Proof. exact (timing_happens _ _ _ H a (XTick now keys) b). Qed.
Lemma prefix_rules (P : list fevent -> fevent -> Prop) a b : evs = a ++ b -> always P evs -> always P a.
Proof. intros E A p ev q Ea. apply (A p ev (q ++ b)). rewrite E, Ea, <- app_assoc. reflexivity. Qed.
Lemma due_when a b id d : evs = a ++ b -> due ka a id = Some d ->
  exists u a0 a3, a = a0 ++ a3 /\ refreshes id u a0 /\ d = wrapped u ka /\ (forall ev, In ev a3 -> ev <> XDel id /\ ev <> XIns id /\ ev <> XRemove id).
Proof.
  intros E D. destruct (due_origin ka id a d (prefix_rules _ _ _ E (timing_happens _ _ _ H)) D) as (u & a0 & a3 & E1 & R & E2 & F). exists u, a0, a3. split; [exact E1|]. split; [exact R|]. split; [exact E2|].
  intros ev I. rewrite forallb_forall in F. specialize (F ev I). repeat split; intros ->; cbn in F; rewrite Z.eqb_refl in F; discriminate.
Qed.
Lemma timer_order : exists more groups, filter of_timer evs ++ more = flat_map a_check groups.
Proof. exact (proj2 (ticking_happens _ _ _ H)). Qed.
Lemma timeout_why a id b : evs = a ++ XTimeout id :: b ->
  exists u a0 a3 now keys a2, a = (a0 ++ a3) ++ XTick now keys :: a2 /\ forallb (fun ev => negb (is_tick ev)) a2 = true /\ In id keys /\
    refreshes id u a0 /\ (forall ev, In ev a3 -> ev <> XDel id /\ ev <> XIns id /\ ev <> XRemove id) /\ wrapped u ka <= now.
Proof.
  intro E. destruct (proj1 (ticking_happens _ _ _ H) a (XTimeout id) b E) as (a1 & now & keys & a2 & Ea & F & I).
  pose proof (check_exact a1 now keys (a2 ++ XTimeout id :: b)) as Fi. rewrite E, Ea, <- app_assoc in Fi. destruct (Fi eq_refl) as (_ & Fk & _). apply Fk in I as Ex. unfold expired in Ex.
  destruct (due ka a1 id) as [d|] eqn:D; [|discriminate].
  destruct (due_when a1 (XTick now keys :: a2 ++ XTimeout id :: b) id d) as (u & a0 & a3 & E1 & R & E2 & F3); [rewrite E, Ea, <- app_assoc; reflexivity|exact D|].
  exists u, a0, a3, now, keys, a2. split; [rewrite Ea, E1; reflexivity|]. split; [exact F|]. split; [exact I|]. split; [exact R|]. split; [exact F3|]. subst d. lia.
Qed.

(** ** The goroutine of a session *)
Lemma session_order id : filter (own id) evs = [] \/
  exists more u ok turns tail, filter (own id) evs ++ more = opening id u ok ++ concat turns ++ tail /\ Forall (turn merging id) turns /\ (tail = [] \/ tail = [XFail id] /\ more = []).
Proof.
  destruct (proj2 (turning_happens _ _ _ H) id) as [E|[(more & u & ok & turns & E & F)|(l & E & u & ok & turns & El & F)]]; [auto| |]; right.
  - exists more, u, ok, turns, []. rewrite app_nil_r. auto.
  - exists [], u, ok, turns, [XFail id]. rewrite app_nil_r, E, El, <- app_assoc. auto.
Qed.
Lemma load_now a id m h b : evs = a ++ XLoad id m h :: b -> h = handler_now a (h_id (m_hdr m)).
Proof. exact (proj1 (turning_happens _ _ _ H) a (XLoad id m h) b). Qed.
Lemma replied_after a id tok b : evs = a ++ XReplied id tok :: b -> exists a' r, a = a' ++ [XWire id tok r] \/ a = a' ++ [XWire id tok r; XShut id].
Proof. exact (proj1 (turning_happens _ _ _ H) a (XReplied id tok) b). Qed.

(** ** Calls *)
Lemma names_new : NoDup (names evs).
Proof. exact (proj2 (calling_happens _ _ _ H)). Qed.
Lemma next_number a id tok n b : evs = a ++ XNext id tok n :: b ->
  (exists cb e, In (id, tok, cb, e) (flat_map begun a)) /\ (forall k, ~ In (XNext id tok k) a) /\ n = serial (length (numbered id a)).
Proof.
  intro E. destruct (proj1 (calling_happens _ _ _ H) a _ b E) as (R1 & R2). split; [|exact R2]. unfold names_on, begun_on in R1. apply in_map_iff in R1 as ([[[i t] cb] e] & Et & I).
  apply filter_In in I as (I & Ei). cbn in Et, Ei. apply Z.eqb_eq in Ei. subst. eauto.
Qed.
Lemma wire_message a id tok r b : evs = a ++ XWire id tok r :: b -> (forall r', ~ In (XWire id tok r') a) /\
  exists a1 ev b1 cb e n, a = a1 ++ ev :: b1 /\ begun ev = [(id, tok, cb, e)] /\ In (XNext id tok n) a /\
    (r = None \/ r = Some (Message (Header (entity_id e) 0 (told_last id a1) n None) (BEnt e))).
Proof. exact (proj1 (calling_happens _ _ _ H) a (XWire id tok r) b). Qed.

(** ** Requests *)
Lemma add_after a id tok b : evs = a ++ XAdd id tok :: b -> ~ In (XAdd id tok) a /\ exists e m, In (id, tok, true, e) (flat_map begun a) /\ In (XWire id tok (Some m)) a.
Proof. exact (proj1 (calling_happens _ _ _ H) a (XAdd id tok) b). Qed.
Lemma take_some a id m tok b : evs = a ++ XTake id m (Some tok) :: b -> (forall m', ~ In (XTake id m' (Some tok)) a) /\
  exists r m0, In r (pending id a) /\ rq_tok r = tok /\ answers m (rq_serial r) /\ In (XWire id tok (Some m0)) a /\ h_serial (m_hdr m0) = rq_serial r.
Proof. exact (proj1 (calling_happens _ _ _ H) a (XTake id m (Some tok)) b). Qed.
Lemma take_none a id m b : evs = a ++ XTake id m None :: b -> forall r, In r (pending id a) -> ~ answers m (rq_serial r).
Proof. exact (proj1 (calling_happens _ _ _ H) a (XTake id m None) b). Qed.

(** ** Broadcast *)
Lemma cast_snapshot a b0 e ids b : evs = a ++ XCast b0 e ids :: b -> NoDup ids /\ (forall id, In id ids <-> here a id = true) /\ (forall e' ids', ~ In (XCast b0 e' ids') a).
Proof. intro E. destruct (closing_happens _ _ _ H a _ b E) as (R1 & R2). destruct (casting_happens _ _ _ H a _ b E) as (R3 & _). auto. Qed.
Lemma cast_to a b0 id tok e b : evs = a ++ XCastTo b0 id tok e :: b -> (exists ids, In (XCast b0 e ids) a /\ In id ids) /\
  (forall t e', ~ In (XCastTo b0 id t e') a) /\ (forall n, ~ In (XCount b0 n) a) /\ (forall i t e', In (XCastTo b0 i t e') a -> exists r, In (XWire i t r) a).
Proof.
  intro E. destruct (casting_happens _ _ _ H a _ b E) as (R1 & R2 & R3 & R4). split; [exact R1|]. split; [|split; [exact R3|]].
  - intros t e' I. apply R2, in_map_iff. exists (id, t, e'). split; [reflexivity|]. apply calls_in. exact I.
  - intros i t e' I. apply calls_in in I. rewrite Forall_forall in R4. exact (R4 _ I).
Qed.
Lemma cast_count a b0 n b : evs = a ++ XCount b0 n :: b -> (forall k, ~ In (XCount b0 k) a) /\
  exists e ids, In (XCast b0 e ids) a /\ Permutation (map (fun x => fst (fst x)) (cast_calls b0 a)) ids /\ (forall id tok e', In (id, tok, e') (cast_calls b0 a) -> e' = e /\ exists r, In (XWire id tok r) a) /\
    n = Z.of_nat (length (filter (fun x => taken_by_link a (snd (fst x))) (cast_calls b0 a))).
Proof.
  intro E. destruct (casting_happens _ _ _ H a _ b E) as (R0 & e & ids & R1 & R2 & R3 & R4 & R5). split; [exact R0|]. exists e, ids. split; [exact R1|]. split; [exact R2|]. split; [|exact R5].
  intros id tok e' I. rewrite Forall_forall in R3, R4. split; [exact (R3 _ I)|exact (R4 _ I)].
Qed.
End Rules.
