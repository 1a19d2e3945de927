(** Histories of one session: callbacks and pending requests. *)
From Coq Require Import Permutation.
From Verif Require Import Base LibBase Bits Env EntTerm EntPlat Registry Message Session SpecSession Demo ProofSession.

(** ** The tables *)
Lemma find_call_spec l tok c : find_call l tok = Some c -> cl_tok c = tok /\ Permutation l (c :: del_call l tok).
Proof.
  induction l as [|x l IH]; cbn; [discriminate|]. destruct (Z.eqb_spec (cl_tok x) tok).
  - intros H. injection H as ->. split; auto.
  - intros H. destruct (IH H) as (A & B). split; auto. rewrite perm_swap. constructor. exact B.
Qed.
Lemma find_serial_spec l s : match find_serial l s with
  | Some i => exists l1 x l2, l = l1 ++ x :: l2 /\ length l1 = i /\ rq_serial x = s /\ Forall (fun r => rq_serial r <> s) l1
  | None => Forall (fun r => rq_serial r <> s) l
  end.
Proof.
  induction l as [|x l IH]; cbn; [constructor|]. destruct (Z.eqb_spec (rq_serial x) s).
  - exists [], x, l. auto.
  - destruct (find_serial l s).
    + destruct IH as (l1 & y & l2 & -> & A & B & C). exists (x :: l1), y, l2. cbn. auto.
    + constructor; auto.
Qed.
Lemma replace_at_app l1 x l2 r : replace_at (l1 ++ x :: l2) (length l1) r = l1 ++ r :: l2.
Proof. induction l1; cbn; auto. rewrite IHl1. reflexivity. Qed.
(** takeRequestContext takes the first pending request with the serial number. *)
Lemma take_spec l s : match take_request l s with
  | (Some x, l') => Permutation l (x :: l') /\ rq_serial x = s /\ exists l1 l2, l = l1 ++ x :: l2 /\ Forall (fun r => rq_serial r <> s) l1
  | (None, l') => l' = l /\ Forall (fun r => rq_serial r <> s) l
  end.
Proof.
  unfold take_request. pose proof (find_serial_spec l s) as H. destruct (find_serial l s) as [i|]; [|auto].
  destruct H as (l1 & x & l2 & -> & <- & S & F). rewrite app_nth2, Nat.sub_diag by lia. cbn [nth]. rewrite replace_at_app.
  assert (P : Permutation (l1 ++ x :: l2) (x :: firstn (length (l1 ++ x :: l2) - 1) (l1 ++ nth (length (l1 ++ x :: l2) - 1) (l1 ++ x :: l2) (Request 0 0 0) :: l2))).
  { destruct l2 as [|y l2] using rev_ind.
    - rewrite app_length. cbn [length]. replace (length l1 + 1 - 1)%nat with (length l1 + 0)%nat by lia. rewrite firstn_app_2. cbn [firstn].
      rewrite app_nil_r. apply Permutation_sym, Permutation_cons_append.
    - clear IHl2. assert (L : (length (l1 ++ x :: l2 ++ [y]) - 1)%nat = length (l1 ++ x :: l2)) by (rewrite !app_length; cbn [length]; rewrite app_length; cbn [length]; lia).
      rewrite L. replace (l1 ++ x :: l2 ++ [y]) with ((l1 ++ x :: l2) ++ [y]) by (rewrite <- app_assoc; reflexivity).
      rewrite app_nth2, Nat.sub_diag by lia. cbn [nth]. replace (l1 ++ y :: l2 ++ [y]) with ((l1 ++ y :: l2) ++ [y]) by (rewrite <- app_assoc; reflexivity).
      replace (length (l1 ++ x :: l2)) with (length (l1 ++ y :: l2) + 0)%nat by (rewrite !app_length; cbn [length]; lia).
      rewrite firstn_app_2. cbn [firstn]. rewrite app_nil_r. rewrite <- app_assoc. cbn [app].
      rewrite <- Permutation_middle. constructor. apply Permutation_app_head. apply Permutation_sym, Permutation_cons_append. }
  split; [exact P|]. split; auto. exists l1, l2. auto.
Qed.
Lemma add_spec l r : (add_request l r = l ++ [r] /\ ~ In (rq_msgid r) (map rq_msgid l)) \/
  exists l1 x l2, l = l1 ++ x :: l2 /\ add_request l r = l1 ++ r :: l2 /\ rq_msgid x = rq_msgid r.
Proof.
  induction l as [|x l IH]; cbn; [left; auto|]. destruct (Z.eqb_spec (rq_msgid x) (rq_msgid r)).
  - right. exists [], x, l. auto.
  - destruct IH as [(A & B)|(l1 & y & l2 & -> & A & B)].
    + left. rewrite A. split; auto. intros [H|H]; auto.
    + right. exists (x :: l1), y, l2. rewrite A. auto.
Qed.

(** ** The invariant *)
Definition nexts (l : list sevent) : list Z := flat_map (fun ev => match ev with EvNext t _ => [t] | _ => [] end) l.
Definition sends_as (l : list sevent) (tok n id : Z) : Prop := exists m0, In (EvSent tok m0) l /\ h_serial (m_hdr m0) = n /\ h_id (m_hdr m0) = id.
Fixpoint log_ok (l : list sevent) : Prop :=
  match l with
  | [] => True
  | EvNext _ _ :: t => log_ok t
  | EvSent tok m :: t => In (EvNext tok (h_serial (m_hdr m))) t /\ log_ok t
  | EvAnswer tok m :: t => (exists m0, In (EvSent tok m0) t /\ reply_serial m = Ok (h_serial (m_hdr m0)) /\ h_serial (m_hdr m0) <> 0) /\ log_ok t
  end.
Definition toks (c : scfg) : list Z := map cl_tok (sc_calls c) ++ map rq_tok (ss_reqs (sc_sess c)) ++ answered (sc_log c).
Definition call_ok (l : list sevent) (c : call) : Prop :=
  match cl_serial c with
  | None => cl_sent c = false /\ ~ In (cl_tok c) (nexts l)
  | Some n => In (EvNext (cl_tok c) n) l /\ (cl_sent c = true -> sends_as l (cl_tok c) n (entity_id (cl_ent c)))
  end.
Record sinv (st : list Z) (c : scfg) : Prop := {
  i_drawn : drawn (sc_log c) = countdown (length (drawn (sc_log c)));
  i_next : ss_next (sc_sess c) = last_drawn (drawn (sc_log c));
  i_nodup : NoDup (toks c);
  i_incl : incl (toks c) st;
  i_nexts : incl (nexts (sc_log c)) st;
  i_once : NoDup (nexts (sc_log c));
  i_ids : NoDup (map rq_msgid (ss_reqs (sc_sess c)));
  i_reqs : Forall (fun r => sends_as (sc_log c) (rq_tok r) (rq_serial r) (rq_msgid r)) (ss_reqs (sc_sess c));
  i_calls : Forall (call_ok (sc_log c)) (sc_calls c);
  i_log : log_ok (sc_log c) }.

Lemma sends_more l ev tok n id : sends_as l tok n id -> sends_as (ev :: l) tok n id.
Proof. intros (m & A & B). exists m. split; [right|]; auto. Qed.
Lemma reqs_more l ev rs : Forall (fun r => sends_as l (rq_tok r) (rq_serial r) (rq_msgid r)) rs ->
  Forall (fun r => sends_as (ev :: l) (rq_tok r) (rq_serial r) (rq_msgid r)) rs.
Proof. intros H. eapply Forall_impl; [|exact H]. intros. apply sends_more; auto. Qed.
Lemma call_more l ev c : call_ok l c -> (match ev with EvNext t _ => t <> cl_tok c | _ => True end) -> call_ok (ev :: l) c.
Proof.
  unfold call_ok. destruct (cl_serial c).
  - intros (A & B) _. split; [right; auto|]. intros. apply sends_more; auto.
  - intros (A & B) N. split; auto. destruct ev; cbn; auto. intros [H|H]; auto.
Qed.
Lemma perm_forall {A} (P : A -> Prop) l l' : Permutation l l' -> Forall P l -> Forall P l'.
Proof. intros H F. rewrite Forall_forall in *. intros x Hx. apply F. eapply Permutation_in; [apply Permutation_sym; eauto|auto]. Qed.
Lemma nodup_tail {A} (x : A) l : NoDup (x :: l) -> NoDup l. Proof. inversion 1; auto. Qed.
Lemma nodup_app_r {A} (a b : list A) : NoDup (a ++ b) -> NoDup b.
Proof. induction a; cbn; auto. intros H. inversion H; auto. Qed.
Lemma log_sent_next l tok m : log_ok l -> In (EvSent tok m) l -> In (EvNext tok (h_serial (m_hdr m))) l.
Proof.
  induction l as [|ev l IH]; cbn; [tauto|]. intros L [->|H]; [right; tauto|]. right. apply IH; auto. destruct ev; tauto.
Qed.
Lemma drawn_in l tok n : In (EvNext tok n) l -> In n (drawn l).
Proof. intros H. unfold drawn. apply in_flat_map. exists (EvNext tok n). split; [auto|left; auto]. Qed.
Lemma countdown_in k n : In n (countdown k) -> 1 <= n <= 255.
Proof. induction k; cbn; [tauto|]. intros [<-|H]; auto. apply serial_range. Qed.
Lemma toks_del c tok cl : find_call (sc_calls c) tok = Some cl ->
  Permutation (toks c) (tok :: map cl_tok (del_call (sc_calls c) tok) ++ map rq_tok (ss_reqs (sc_sess c)) ++ answered (sc_log c)).
Proof.
  intros F. destruct (find_call_spec _ _ _ F) as (E & P). unfold toks. rewrite <- E at 1. 
  change (cl_tok cl :: ?a ++ ?b) with ((cl_tok cl :: a) ++ b). apply Permutation_app_tail. apply (Permutation_map cl_tok) in P. exact P.
Qed.
Lemma others_differ c tok cl : NoDup (toks c) -> find_call (sc_calls c) tok = Some cl -> Forall (fun x => tok <> cl_tok x) (del_call (sc_calls c) tok).
Proof.
  intros N F. pose proof (Permutation_NoDup (toks_del c tok cl F) N) as D. inversion D as [|? ? A B]; subst. apply Forall_forall. intros x Hx E.
  subst tok. apply A, in_or_app. left. apply in_map. exact Hx.
Qed.
Lemma calls_parts c tok cl : Forall (call_ok (sc_log c)) (sc_calls c) -> find_call (sc_calls c) tok = Some cl ->
  call_ok (sc_log c) cl /\ Forall (call_ok (sc_log c)) (del_call (sc_calls c) tok).
Proof. intros H F. destruct (find_call_spec _ _ _ F) as (_ & P). apply (perm_forall _ _ _ P) in H. inversion H; auto. Qed.
Lemma calls_more l ev cs : Forall (call_ok l) cs -> (match ev with EvNext t _ => Forall (fun x => t <> cl_tok x) cs | _ => True end) -> Forall (call_ok (ev :: l)) cs.
Proof.
  intros H K. rewrite Forall_forall in *. intros x Hx. apply call_more; auto. destruct ev; auto. rewrite Forall_forall in K. auto.
Qed.

Lemma move_in {X} (x : X) A B C : Permutation (x :: A ++ B ++ C) (A ++ (B ++ [x]) ++ C).
Proof.
  replace (A ++ (B ++ [x]) ++ C) with ((A ++ B) ++ x :: C) by (rewrite <- !app_assoc; reflexivity).
  apply Permutation_cons_app. rewrite app_assoc. reflexivity.
Qed.
Lemma swap_in {X} (u v : X) A B C D : Permutation (u :: A ++ (B ++ v :: C) ++ D) (v :: A ++ (B ++ u :: C) ++ D).
Proof.
  replace (A ++ (B ++ v :: C) ++ D) with ((A ++ B) ++ v :: C ++ D) by (rewrite <- !app_assoc; reflexivity).
  replace (A ++ (B ++ u :: C) ++ D) with ((A ++ B) ++ u :: C ++ D) by (rewrite <- !app_assoc; reflexivity).
  rewrite <- !Permutation_middle. apply perm_swap.
Qed.

Lemma step_inv st c o c' : sinv st c -> NoDup (started [o] ++ st) -> sstep c o = Ok c' -> sinv (started [o] ++ st) c'.
Proof.
  intros I N H. pose proof I as [I1 I2 I3 I4 I5 I6 I7 I8 I9 I10]. unfold sstep in H. destruct o as [tok cb e|tok|tok ok|tok|m|]; cbn [started flat_map app] in *.
  - (* start *)
    injection H as <-. inversion N as [|? ? Nt N']; subst. constructor; cbn [set_calls sc_sess sc_calls sc_log]; auto.
    + unfold toks. cbn [set_calls sc_sess sc_calls sc_log map cl_tok app]. constructor; [intros H; apply Nt, I4; exact H|exact I3].
    + unfold toks. cbn [set_calls sc_sess sc_calls sc_log map cl_tok app]. intros x [<-|H]; [left; auto|right; apply I4; exact H].
    + intros x Hx. right. auto.
    + constructor; [|exact I9]. split; [reflexivity|]. cbn [cl_tok]. intros H. apply Nt, I5. exact H.
  - (* next *)
    destruct (find_call (sc_calls c) tok) as [[t' cb e icc [n|] sent]|] eqn:F; try (injection H as <-; exact I). injection H as <-.
    destruct (find_call_spec _ _ _ F) as (Et & _). cbn [cl_tok] in Et. subst t'.
    pose proof (toks_del c tok _ F) as P. destruct (calls_parts _ _ _ I9 F) as (C1 & C2). cbn in C1. destruct C1 as (C0 & C1). subst sent.
    constructor; cbn [sc_sess sc_calls sc_log ss_next ss_reqs drawn nexts flat_map app length countdown last_drawn]; auto.
    + fold (drawn (sc_log c)). rewrite <- I1. f_equal. rewrite I2, I1 at 1. rewrite countdown_next. reflexivity.
    + unfold toks. cbn [sc_sess sc_calls sc_log map cl_tok app ss_reqs answered flat_map]. eapply Permutation_NoDup; [exact P|auto].
    + unfold toks. cbn [sc_sess sc_calls sc_log map cl_tok app ss_reqs answered flat_map]. intros x Hx. apply I4. eapply Permutation_in; [apply Permutation_sym; exact P|exact Hx].
    + intros x [<-|Hx]; [|apply I5; exact Hx]. apply I4. eapply Permutation_in; [apply Permutation_sym; exact P|left; auto].
    + constructor; auto.
    + apply reqs_more; auto.
    + constructor; [unfold call_ok; cbn [cl_serial cl_sent cl_tok]; split; [left; auto|discriminate]|].
      apply calls_more; auto. eapply others_differ; eauto.
  - (* wire *)
    destruct (find_call (sc_calls c) tok) as [[t' cb e icc [n|] [|]]|] eqn:F; try (injection H as <-; exact I).
    destruct (find_call_spec _ _ _ F) as (Et & _). cbn [cl_tok] in Et. subst t'.
    pose proof (toks_del c tok _ F) as P. destruct (calls_parts _ _ _ I9 F) as (C1 & C2). cbn in C1. destruct C1 as (C0 & C1).
    pose proof (Permutation_NoDup P I3) as D. 
    assert (Q : incl (tok :: map cl_tok (del_call (sc_calls c) tok) ++ map rq_tok (ss_reqs (sc_sess c)) ++ answered (sc_log c)) st).
    { intros x Hx. apply I4. eapply Permutation_in; [apply Permutation_sym; exact P|exact Hx]. }
    destruct ok; cbn [negb] in H; injection H as <-.
    + constructor; cbn [sc_sess sc_calls sc_log drawn nexts flat_map app]; auto.
      * unfold toks. cbn [sc_sess sc_calls sc_log answered flat_map app]. destruct cb; [exact D|apply nodup_tail in D; exact D].
      * unfold toks. cbn [sc_sess sc_calls sc_log answered flat_map app]. destruct cb; [exact Q|intros x Hx; apply Q; right; exact Hx].
      * apply reqs_more; auto.
      * assert (C3 : Forall (call_ok (EvSent tok (Message (Header (entity_id e) 0 icc n None) (BEnt e)) :: sc_log c)) (del_call (sc_calls c) tok)) by (apply calls_more; auto).
        destruct cb; auto. constructor; auto. unfold call_ok. cbn [cl_serial cl_sent cl_tok cl_ent]. split; [right; auto|]. intros _.
        eexists. split; [left; reflexivity|]. split; reflexivity.
      * cbn [log_ok m_hdr h_serial]. auto.
    + constructor; cbn [set_calls sc_sess sc_calls sc_log]; auto.
      * unfold toks. cbn [set_calls sc_sess sc_calls sc_log]. apply nodup_tail in D. exact D.
      * unfold toks. cbn [set_calls sc_sess sc_calls sc_log]. intros x Hx. apply Q. right. exact Hx.
  - (* add *)
    destruct (find_call (sc_calls c) tok) as [[t' cb e icc [n|] [|]]|] eqn:F; try (injection H as <-; exact I).
    destruct (find_call_spec _ _ _ F) as (Et & _). cbn [cl_tok] in Et. subst t'. injection H as <-.
    pose proof (toks_del c tok _ F) as P. destruct (calls_parts _ _ _ I9 F) as (C1 & C2). cbn in C1. destruct C1 as (C0 & C1). specialize (C1 eq_refl).
    assert (X : exists gone, Permutation (toks c) (gone ++ map cl_tok (del_call (sc_calls c) tok) ++ map rq_tok (add_request (ss_reqs (sc_sess c)) (Request (entity_id e) n tok)) ++ answered (sc_log c))).
    { destruct (add_spec (ss_reqs (sc_sess c)) (Request (entity_id e) n tok)) as [(-> & _)|(l1 & x & l2 & E & -> & _)].
      - exists []. cbn [app]. rewrite map_app. cbn [map rq_tok]. rewrite P. apply move_in.
      - exists [rq_tok x]. rewrite P, E. rewrite !map_app. cbn [map rq_tok app]. apply swap_in. }
    destruct X as (gone & X). pose proof (Permutation_NoDup X I3) as D. apply nodup_app_r in D.
    constructor; cbn [sc_sess sc_calls sc_log ss_next ss_reqs]; auto.
    + intros x Hx. apply I4. eapply Permutation_in; [apply Permutation_sym; exact X|]. apply in_or_app. right. exact Hx.
    + destruct (add_spec (ss_reqs (sc_sess c)) (Request (entity_id e) n tok)) as [(-> & Y)|(l1 & x & l2 & E & -> & Y)].
      * rewrite map_app. cbn [map]. apply (Permutation_NoDup (Permutation_cons_append _ _)). constructor; auto.
      * rewrite E in I7. rewrite map_app in *. cbn [map] in *. rewrite <- Y. exact I7.
    + destruct (add_spec (ss_reqs (sc_sess c)) (Request (entity_id e) n tok)) as [(-> & Y)|(l1 & x & l2 & E & -> & Y)].
      * apply Forall_app. split; auto.
      * rewrite E in I8. apply Forall_app in I8. destruct I8 as (A & B). inversion B; subst. apply Forall_app. split; auto.
  - (* icc *)
    destruct (sc_busy c); [injection H as <-; exact I|]. injection H as <-. constructor; cbn [sc_sess sc_calls sc_log ss_next ss_reqs]; auto.
  - (* take *)
    destruct (sc_busy c) as [m|]; [|injection H as <-; exact I]. destruct (reply_serial m) as [s| |] eqn:R; try discriminate. cbn [bind] in H.
    destruct (Z.eqb_spec s 0); [injection H as <-; constructor; cbn [sc_sess sc_calls sc_log ss_next ss_reqs]; auto|].
    pose proof (take_spec (ss_reqs (sc_sess c)) s) as T. destruct (take_request (ss_reqs (sc_sess c)) s) as [[x|] l].
    + destruct T as (P & S & _). injection H as <-. pose proof (perm_forall _ _ _ P I8) as Q. inversion Q as [|? ? Q1 Q2]; subst.
      assert (X : Permutation (toks c) (map cl_tok (sc_calls c) ++ map rq_tok l ++ rq_tok x :: answered (sc_log c))).
      { unfold toks. apply Permutation_app_head. rewrite (Permutation_map rq_tok P). cbn [map app]. apply Permutation_middle. }
      constructor; cbn [sc_sess sc_calls sc_log ss_next ss_reqs drawn nexts flat_map app]; auto.
      * eapply Permutation_NoDup; [exact X|auto].
      * intros y Hy. apply I4. eapply Permutation_in; [apply Permutation_sym; exact X|exact Hy].
      * pose proof (Permutation_NoDup (Permutation_map rq_msgid P) I7) as D. apply nodup_tail in D. exact D.
      * apply reqs_more; auto.
      * apply calls_more; auto.
      * cbn [log_ok]. split; auto. destruct Q1 as (m0 & A & B & _). exists m0. split; auto. rewrite B. auto.
    + destruct T as (-> & _). injection H as <-. constructor; cbn [sc_sess sc_calls sc_log ss_next ss_reqs]; auto.
Qed.
