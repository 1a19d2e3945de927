(** Properties of histories of one session. *)
From Coq Require Import Permutation.
From Verif Require Import Base LibBase Bits Env EntTerm EntPlat Registry Message Codec Session SpecSession Demo ProofSession ProofSession2.

Lemma started_cons o ops : started (o :: ops) = started [o] ++ started ops.
Proof. unfold started. cbn [flat_map]. rewrite app_nil_r. reflexivity. Qed.
Lemma run_inv ops : forall st c c', sinv st c -> NoDup (started ops ++ st) -> srun c ops = Ok c' -> exists st', sinv st' c'.
Proof.
  induction ops as [|o ops IH]; intros st c c' I N H; cbn [srun] in H; [injection H as <-; eauto|].
  destruct (sstep c o) as [c1| |] eqn:E; try discriminate. cbn [bind] in H. rewrite started_cons, <- app_assoc in N.
  assert (N' : NoDup (started ops ++ started [o] ++ st)).
  { eapply Permutation_NoDup; [|exact N]. rewrite !app_assoc. apply Permutation_app_tail, Permutation_app_comm. }
  eapply (IH (started [o] ++ st)); eauto. eapply step_inv; eauto. apply nodup_app_r in N'. exact N'.
Qed.
Lemma init_inv : sinv [] sinit.
Proof. constructor; cbn; try constructor; auto; intros x []. Qed.
Lemma history ops c : NoDup (started ops) -> srun sinit ops = Ok c -> exists st, sinv st c.
Proof. intros N H. eapply (run_inv ops []); eauto using init_inv. rewrite app_nil_r. auto. Qed.

(** ** What an answer quotes *)
Lemma reply_quotes m n : reply_serial m = Ok n -> n <> 0 -> answers m n.
Proof.
  unfold reply_serial, answers. cbv zeta.
  repeat match goal with |- (if ?c then _ else _) = _ -> _ => destruct c end; try (intros H ?; injection H as <-; contradiction);
  destruct (m_body m) as [| |e]; try discriminate; destruct e; try discriminate; intros H _; injection H as <-; eexists; (split; [reflexivity|constructor]).
Qed.
Lemma reply_proper m : proper m -> exists n, reply_serial m = Ok n /\ forall k, answers m k -> k = n.
Proof.
  intros (e & B & E). unfold reply_serial, answers. rewrite <- E, B.
  destruct e; cbn [entity_id Z.eqb Pos.eqb]; eexists; (split; [reflexivity|]); intros k (e' & X & Q); injection X as <-; inversion Q; reflexivity.
Qed.
Lemma answers_fun m a b : answers m a -> answers m b -> a = b.
Proof. intros (e & E & Q) (e' & E' & Q'). rewrite E in E'. injection E' as <-. inversion Q; subst; inversion Q'; reflexivity. Qed.
Lemma reply_answers m n : proper m -> answers m n -> reply_serial m = Ok n.
Proof. intros P A. destruct (reply_proper m P) as (k & R & U). rewrite R. f_equal. symmetry. auto. Qed.

(** ** No crash *)
Definition calm (c : scfg) : Prop := match sc_busy c with Some m => proper m | None => True end.
Lemma step_calm c o : calm c -> (match o with SIcc m => proper m | _ => True end) -> exists c', sstep c o = Ok c' /\ calm c'.
Proof.
  unfold calm. intros C P. unfold sstep. destruct o as [tok cb e|tok|tok ok|tok|m|].
  - eexists. split; [reflexivity|]. exact C.
  - destruct (find_call (sc_calls c) tok) as [[t' cb e icc [n|] sent]|]; eexists; (split; [reflexivity|]); exact C.
  - destruct (find_call (sc_calls c) tok) as [[t' cb e icc [n|] [|]]|]; try (eexists; (split; [reflexivity|]); exact C).
    destruct ok; cbn [negb]; eexists; (split; [reflexivity|]); exact C.
  - destruct (find_call (sc_calls c) tok) as [[t' cb e icc [n|] [|]]|]; eexists; (split; [reflexivity|]); exact C.
  - destruct (sc_busy c) eqn:B; eexists; (split; [reflexivity|]); [rewrite B; exact C|exact P].
  - destruct (sc_busy c) as [m|] eqn:B; [|eexists; split; [reflexivity|rewrite B; exact C]].
    destruct (reply_proper m C) as (n & R & _). rewrite R. cbn [bind]. destruct (n =? 0); [eexists; split; [reflexivity|exact I]|].
    destruct (take_request _ _) as [[r|] l]; eexists; (split; [reflexivity|exact I]).
Qed.
Lemma run_calm ops : forall c, calm c -> Forall proper (arrivals ops) -> exists c', srun c ops = Ok c'.
Proof.
  induction ops as [|o ops IH]; intros c C P; [eexists; reflexivity|]. cbn [srun].
  destruct (step_calm c o C) as (c1 & E & C1). { destruct o; auto. inversion P; auto. }
  rewrite E. cbn [bind]. apply IH; auto. destruct o; auto. inversion P; auto.
Qed.
Lemma no_crash ops : Forall proper (arrivals ops) -> exists c, srun sinit ops = Ok c.
Proof. apply run_calm. exact I. Qed.

(** ** C31 *)
Lemma log_answer l : forall pre tok m post, log_ok l -> l = pre ++ EvAnswer tok m :: post ->
  exists m0, In (EvSent tok m0) post /\ reply_serial m = Ok (h_serial (m_hdr m0)) /\ h_serial (m_hdr m0) <> 0 /\ log_ok post.
Proof.
  induction l as [|ev l IH]; intros [|p pre] tok m post L E; try discriminate; cbn [app] in E.
  - injection E as -> ->. cbn [log_ok] in L. destruct L as ((m0 & A & B & C) & L). eauto 6.
  - injection E as -> ->. eapply (IH pre); eauto. destruct p; cbn [log_ok] in L; tauto.
Qed.
Lemma callback_once ops c : NoDup (started ops) -> srun sinit ops = Ok c ->
  NoDup (answered (sc_log c)) /\
  forall pre tok m post, sc_log c = pre ++ EvAnswer tok m :: post -> exists m0, In (EvSent tok m0) post /\ answers m (h_serial (m_hdr m0)).
Proof.
  intros N H. destruct (history ops c N H) as (st & I). split.
  - pose proof (i_nodup _ _ I) as D. unfold toks in D. do 2 apply nodup_app_r in D. exact D.
  - intros pre tok m post E. destruct (log_answer _ _ _ _ _ (i_log _ _ I) E) as (m0 & A & B & C & _). exists m0. split; auto. apply reply_quotes; auto.
Qed.

(** ** C30 for sessions, C32 *)
Lemma drawn_app a b : drawn (a ++ b) = drawn a ++ drawn b. Proof. unfold drawn. apply flat_map_app. Qed.
Lemma countdown_split k : forall a n b, countdown k = a ++ n :: b -> n = serial (length b) /\ b = countdown (length b) /\ (k = length a + S (length b))%nat /\
  forall x, In x a -> exists i, (length b < i < k)%nat /\ x = serial i.
Proof.
  induction k; intros a n b E; [destruct a; discriminate|]. cbn [countdown] in E. destruct a as [|y a].
  - cbn [app] in E. injection E as <- <-. assert (L : length (countdown k) = k) by (clear; induction k; cbn; lia). rewrite L. split; auto. split; auto. split; [reflexivity|]. intros x [].
  - cbn [app] in E. injection E as <- E. destruct (IHk a n b E) as (A & B & C & D). split; auto. split; auto. split; [cbn; lia|].
    intros x [<-|Hx]; [exists k; split; [lia|reflexivity]|]. destruct (D x Hx) as (i & Hi & ->). exists i. split; [lia|reflexivity].
Qed.
Lemma drawn_serials ops c k : NoDup (started ops) -> srun sinit ops = Ok c -> (k < length (drawn (sc_log c)))%nat ->
  nth_error (rev (drawn (sc_log c))) k = Some (serial k).
Proof. intros N H K. destruct (history ops c N H) as (st & I). rewrite (i_drawn _ _ I). apply countdown_nth. exact K. Qed.
Lemma window l a n b tok : drawn l = countdown (length (drawn l)) -> l = a ++ EvNext tok n :: b -> (length (drawn a) < 255)%nat -> ~ In n (drawn a).
Proof.
  intros D E L H. rewrite E, drawn_app in D at 1. change (drawn (EvNext tok n :: b)) with (n :: drawn b) in D. symmetry in D.
  destruct (countdown_split _ _ _ _ D) as (A & _ & C & F). destruct (F n H) as (i & Hi & X). rewrite A in X.
  assert (length (drawn b) = i); [|lia]. apply serial_inj; auto. lia.
Qed.
Lemma drawn_suffix l : drawn l = countdown (length (drawn l)) -> forall a b, l = a ++ b -> drawn b = countdown (length (drawn b)).
Proof.
  intros D a b ->. rewrite drawn_app in D. destruct (drawn b) as [|n t] eqn:E; [reflexivity|]. symmetry in D. destruct (countdown_split _ _ _ _ D) as (A & B & _).
  cbn [length countdown]. rewrite <- B, <- A. reflexivity.
Qed.
Lemma right_answer ops c : NoDup (started ops) -> srun sinit ops = Ok c -> forall pre tok m post, sc_log c = pre ++ EvAnswer tok m :: post ->
  exists n p1 p2, post = p1 ++ EvNext tok n :: p2 /\ answers m n /\ ((length (drawn p1) < 255)%nat -> ~ In n (drawn p1)).
Proof.
  intros N H pre tok m post E. destruct (history ops c N H) as (st & I). destruct (log_answer _ _ _ _ _ (i_log _ _ I) E) as (m0 & A & B & C & L).
  pose proof (log_sent_next _ _ _ L A) as X. apply in_split in X. destruct X as (p1 & p2 & X). exists (h_serial (m_hdr m0)), p1, p2.
  split; auto. split; [apply reply_quotes; auto|]. intros W. eapply (window post); eauto.
  apply (drawn_suffix (sc_log c) (i_drawn _ _ I) (pre ++ [EvAnswer tok m])). rewrite <- app_assoc. exact E.
Qed.

(** ** C33, C34 *)
Lemma one_per_id ops c : NoDup (started ops) -> srun sinit ops = Ok c -> NoDup (map rq_msgid (ss_reqs (sc_sess c))).
Proof. intros N H. destruct (history ops c N H) as (st & I). apply (i_ids _ _ I). Qed.
Lemma replaced c tok c' cl n : find_call (sc_calls c) tok = Some cl -> cl_serial cl = Some n -> cl_sent cl = true -> NoDup (map rq_msgid (ss_reqs (sc_sess c))) ->
  sstep c (SAdd tok) = Ok c' ->
  forall r, In r (ss_reqs (sc_sess c')) <-> r = Request (entity_id (cl_ent cl)) n tok \/ In r (ss_reqs (sc_sess c)) /\ rq_msgid r <> entity_id (cl_ent cl).
Proof.
  intros F S T N H. unfold sstep in H. rewrite F in H. destruct cl as [t cb e icc s sent]. cbn in S, T. subst. injection H as <-. cbn [sc_sess ss_reqs cl_ent].
  intros r. destruct (add_spec (ss_reqs (sc_sess c)) (Request (entity_id e) n tok)) as [(-> & Y)|(l1 & x & l2 & E & -> & Y)].
  - rewrite in_app_iff. cbn [In rq_msgid] in *. split.
    + intros [K|[K|[]]]; [right; split; auto; intros Z; apply Y; rewrite <- Z; apply in_map; auto|left; auto].
    + intros [K|(K & _)]; auto.
  - rewrite E in *. cbn [rq_msgid] in Y. rewrite map_app in N. cbn [map] in N. apply NoDup_remove_2 in N. rewrite !in_app_iff in *. cbn [In]. split.
    + intros [K|[K|K]]; [right|left; auto|right]; (split; [auto|]); intros Z; apply N; rewrite Y, <- Z; [left|right]; apply in_map; auto.
    + intros [K|([K|[K|K]] & Z)]; auto. subst. contradiction.
Qed.
Lemma take_exact c m n : sc_busy c = Some m -> proper m -> answers m n -> n <> 0 ->
  exists c', sstep c STake = Ok c' /\
  ((exists l1 r l2, ss_reqs (sc_sess c) = l1 ++ r :: l2 /\ rq_serial r = n /\ Forall (fun x => rq_serial x <> n) l1 /\ sc_log c' = EvAnswer (rq_tok r) m :: sc_log c) \/
   (Forall (fun x => rq_serial x <> n) (ss_reqs (sc_sess c)) /\ sc_log c' = sc_log c)).
Proof.
  intros B P A N. unfold sstep. rewrite B, (reply_answers m n P A). cbn [bind]. replace (n =? 0) with false by lia.
  pose proof (take_spec (ss_reqs (sc_sess c)) n) as T. destruct (take_request (ss_reqs (sc_sess c)) n) as [[r|] l].
  - destruct T as (_ & S & l1 & l2 & E & F). eexists. split; [reflexivity|]. left. exists l1, r, l2. auto.
  - destruct T as (_ & F). eexists. split; [reflexivity|]. right. auto.
Qed.
Lemma stays_step r c o c' : In r (ss_reqs (sc_sess c)) -> undisturbed r c [o] -> sstep c o = Ok c' -> rq_serial r <> 0 -> In r (ss_reqs (sc_sess c')).
Proof.
  intros R (U & _) H Z. unfold sstep in H. destruct o as [tok cb e|tok|tok ok|tok|m|].
  - injection H as <-. exact R.
  - destruct (find_call (sc_calls c) tok) as [[t' cb e icc [n|] sent]|]; injection H as <-; exact R.
  - destruct (find_call (sc_calls c) tok) as [[t' cb e icc [n|] [|]]|]; try (injection H as <-; exact R). destruct ok; injection H as <-; exact R.
  - destruct (find_call (sc_calls c) tok) as [[t' cb e icc [n|] [|]]|]; try (injection H as <-; exact R). injection H as <-. cbn [sc_sess ss_reqs cl_ent] in *.
    destruct (add_spec (ss_reqs (sc_sess c)) (Request (entity_id e) n tok)) as [(-> & Y)|(l1 & x & l2 & E & -> & Y)]; [apply in_or_app; auto|].
    rewrite E in R. cbn [rq_msgid] in Y. apply in_app_or in R. apply in_or_app. destruct R as [R|[R|R]]; [auto|subst; congruence|right; right; auto].
  - destruct (sc_busy c); injection H as <-; exact R.
  - destruct (sc_busy c) as [m|]; [|injection H as <-; exact R]. destruct (reply_serial m) as [s| |] eqn:Q; try discriminate. cbn [bind] in H.
    destruct (Z.eqb_spec s 0); [injection H as <-; exact R|]. pose proof (reply_quotes m s Q n) as A.
    pose proof (take_spec (ss_reqs (sc_sess c)) s) as T. destruct (take_request (ss_reqs (sc_sess c)) s) as [[x|] l]; injection H as <-; cbn [sc_sess ss_reqs].
    + destruct T as (P & S & _). apply (Permutation_in _ P) in R. destruct R as [<-|R]; auto. subst s. contradiction.
    + destruct T as (-> & _). exact R.
Qed.
Lemma stays r ops : rq_serial r <> 0 -> forall c c', In r (ss_reqs (sc_sess c)) -> undisturbed r c ops -> srun c ops = Ok c' -> In r (ss_reqs (sc_sess c')).
Proof.
  intros Z. induction ops as [|o ops IH]; intros c c' R U H; cbn [srun] in H; [injection H as <-; exact R|].
  destruct (sstep c o) as [c1| |] eqn:E; try discriminate. cbn [bind] in H. destruct U as (U & V). apply (IH c1); [|apply V; exact E|exact H].
  apply (stays_step r c o); [exact R| |exact E|exact Z]. split; [exact U|]. intros. exact I.
Qed.
Lemma pending_answered r c ops c1 m : rq_serial r <> 0 -> In r (ss_reqs (sc_sess c)) -> undisturbed r c ops -> srun c ops = Ok c1 ->
  (forall x, In x (ss_reqs (sc_sess c1)) -> rq_serial x = rq_serial r -> x = r) ->
  sc_busy c1 = Some m -> proper m -> answers m (rq_serial r) ->
  exists c2, sstep c1 STake = Ok c2 /\ sc_log c2 = EvAnswer (rq_tok r) m :: sc_log c1.
Proof.
  intros Z R U H O B P A. pose proof (stays r ops Z c c1 R U H) as R1. destruct (take_exact c1 m _ B P A Z) as (c2 & E & [(l1 & x & l2 & L & S & _ & G)|(F & _)]).
  - exists c2. split; auto. rewrite G, (O x); auto. rewrite L. apply in_or_app. right. left. auto.
  - exfalso. rewrite Forall_forall in F. apply (F r); auto.
Qed.
