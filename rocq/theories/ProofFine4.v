(** One session among the goroutines: calls, serial numbers, requests. *)
From Coq Require Import Permutation.
From Verif Require Import Base LibBase Env EntTerm EntPlat Registry Message Timer Session Server Fine.
From Verif Require Import SpecSession SpecTimer SpecServer SpecFine ProofSession ProofSession2 ProofSession3 ProofFine.

(** Events about the calls and messages of a session *)
Definition about (id : Z) (x : fevent) : bool :=
  match x with
  | XStart i _ _ _ | XReply i _ _ | XCastTo _ i _ _ | XNext i _ _ | XWire i _ _ | XAdd i _ | XIcc i _ | XTake i _ _ => i =? id
  | _ => false
  end.
Definition begun_on (id : Z) (evs : list fevent) : list (Z * Z * bool * entity) := filter (fun x => fst (fst (fst x)) =? id) (flat_map begun evs).
Definition names_on (id : Z) (evs : list fevent) : list Z := map (fun x => snd (fst (fst x))) (begun_on id evs).

(** ** Readings of the events *)
Lemma find_app {A} (f : A -> bool) a b : find f (a ++ b) = match find f a with Some x => Some x | None => find f b end.
Proof. induction a as [|x a IH]; cbn; [reflexivity|]. destruct (f x); [reflexivity|exact IH]. Qed.
Lemma begun_snoc evs x : flat_map begun (evs ++ [x]) = flat_map begun evs ++ begun x.
Proof. rewrite flat_map_app. cbn. rewrite app_nil_r. reflexivity. Qed.
Lemma names_snoc evs x : names (evs ++ [x]) = names evs ++ map (fun y => snd (fst (fst y))) (begun x).
Proof. unfold names. rewrite begun_snoc, map_app. reflexivity. Qed.
Lemma names_on_snoc id evs x : names_on id (evs ++ [x]) = names_on id evs ++ map (fun y => snd (fst (fst y))) (filter (fun y => fst (fst (fst y)) =? id) (begun x)).
Proof. unfold names_on, begun_on. rewrite begun_snoc, filter_app, map_app. reflexivity. Qed.
Lemma names_on_in id evs tok : In tok (names_on id evs) -> In tok (names evs).
Proof. unfold names_on, names, begun_on. rewrite !in_map_iff. intros (x & E & I). apply filter_In in I. exists x. tauto. Qed.
Lemma numbered_snoc id evs x : numbered id (evs ++ [x]) = numbered id evs ++ match x with XNext i _ n => if i =? id then [n] else [] | _ => [] end.
Proof. unfold numbered. rewrite flat_map_app. cbn. rewrite app_nil_r. reflexivity. Qed.
Lemma told_snoc id evs x : told_last id (evs ++ [x]) = match x with XIcc i m => if (i =? id) && (0 <? h_icc (m_hdr m)) then h_icc (m_hdr m) else told_last id evs | _ => told_last id evs end.
Proof. unfold told_last. rewrite fold_left_app. reflexivity. Qed.
Lemma entity_more id evs x tok e : entity_of id evs tok = Some e -> entity_of id (evs ++ [x]) tok = Some e.
Proof. unfold entity_of. rewrite begun_snoc, find_app. destruct (find _ _) as [[[[? ?] ?] ?]|]; [auto|discriminate]. Qed.
Lemma number_more id evs x tok n : number_of id evs tok = Some n -> number_of id (evs ++ [x]) tok = Some n.
Proof. unfold number_of. rewrite flat_map_app, find_app. destruct (find _ _) as [[? ?]|]; [auto|discriminate]. Qed.
Lemma waits_app id a : forall past b w, waits id past (a ++ b) w = waits id (past ++ a) b (waits id past a w).
Proof.
  induction a as [|x a IH]; intros past b w; [rewrite app_nil_r; reflexivity|]. cbn [app waits]. rewrite IH, <- app_assoc. reflexivity.
Qed.
Lemma pending_snoc id evs x : pending id (evs ++ [x]) =
  match x with
  | XAdd i tok =>
      if i =? id then
        match entity_of id evs tok, number_of id evs tok with
        | Some e, Some n => filter (fun y => negb (rq_msgid y =? entity_id e)) (pending id evs) ++ [Request (entity_id e) n tok]
        | _, _ => pending id evs
        end
      else pending id evs
  | XTake i _ (Some tok) => if i =? id then filter (fun y => negb (rq_tok y =? tok)) (pending id evs) else pending id evs
  | _ => pending id evs
  end.
Proof. unfold pending. rewrite waits_app. reflexivity. Qed.

(** ** What is known of a session *)
Definition origin (evs : list fevent) (id : Z) (c : call) : Prop :=
  exists a ev b, evs = a ++ ev :: b /\ begun ev = [(id, cl_tok c, cl_cb c, cl_ent c)] /\ cl_icc c = told_last id a.
Record call_known (evs : list fevent) (id : Z) (c : call) : Prop := {
  ck_origin : origin evs id c;
  ck_entity : entity_of id evs (cl_tok c) = Some (cl_ent c);
  ck_number : match cl_serial c with
              | None => forall n, ~ In (XNext id (cl_tok c) n) evs
              | Some n => number_of id evs (cl_tok c) = Some n /\ In (XNext id (cl_tok c) n) evs /\ 1 <= n <= 255
              end;
  ck_sent : if cl_sent c
            then cl_cb c = true /\ exists m n, In (XWire id (cl_tok c) (Some m)) evs /\ cl_serial c = Some n /\ h_serial (m_hdr m) = n /\ m_body m = BEnt (cl_ent c)
            else forall r, ~ In (XWire id (cl_tok c) r) evs }.
Definition live (c : scfg) : list Z := map cl_tok (sc_calls c) ++ map rq_tok (ss_reqs (sc_sess c)).
Definition request_known (evs : list fevent) (id : Z) (r : request) : Prop :=
  1 <= rq_serial r <= 255 /\ exists m, In (XWire id (rq_tok r) (Some m)) evs /\ h_serial (m_hdr m) = rq_serial r /\ exists e, m_body m = BEnt e /\ entity_id e = rq_msgid r.
Record talk (evs : list fevent) (id : Z) (c : scfg) : Prop := {
  tk_next : next_serial (ss_next (sc_sess c)) = serial (length (numbered id evs));
  tk_icc : ss_icc (sc_sess c) = told_last id evs;
  tk_calls : Forall (call_known evs id) (sc_calls c);
  tk_live : NoDup (live c);
  tk_live_in : forall tok, In tok (live c) -> In tok (names_on id evs);
  tk_ids : NoDup (map rq_msgid (ss_reqs (sc_sess c)));
  tk_reqs : Forall (request_known evs id) (ss_reqs (sc_sess c));
  tk_pend : forall r, In r (ss_reqs (sc_sess c)) <-> In r (pending id evs);
  tk_seen : forall tok, (exists n, In (XNext id tok n) evs) \/ (exists r, In (XWire id tok r) evs) -> In tok (names_on id evs);
  tk_added : forall tok, In (XAdd id tok) evs -> ~ In tok (map cl_tok (sc_calls c)) /\ In tok (names_on id evs);
  tk_called : forall m tok, In (XTake id m (Some tok)) evs -> ~ In tok (live c) /\ In tok (names_on id evs) }.
Lemma talk_init evs id : (forall x, In x evs -> about id x = false) -> talk evs id sinit.
Proof.
  intro H.
  assert (N : numbered id evs = [] /\ told_last id evs = 0 /\ pending id evs = []).
  { induction evs as [|x evs IH] using rev_ind; [repeat split|]. destruct IH as (I1 & I2 & I3); [intros y Y; apply H, in_or_app; auto|].
    pose proof (H x ltac:(apply in_or_app; right; left; reflexivity)) as A. rewrite numbered_snoc, told_snoc, pending_snoc, I1, I2, I3.
    destruct x; try (repeat split; fail); cbn in A; try (rewrite A; repeat split; fail); try (rewrite A; destruct tok; repeat split; fail). }
  destruct N as (N1 & N2 & N3). split; cbn.
  - rewrite N1. reflexivity.
  - symmetry. exact N2.
  - constructor.
  - constructor.
  - intros tok [].
  - constructor.
  - constructor.
  - intro r. rewrite N3. reflexivity.
  - intros tok [(n & I)|(n & I)]; pose proof (H _ I) as A; cbn in A; rewrite Z.eqb_refl in A; discriminate.
  - intros tok I. pose proof (H _ I) as A. cbn in A. rewrite Z.eqb_refl in A. discriminate.
  - intros m tok I. pose proof (H _ I) as A. cbn in A. rewrite Z.eqb_refl in A. discriminate.
Qed.

(** Events about other sessions, or none *)
Lemma not_about id x y : about id x = false -> about id y = true -> x <> y.
Proof. intros A B E. subst. congruence. Qed.
Lemma in_snoc_other (evs : list fevent) x y : x <> y -> In y (evs ++ [x]) <-> In y evs.
Proof. intro N. rewrite in_app_iff. cbn. intuition congruence. Qed.
Ltac other A := apply in_snoc_other; apply (not_about _ _ _ A); cbn; apply Z.eqb_refl.
Lemma about_begun id x : about id x = false -> filter (fun y => fst (fst (fst y)) =? id) (begun x) = [].
Proof. intro A. destruct x; cbn in *; try reflexivity; rewrite A; reflexivity. Qed.
Lemma number_none id evs tok : (forall n, ~ In (XNext id tok n) evs) -> number_of id evs tok = None.
Proof.
  intro H. unfold number_of. destruct (find _ _) as [[t n]|] eqn:F; [|reflexivity]. apply find_some in F as (I & E). cbn in E. apply Z.eqb_eq in E. subst t.
  apply in_flat_map in I as (ev & I & K). destruct ev; try contradiction. destruct (Z.eqb_spec id0 id); [|contradiction]. destruct K as [K|[]]. injection K as -> ->. subst. destruct (H n I).
Qed.
Lemma origin_more evs id c x : origin evs id c -> origin (evs ++ [x]) id c.
Proof. intros (a & ev & b & E & B & T). exists a, ev, (b ++ [x]). rewrite E, <- app_assoc. auto. Qed.
Lemma call_more evs id c x : call_known evs id c -> (forall n, x <> XNext id (cl_tok c) n) -> (forall r, x <> XWire id (cl_tok c) r) -> call_known (evs ++ [x]) id c.
Proof.
  intros [C1 C2 C3 C4] X1 X2. split.
  - apply origin_more. exact C1.
  - apply entity_more. exact C2.
  - destruct (cl_serial c) as [n|].
    + destruct C3 as (C3 & C5 & C6). split; [apply number_more; exact C3|]. split; [apply in_or_app; auto|exact C6].
    + intros n I. apply in_app_or in I as [I|[I|[]]]; [exact (C3 n I)|exact (X1 n I)].
  - destruct (cl_sent c).
    + destruct C4 as (C4 & m & n & C5 & C6). split; [exact C4|]. exists m, n. split; [apply in_or_app; auto|exact C6].
    + intros r I. apply in_app_or in I as [I|[I|[]]]; [exact (C4 r I)|exact (X2 r I)].
Qed.
Lemma request_more evs id r x : request_known evs id r -> request_known (evs ++ [x]) id r.
Proof. intros (A & m & B & C). split; [exact A|]. exists m. split; [apply in_or_app; auto|exact C]. Qed.
Lemma talk_other evs id c x : talk evs id c -> about id x = false -> talk (evs ++ [x]) id c.
Proof.
  intros [T1 T2 T3 T4 T5 T6 T7 T8 T9' T9 T10] A. split; try assumption.
  - rewrite T1, numbered_snoc. destruct x; try (rewrite app_nil_r; reflexivity). cbn in A. rewrite A, app_nil_r. reflexivity.
  - rewrite T2, told_snoc. destruct x; try reflexivity. cbn in A. rewrite A. reflexivity.
  - eapply Forall_impl; [|exact T3]. intros k K. apply call_more; [exact K| |]; intros ? E; subst; cbn in A; rewrite Z.eqb_refl in A; discriminate.
  - intros tok I. rewrite names_on_snoc. apply in_or_app. left. auto.
  - eapply Forall_impl; [|exact T7]. intros r K. apply request_more. exact K.
  - intro r. rewrite T8, pending_snoc. destruct x; try reflexivity; cbn in A; rewrite A; [|reflexivity]. destruct tok; reflexivity.
  - intros tok I. rewrite names_on_snoc. apply in_or_app. left. apply T9'. destruct I as [(n & I)|(n & I)]; [left|right]; exists n; revert I; other A.
  - intros tok I. rewrite names_on_snoc. assert (J : In (XAdd id tok) evs) by (revert I; other A). destruct (T9 tok J). split; [assumption|apply in_or_app; auto].
  - intros m tok I. rewrite names_on_snoc. assert (J : In (XTake id m (Some tok)) evs) by (revert I; other A). destruct (T10 m tok J). split; [assumption|apply in_or_app; auto].
Qed.

(** A call begins. *)
Lemma talk_start evs id c tok cb e c' x : talk evs id c -> sstep c (SStart tok cb e) = Ok c' -> begun x = [(id, tok, cb, e)] -> about id x = true -> ~ In tok (names evs) ->
  talk (evs ++ [x]) id c'.
Proof.
  intros [T1 T2 T3 T4 T5 T6 T7 T8 T9' T9 T10] H B A F. cbn in H. injection H as <-.
  assert (Fo : ~ In tok (names_on id evs)) by (intro I; apply F, (names_on_in _ _ _ I)).
  assert (Fn : forall n, ~ In (XNext id tok n) evs) by (intros n I; apply Fo, T9'; eauto).
  assert (Fw : forall r, ~ In (XWire id tok r) evs) by (intros r I; apply Fo, T9'; eauto).
  assert (K : numbered id (evs ++ [x]) = numbered id evs /\ told_last id (evs ++ [x]) = told_last id evs /\ pending id (evs ++ [x]) = pending id evs /\
              (forall n t, x <> XNext id t n) /\ (forall t r, x <> XWire id t r) /\ (forall t, x <> XAdd id t) /\ (forall m t, x <> XTake id m t)).
  { rewrite numbered_snoc, told_snoc, pending_snoc. destruct x; try discriminate B; rewrite app_nil_r; repeat split; discriminate. }
  destruct K as (K1 & K2 & K3 & K4 & K5 & K6 & K7).
  assert (Kn : names_on id (evs ++ [x]) = names_on id evs ++ [tok]) by (rewrite names_on_snoc, B; cbn; rewrite Z.eqb_refl; reflexivity).
  split; cbn.
  - rewrite K1. exact T1.
  - rewrite K2. exact T2.
  - constructor.
    + split; cbn.
      * exists evs, x, []. split; [reflexivity|]. split; [exact B|]. exact T2.
      * unfold entity_of. rewrite begun_snoc, find_app, B. destruct (find _ (flat_map begun evs)) as [[[[i t] b] e0]|] eqn:Ff.
        -- apply find_some in Ff as (I & E). cbn in E. apply andb_true_iff in E as (E1 & E2). apply Z.eqb_eq in E1, E2. subst. exfalso. apply F. unfold names. apply in_map_iff. exists (id, tok, b, e0). auto.
        -- cbn. rewrite !Z.eqb_refl. reflexivity.
      * intros n I. apply in_app_or in I as [I|[I|[]]]; [exact (Fn n I)|exact (K4 n tok I)].
      * intros r I. apply in_app_or in I as [I|[I|[]]]; [exact (Fw r I)|exact (K5 tok r I)].
    + eapply Forall_impl; [|exact T3]. intros k Kk. apply call_more; [exact Kk|intro n; apply K4|intro r; apply K5].
  - unfold live. cbn. constructor; [|exact T4]. intro I. apply Fo, T5. exact I.
  - intros t I. rewrite Kn. apply in_or_app. unfold live in I. cbn in I. destruct I as [<-|I]; [right; left; reflexivity|left; apply T5; exact I].
  - exact T6.
  - eapply Forall_impl; [|exact T7]. intros r Kr. apply request_more. exact Kr.
  - intro r. rewrite K3. apply T8.
  - intros t I. rewrite Kn. apply in_or_app. left. apply T9'. destruct I as [(n & I)|(n & I)]; [left|right]; exists n; (apply in_app_or in I as [I|[I|[]]]; [exact I|]); [destruct (K4 n t I)|destruct (K5 t n I)].
  - intros t I. assert (J : In (XAdd id t) evs) by (apply in_app_or in I as [I|[I|[]]]; [exact I|destruct (K6 t I)]). destruct (T9 t J) as (J1 & J2). rewrite Kn.
    split; [|apply in_or_app; auto]. cbn. intros [<-|I']; [exact (Fo J2)|exact (J1 I')].
  - intros m t I. assert (J : In (XTake id m (Some t)) evs) by (apply in_app_or in I as [I|[I|[]]]; [exact I|destruct (K7 m (Some t) I)]).
    destruct (T10 m t J) as (J1 & J2). rewrite Kn. split; [|apply in_or_app; auto]. unfold live. cbn. intros [<-|I']; [exact (Fo J2)|exact (J1 I')].
Qed.

(** ** Rules of the calls *)
Definition call_rule (a : list fevent) (ev : fevent) : Prop :=
  match ev with
  | XStart _ tok _ _ | XReply _ tok _ | XCastTo _ _ tok _ => ~ In tok (names a)
  | XNext id tok n => In tok (names_on id a) /\ (forall k, ~ In (XNext id tok k) a) /\ n = serial (length (numbered id a))
  | XWire id tok r => (forall r', ~ In (XWire id tok r') a) /\
      exists a1 ev b1 cb e n, a = a1 ++ ev :: b1 /\ begun ev = [(id, tok, cb, e)] /\ In (XNext id tok n) a /\
        (r = None \/ r = Some (Message (Header (entity_id e) 0 (told_last id a1) n None) (BEnt e)))
  | XAdd id tok => ~ In (XAdd id tok) a /\ exists e m, In (id, tok, true, e) (flat_map begun a) /\ In (XWire id tok (Some m)) a
  | XIcc _ m => proper m
  | XTake id m None => forall r, In r (pending id a) -> ~ answers m (rq_serial r)
  | XTake id m (Some tok) => (forall m', ~ In (XTake id m' (Some tok)) a) /\
      exists r m0, In r (pending id a) /\ rq_tok r = tok /\ answers m (rq_serial r) /\ In (XWire id tok (Some m0)) a /\ h_serial (m_hdr m0) = rq_serial r
  | _ => True
  end.

Lemma del_incl l tok x : In x (map cl_tok (del_call l tok)) -> In x (map cl_tok l).
Proof. induction l as [|y l IH]; cbn; [tauto|]. destruct (cl_tok y =? tok); cbn; tauto. Qed.
Lemma call_split evs id c tok k : talk evs id c -> find_call (sc_calls c) tok = Some k ->
  cl_tok k = tok /\ call_known evs id k /\ Forall (call_known evs id) (del_call (sc_calls c) tok) /\ Forall (fun x => cl_tok x <> tok) (del_call (sc_calls c) tok) /\
  NoDup (tok :: map cl_tok (del_call (sc_calls c) tok) ++ map rq_tok (ss_reqs (sc_sess c))).
Proof.
  intros T F. destruct (find_call_spec _ _ _ F) as (E & P). split; [exact E|].
  pose proof (perm_forall _ _ _ P (tk_calls _ _ _ T)) as A. inversion A as [|? ? A1 A2]; subst. split; [exact A1|]. split; [exact A2|].
  assert (N : NoDup (map cl_tok (k :: del_call (sc_calls c) (cl_tok k)) ++ map rq_tok (ss_reqs (sc_sess c)))).
  { eapply Permutation_NoDup; [|exact (tk_live _ _ _ T)]. apply Permutation_app_tail, Permutation_map. exact P. }
  cbn in N. split; [|exact N]. inversion N as [|? ? N1 N2]; subst. apply Forall_forall. intros x I E. apply N1, in_or_app. left. apply (in_map cl_tok) in I. rewrite E in I. exact I.
Qed.

Lemma talk_next evs id c tok t0 cb e icc sent c' : talk evs id c -> find_call (sc_calls c) tok = Some (Call t0 cb e icc None sent) -> sstep c (SNext tok) = Ok c' ->
  talk (evs ++ [XNext id tok (ss_next (sc_sess c'))]) id c' /\ call_rule evs (XNext id tok (ss_next (sc_sess c'))).
Proof.
  intros T F H. destruct (call_split _ _ _ _ _ T F) as (E & K & Ks & No & Nd). cbn in E. subst t0. unfold sstep in H. rewrite F in H. injection H as <-. cbn [sc_sess ss_next].
  destruct T as [T1 T2 T3 T4 T5 T6 T7 T8 T9' T9 T10]. destruct K as [K1 K2 K3 K4]. cbn in K1, K2, K3, K4.
  set (n := next_serial (ss_next (sc_sess c))) in *. assert (Rn : 1 <= n <= 255) by (rewrite T1; apply serial_range).
  assert (Lt : In tok (names_on id evs)) by (apply T5; unfold live; apply in_or_app; left; apply (in_map cl_tok) with (x := Call tok cb e icc None sent); apply find_call_spec in F as (_ & P); eapply Permutation_in; [apply Permutation_sym; exact P|left; reflexivity]).
  set (x := XNext id tok n).
  assert (Nm : names_on id (evs ++ [x]) = names_on id evs) by (rewrite names_on_snoc; cbn; rewrite app_nil_r; reflexivity).
  split; [split; cbn|cbn].
  - rewrite numbered_snoc. cbn. rewrite Z.eqb_refl, app_length, Nat.add_1_r, T1. apply serial_next.
  - rewrite told_snoc. exact T2.
  - constructor.
    + split; cbn; [apply origin_more; exact K1|apply entity_more; exact K2| |].
      * split; [|split; [apply in_or_app; right; left; reflexivity|exact Rn]]. unfold number_of. rewrite flat_map_app, find_app. pose proof (number_none _ _ _ K3) as Z. unfold number_of in Z.
        destruct (find _ (flat_map _ evs)) as [[? ?]|]; [discriminate|]. cbn. rewrite Z.eqb_refl. cbn. rewrite Z.eqb_refl. reflexivity.
      * destruct sent.
        -- destruct K4 as (_ & m & k & _ & X & _). discriminate.
        -- intros r I. apply in_app_or in I as [I|[I|[]]]; [exact (K4 r I)|discriminate].
    + rewrite Forall_forall in *. intros y I. apply call_more; [apply Ks; exact I| |discriminate]. intros k Ex. injection Ex as Ex _. apply (No y I). symmetry. exact Ex.
  - exact Nd.
  - intros t I. rewrite Nm. apply T5. unfold live in *. cbn in I. destruct I as [<-|I]; [|apply in_app_or in I as [I|I]; apply in_or_app; [left; apply del_incl in I; exact I|right; exact I]].
    apply in_or_app. left. apply (in_map cl_tok) with (x := Call tok cb e icc None sent). apply find_call_spec in F as (_ & P). eapply Permutation_in; [apply Permutation_sym; exact P|left; reflexivity].
  - exact T6.
  - eapply Forall_impl; [|exact T7]. intros r. apply request_more.
  - intro r. rewrite pending_snoc. apply T8.
  - intros t I. rewrite Nm. destruct I as [(k & I)|(r & I)]; apply in_app_or in I as [I|[I|[]]]; try discriminate; [apply T9'; eauto|injection I as <- _; exact Lt|apply T9'; eauto].
  - intros t I. apply in_app_or in I as [I|[I|[]]]; [|discriminate]. rewrite Nm. destruct (T9 t I) as (J1 & J2). split; [|exact J2]. intros [<-|J]; [|apply J1, (del_incl _ tok _ J)].
    apply J1. apply (in_map cl_tok) with (x := Call tok cb e icc None sent). apply find_call_spec in F as (_ & P). eapply Permutation_in; [apply Permutation_sym; exact P|left; reflexivity].
  - intros m t I. apply in_app_or in I as [I|[I|[]]]; [|discriminate]. rewrite Nm. destruct (T10 m t I) as (J1 & J2). split; [|exact J2]. unfold live in *. cbn. intro J. apply J1.
    destruct J as [<-|J]; [|apply in_app_or in J as [J|J]; apply in_or_app; [left; apply del_incl in J; exact J|right; exact J]].
    apply in_or_app. left. apply (in_map cl_tok) with (x := Call tok cb e icc None sent). apply find_call_spec in F as (_ & P). eapply Permutation_in; [apply Permutation_sym; exact P|left; reflexivity].
  - split; [exact Lt|]. split; [exact K3|]. exact T1.
Qed.
Lemma call_live c tok k : find_call (sc_calls c) tok = Some k -> In tok (map cl_tok (sc_calls c)).
Proof. intro F. destruct (find_call_spec _ _ _ F) as (<- & P). apply in_map. eapply Permutation_in; [apply Permutation_sym; exact P|left; reflexivity]. Qed.

Lemma talk_wire evs id c tok m ok c' : talk evs id c -> call_message c tok = Some m -> sstep c (SWire tok ok) = Ok c' ->
  let x := XWire id tok (if ok then Some m else None) in talk (evs ++ [x]) id c' /\ call_rule evs x.
Proof.
  intros T Cm H x. unfold call_message in Cm. destruct (find_call (sc_calls c) tok) as [[t0 cb e icc [n|] [|]]|] eqn:F; try discriminate. injection Cm as <-.
  destruct (call_split _ _ _ _ _ T F) as (E & K & Ks & No & Nd). cbn in E. subst t0. unfold sstep in H. rewrite F in H.
  destruct T as [T1 T2 T3 T4 T5 T6 T7 T8 T9' T9 T10]. destruct K as [K1 K2 K3 K4]. cbn in K1, K2, K3, K4.
  pose proof (call_live _ _ _ F) as Lv. assert (Lt : In tok (names_on id evs)) by (apply T5, in_or_app; left; exact Lv).
  assert (Nm : names_on id (evs ++ [x]) = names_on id evs) by (rewrite names_on_snoc; cbn; rewrite app_nil_r; reflexivity).
  assert (Kx : Forall (call_known (evs ++ [x]) id) (del_call (sc_calls c) tok)).
  { rewrite Forall_forall in *. intros y I. apply call_more; [apply Ks; exact I|discriminate|]. intros r Ex. injection Ex as Ex _. apply (No y I). symmetry. exact Ex. }
  assert (C' : sc_sess c' = sc_sess c /\ (sc_calls c' = del_call (sc_calls c) tok \/ ok = true /\ cb = true /\ sc_calls c' = Call tok cb e icc (Some n) true :: del_call (sc_calls c) tok)).
  { destruct ok; cbn in H; injection H as <-; cbn; [destruct cb|]; auto. }
  destruct C' as (Cs & Cc). clear H.
  assert (Lc : incl (map cl_tok (sc_calls c')) (map cl_tok (sc_calls c))).
  { destruct Cc as [->|(_ & _ & ->)]; intros t I; [exact (del_incl _ _ _ I)|]. destruct I as [<-|I]; [exact Lv|exact (del_incl _ _ _ I)]. }
  split; [split|].
  - rewrite Cs, numbered_snoc. cbn. rewrite app_nil_r. exact T1.
  - rewrite Cs, told_snoc. exact T2.
  - destruct Cc as [->|(-> & -> & ->)]; [exact Kx|]. constructor; [|exact Kx]. split; cbn.
    + apply origin_more; exact K1.
    + apply entity_more; exact K2.
    + destruct K3 as (K3 & K5 & K6). split; [apply number_more; exact K3|]. split; [apply in_or_app; auto|exact K6].
    + split; [reflexivity|]. eexists. exists n. split; [apply in_or_app; right; left; reflexivity|]. repeat split.
  - unfold live. rewrite Cs. destruct Cc as [->|(_ & _ & ->)]; [inversion Nd; assumption|exact Nd].
  - intros t I. rewrite Nm. apply T5. unfold live in *. rewrite Cs in I. apply in_app_or in I as [I|I]; apply in_or_app; auto.
  - rewrite Cs. exact T6.
  - rewrite Cs. eapply Forall_impl; [|exact T7]. intros r. apply request_more.
  - intro r. rewrite Cs, pending_snoc. apply T8.
  - intros t I. rewrite Nm. destruct I as [(k & I)|(r & I)]; apply in_app_or in I as [I|[I|[]]]; try discriminate; [apply T9'; eauto|apply T9'; eauto|injection I as <- _; exact Lt].
  - intros t I. apply in_app_or in I as [I|[I|[]]]; [|discriminate]. rewrite Nm. destruct (T9 t I) as (J1 & J2). split; [|exact J2]. intro J. apply J1, Lc, J.
  - intros m' t I. apply in_app_or in I as [I|[I|[]]]; [|discriminate]. rewrite Nm. destruct (T10 m' t I) as (J1 & J2). split; [|exact J2]. unfold live in *. rewrite Cs.
    intro J. apply J1. apply in_app_or in J as [J|J]; apply in_or_app; auto.
  - cbn. split; [exact K4|]. destruct K1 as (a & ev & b & O1 & O2 & O3). cbn in O2, O3. destruct K3 as (_ & K5 & _). exists a, ev, b, cb, e, n.
    split; [exact O1|]. split; [exact O2|]. split; [exact K5|]. destruct ok; [right; rewrite O3; reflexivity|left; reflexivity].
Qed.

Lemma add_ids l r : NoDup (map rq_msgid l) -> NoDup (map rq_msgid (add_request l r)).
Proof.
  intro N. destruct (add_spec l r) as [(-> & Y)|(l1 & x & l2 & E & -> & Y)].
  - rewrite map_app. cbn. eapply Permutation_NoDup; [apply Permutation_cons_append|]. constructor; assumption.
  - rewrite E, map_app in N. cbn in N. rewrite map_app. cbn. rewrite <- Y. exact N.
Qed.
Lemma add_toks l r t : In t (map rq_tok (add_request l r)) -> t = rq_tok r \/ In t (map rq_tok l).
Proof.
  destruct (add_spec l r) as [(-> & Y)|(l1 & x & l2 & -> & -> & Y)]; rewrite !map_app; cbn; rewrite !in_app_iff; cbn; intuition.
Qed.
Lemma add_nodup l r L : NoDup (rq_tok r :: L ++ map rq_tok l) -> NoDup (L ++ map rq_tok (add_request l r)).
Proof.
  intro N. destruct (add_spec l r) as [(-> & Y)|(l1 & x & l2 & -> & -> & Y)].
  - rewrite map_app. cbn. rewrite app_assoc. eapply Permutation_NoDup; [apply Permutation_cons_append|exact N].
  - rewrite !map_app in *. cbn in *. rewrite app_assoc in *. inversion N as [|? ? N1 N2]; subst.
    eapply Permutation_NoDup; [apply Permutation_middle|]. constructor; [|apply NoDup_remove_1 in N2; exact N2].
    intro I. apply N1. apply in_app_or in I as [I|I]; apply in_or_app; [auto|right; right; exact I].
Qed.
Lemma talk_add evs id c tok t0 cb e icc n c' : talk evs id c -> find_call (sc_calls c) tok = Some (Call t0 cb e icc (Some n) true) -> sstep c (SAdd tok) = Ok c' ->
  talk (evs ++ [XAdd id tok]) id c' /\ call_rule evs (XAdd id tok).
Proof.
  intros T F H. destruct (call_split _ _ _ _ _ T F) as (E & K & Ks & No & Nd). cbn in E. subst t0.
  pose proof (replaced c tok c' _ n F eq_refl eq_refl (tk_ids _ _ _ T) H) as Rp. cbn [cl_ent] in Rp.
  unfold sstep in H. rewrite F in H. injection H as <-.
  destruct T as [T1 T2 T3 T4 T5 T6 T7 T8 T9' T9 T10]. destruct K as [K1 K2 K3 K4]. cbn in K1, K2, K3, K4. set (x := XAdd id tok).
  pose proof (call_live _ _ _ F) as Lv. assert (Lt : In tok (names_on id evs)) by (apply T5, in_or_app; left; exact Lv).
  assert (Nm : names_on id (evs ++ [x]) = names_on id evs) by (rewrite names_on_snoc; cbn; rewrite app_nil_r; reflexivity).
  destruct K3 as (K3 & K5 & K6). destruct K4 as (-> & m & n' & K7 & K8 & K9 & K10). injection K8 as <-.
  assert (Nw : request_known evs id (Request (entity_id e) n tok)) by (split; [exact K6|]; exists m; split; [exact K7|]; split; [exact K9|]; exists e; auto).
  split; [split; cbn|cbn].
  - rewrite numbered_snoc. cbn. rewrite app_nil_r. exact T1.
  - rewrite told_snoc. exact T2.
  - rewrite Forall_forall in *. intros y I. apply call_more; [apply Ks; exact I|discriminate|discriminate].
  - apply add_nodup. exact Nd.
  - intros t I. rewrite Nm. unfold live in I. cbn in I. apply in_app_or in I as [I|I]; [apply T5, in_or_app; left; exact (del_incl _ _ _ I)|].
    apply add_toks in I as [->|I]; [exact Lt|apply T5, in_or_app; right; exact I].
  - apply add_ids. exact T6.
  - apply Forall_forall. intros r I. apply Rp in I as [->|(I & _)]; apply request_more; [exact Nw|rewrite Forall_forall in T7; apply T7; exact I].
  - intro r. rewrite (Rp r), pending_snoc. cbn. rewrite Z.eqb_refl, K2, K3, in_app_iff, filter_In, <- T8. cbn. rewrite negb_true_iff, Z.eqb_neq. intuition.
  - intros t I. rewrite Nm. apply T9'. destruct I as [(k & I)|(r & I)]; apply in_app_or in I as [I|[I|[]]]; try discriminate; eauto.
  - intros t I. rewrite Nm. apply in_app_or in I as [I|[I|[]]].
    + destruct (T9 t I) as (J1 & J2). split; [|exact J2]. intro J. apply J1, (del_incl _ _ _ J).
    + injection I as <-. split; [|exact Lt]. intro J. inversion Nd as [|? ? N1 N2]; subst. apply N1, in_or_app. left. exact J.
  - intros m' t I. apply in_app_or in I as [I|[I|[]]]; [|discriminate]. rewrite Nm. destruct (T10 m' t I) as (J1 & J2). split; [|exact J2]. unfold live in *. cbn.
    intro J. apply J1. apply in_app_or in J as [J|J]; apply in_or_app; [left; exact (del_incl _ _ _ J)|]. apply add_toks in J as [->|J]; [left; exact Lv|right; exact J].
  - split; [intro I; destruct (T9 tok I) as (J & _); exact (J Lv)|]. exists e, m. split; [|exact K7]. destruct K1 as (a & ev & b & -> & O2 & _). cbn in O2.
    apply in_flat_map. exists ev. split; [apply in_or_app; right; left; reflexivity|]. rewrite O2. left. reflexivity.
Qed.
Lemma talk_icc evs id c m c' : talk evs id c -> sc_busy c = None -> sstep c (SIcc m) = Ok c' ->
  talk (evs ++ [XIcc id m]) id c' /\ sc_busy c' = Some m.
Proof.
  intros T B H. unfold sstep in H. rewrite B in H. injection H as <-. split; [|reflexivity]. destruct T as [T1 T2 T3 T4 T5 T6 T7 T8 T9' T9 T10]. set (x := XIcc id m).
  assert (Nm : names_on id (evs ++ [x]) = names_on id evs) by (rewrite names_on_snoc; cbn; rewrite app_nil_r; reflexivity).
  split; cbn; try assumption.
  - rewrite numbered_snoc. cbn. rewrite app_nil_r. exact T1.
  - rewrite told_snoc. cbn. rewrite Z.eqb_refl. cbn. rewrite T2. reflexivity.
  - eapply Forall_impl; [|exact T3]. intros k K. apply call_more; [exact K|discriminate|discriminate].
  - intros t I. rewrite Nm. apply T5. exact I.
  - eapply Forall_impl; [|exact T7]. intros r. apply request_more.
  - intro r. rewrite pending_snoc. apply T8.
  - intros t I. rewrite Nm. apply T9'. destruct I as [(k & I)|(r & I)]; apply in_app_or in I as [I|[I|[]]]; try discriminate; eauto.
  - intros t I. rewrite Nm. apply in_app_or in I as [I|[I|[]]]; [|discriminate]. exact (T9 t I).
  - intros m' t I. rewrite Nm. apply in_app_or in I as [I|[I|[]]]; [|discriminate]. exact (T10 m' t I).
Qed.
Lemma talk_take evs id c m c' : talk evs id c -> sc_busy c = Some m -> proper m -> sstep c STake = Ok c' ->
  talk (evs ++ [XTake id m (taken c m)]) id c' /\ sc_busy c' = None /\ call_rule evs (XTake id m (taken c m)).
Proof.
  intros T B P H. unfold sstep in H. rewrite B in H. destruct (reply_proper m P) as (n & Rs & U). unfold taken. rewrite Rs in H |- *. cbn [bind] in H.
  destruct T as [T1 T2 T3 T4 T5 T6 T7 T8 T9' T9 T10].
  assert (Quiet : forall c'', sc_sess c'' = sc_sess c -> sc_calls c'' = sc_calls c -> talk (evs ++ [XTake id m None]) id c'').
  { intros c'' E1 E2. assert (Nm : names_on id (evs ++ [XTake id m None]) = names_on id evs) by (rewrite names_on_snoc; cbn; rewrite app_nil_r; reflexivity).
    split; unfold live in *; rewrite ?E1, ?E2; try assumption.
    - rewrite numbered_snoc. cbn. rewrite app_nil_r. exact T1.
    - rewrite told_snoc. exact T2.
    - eapply Forall_impl; [|exact T3]. intros k K. apply call_more; [exact K|discriminate|discriminate].
    - intros t I. rewrite Nm. apply T5. exact I.
    - eapply Forall_impl; [|exact T7]. intros r. apply request_more.
    - intro r. rewrite pending_snoc. apply T8.
    - intros t I. rewrite Nm. apply T9'. destruct I as [(k & I)|(r & I)]; apply in_app_or in I as [I|[I|[]]]; try discriminate; eauto.
    - intros t I. rewrite Nm. apply in_app_or in I as [I|[I|[]]]; [|discriminate]. exact (T9 t I).
    - intros m' t I. rewrite Nm. apply in_app_or in I as [I|[I|[]]]; [|discriminate]. exact (T10 m' t I). }
  destruct (Z.eqb_spec n 0) as [N0|NZ].
  - injection H as <-. split; [apply Quiet; reflexivity|]. split; [reflexivity|]. cbn. intros r I A. apply T8 in I. rewrite Forall_forall in T7. destruct (T7 r I) as (S & _). apply U in A. lia.
  - pose proof (take_spec (ss_reqs (sc_sess c)) n) as Ts. destruct (take_request (ss_reqs (sc_sess c)) n) as [[r|] l]; injection H as <-; cbn [fst].
    2:{ destruct Ts as (-> & Ts). split; [apply Quiet; [destruct (sc_sess c); reflexivity|reflexivity]|]. split; [reflexivity|]. cbn. intros r I A. apply T8 in I. rewrite Forall_forall in Ts. apply (Ts r I). apply U in A. exact A. }
    destruct Ts as (Pm & Sr & _). set (x := XTake id m (Some (rq_tok r))).
    assert (Ir : In r (ss_reqs (sc_sess c))) by (eapply Permutation_in; [apply Permutation_sym; exact Pm|left; reflexivity]).
    assert (Nm : names_on id (evs ++ [x]) = names_on id evs) by (rewrite names_on_snoc; cbn; rewrite app_nil_r; reflexivity).
    assert (Nl : NoDup (rq_tok r :: map cl_tok (sc_calls c) ++ map rq_tok l)).
    { eapply Permutation_NoDup; [|exact T4]. unfold live. etransitivity; [apply Permutation_app_head, (Permutation_map rq_tok Pm)|]. cbn. apply Permutation_sym, Permutation_middle. }
    assert (Ni : NoDup (rq_msgid r :: map rq_msgid l)) by (eapply Permutation_NoDup; [|exact T6]; apply (Permutation_map rq_msgid Pm)).
    inversion Nl as [|? ? Nl1 Nl2]; subst. inversion Ni as [|? ? Ni1 Ni2]; subst.
    assert (Inc : forall y, In y l -> In y (ss_reqs (sc_sess c))) by (intros y I; eapply Permutation_in; [apply Permutation_sym; exact Pm|right; exact I]).
    assert (Ml : incl (map rq_tok l) (map rq_tok (ss_reqs (sc_sess c)))) by (intros t I; apply in_map_iff in I as (y & <- & I); apply in_map, Inc, I).
    split; [|split; [reflexivity|]].
    + split; cbn; try assumption.
      * rewrite numbered_snoc. cbn. rewrite app_nil_r. exact T1.
      * rewrite told_snoc. exact T2.
      * eapply Forall_impl; [|exact T3]. intros k K. apply call_more; [exact K|discriminate|discriminate].
      * intros t I. rewrite Nm. apply T5. unfold live in *. cbn in I. apply in_app_or in I as [I|I]; apply in_or_app; auto.
      * apply Forall_forall. intros y I. apply request_more. rewrite Forall_forall in T7. apply T7, Inc, I.
      * intro y. rewrite pending_snoc. cbn. rewrite Z.eqb_refl, filter_In, <- T8, negb_true_iff, Z.eqb_neq. split.
        -- intro I. split; [apply Inc; exact I|]. intro Et. apply Nl1, in_or_app. right. rewrite <- Et. apply in_map. exact I.
        -- intros (I & Ne). apply (Permutation_in _ Pm) in I as [<-|I]; [congruence|exact I].
      * intros t I. rewrite Nm. apply T9'. destruct I as [(k & I)|(q & I)]; apply in_app_or in I as [I|[I|[]]]; try discriminate; eauto.
      * intros t I. rewrite Nm. apply in_app_or in I as [I|[I|[]]]; [|discriminate]. exact (T9 t I).
      * intros m' t I. rewrite Nm. unfold live. cbn. apply in_app_or in I as [I|[I|[]]].
        -- destruct (T10 m' t I) as (J1 & J2). split; [|exact J2]. intro J. apply J1. unfold live. apply in_app_or in J as [J|J]; apply in_or_app; auto.
        -- injection I as _ <-. split; [exact Nl1|]. apply T5. unfold live. apply in_or_app. right. apply in_map. exact Ir.
    + cbn. split.
      * intros m' I. destruct (T10 m' _ I) as (J & _). apply J. unfold live. apply in_or_app. right. apply in_map. exact Ir.
      * rewrite Forall_forall in T7. destruct (T7 r Ir) as (_ & m0 & W & S & _). exists r, m0. split; [apply T8; exact Ir|]. split; [reflexivity|].
        split; [apply reply_quotes; assumption|]. split; [exact W|exact S].
Qed.
