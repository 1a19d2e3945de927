(** Order on the wire. *)
From Coq Require Import Permutation.
From Verif Require Import Base LibBase Env Registry EntTerm EntPlat Message Session SpecSession ProofSession Pool SpecPool ProofPool.

(** The messages goroutines hold for a session *)
Definition held (s : nat) (l : list (nat * (nat * post))) : list post := flat_map (fun x => if Nat.eqb (fst (snd x)) s then [snd (snd x)] else []) l.
Definition shut (pl : pool) (s : nat) : Prop := exists l, nth_error (pl_lines pl) s = Some l /\ ln_closed l = true.
Lemma call_none l g : call_of l g = None -> ~ In g (map fst l).
Proof.
  induction l as [|[i c] l IH]; cbn [call_of map fst]; [intros _ []|]. destruct (Nat.eqb_spec i g) as [->|N]; [discriminate|]. intros H [X|X]; [congruence|]. exact (IH H X).
Qed.
Lemma drop_none l g : ~ In g (map fst l) -> drop_call l g = l.
Proof.
  unfold drop_call. induction l as [|[i c] l IH]; cbn [map fst filter]; [reflexivity|]. intros N. destruct (Nat.eqb_spec i g) as [->|]; [destruct N; left; reflexivity|].
  cbn [negb]. rewrite IH; [reflexivity|]. intros X. apply N. right. exact X.
Qed.
Lemma drop_split l g c : NoDup (map fst l) -> call_of l g = Some c -> exists l1 l2, l = l1 ++ (g, c) :: l2 /\ drop_call l g = l1 ++ l2.
Proof.
  induction l as [|[i x] l IH]; cbn [call_of map fst]; [discriminate|]. intros N. inversion N as [|? ? N1 N2]; subst.
  destruct (Nat.eqb_spec i g) as [->|M].
  - intros H. injection H as ->. exists [], l. split; [reflexivity|]. unfold drop_call. cbn [filter fst app]. rewrite Nat.eqb_refl. exact (drop_none l g N1).
  - intros H. destruct (IH N2 H) as (l1 & l2 & -> & D). exists ((i, x) :: l1), l2. split; [reflexivity|].
    unfold drop_call in *. cbn [filter fst app]. destruct (Nat.eqb_spec i g); [congruence|]. cbn [negb]. rewrite D. reflexivity.
Qed.
Lemma held_app s a b : held s (a ++ b) = held s a ++ held s b.
Proof. apply flat_map_app. Qed.

(** ** Goroutines hold one message each, for a session there is *)
Definition calls_fine (pl : pool) : Prop := NoDup (map fst (pl_calls pl)) /\ forall x, In x (pl_calls pl) -> (fst (snd x) < length (pl_lines pl))%nat.
Lemma calls_ok env ops pl evs : pool_runs env ops pl evs -> calls_fine pl.
Proof.
  revert ops pl evs. apply (pool_ind env (fun pl _ => calls_fine pl)); [split; [apply NoDup_nil|intros ? []]|].
  intros pl evs op pl' es [N B] S. destruct op; step S; split; unfold set_line; cbn [pl_calls pl_lines]; rewrite ?put_nth_len, ?app_length; auto.
  1:{ intros x X. specialize (B x X). lia. }
  1:{ cbn [map fst]. apply NoDup_cons; [apply call_none; assumption|assumption]. }
  1:{ intros x [<-|X]; [|auto]. cbn [fst snd]. apply nth_error_Some. congruence. }
  all: match goal with H : call_of _ ?g = Some ?c |- _ => destruct (drop_split _ g c N H) as (l1 & l2 & El & ->) end; rewrite El in *.
  all: first [intros x X; apply B; apply in_app_iff in X; apply in_or_app; destruct X; [left|right; right]; assumption
             |rewrite map_app in *; cbn [map fst] in N; apply NoDup_remove_1 in N; exact N].
Qed.
(** every message made is taken, refused, or still held *)
Definition refused (s : nat) (evs : list pool_event) : list post :=
  flat_map (fun ev => match ev with VRefused _ s' m => if Nat.eqb s' s then [m] else [] | _ => [] end) evs.
Lemma pool_ind_runs env (P : pool -> list pool_event -> Prop) : P pool_init [] ->
  (forall ops pl evs op pl' es, pool_runs env ops pl evs -> P pl evs -> pool_step env pl op = Ok (pl', es) -> P pl' (evs ++ es)) -> forall ops pl evs, pool_runs env ops pl evs -> P pl evs.
Proof.
  intros H0 HS ops. induction ops as [|op ops IH] using rev_ind; intros pl evs R; unfold pool_runs in *.
  - injection R as <- <-. exact H0.
  - rewrite pool_run_app in R. destruct (pool_run env pool_init ops) as [[p1 e1]| |] eqn:R1; try discriminate. cbn [bind pool_run] in R.
    destruct (pool_step env p1 op) as [[p2 e2]| |] eqn:S; try discriminate. cbn [bind] in R. injection R as <- <-. rewrite app_nil_r. eapply HS; eauto.
Qed.
Lemma all_made env ops pl evs s : pool_runs env ops pl evs -> Permutation (made s evs) (accepted_posts s evs ++ refused s evs ++ held s (pl_calls pl)).
Proof.
  revert ops pl evs. apply (pool_ind_runs env (fun pl evs => Permutation (made s evs) (accepted_posts s evs ++ refused s evs ++ held s (pl_calls pl)))); [reflexivity|].
  intros ops pl evs op pl' es R IH S. destruct (calls_ok env ops pl evs R) as [N B].
  rewrite made_app, accepted_app. unfold refused in *. rewrite flat_map_app. fold (refused s es) (refused s evs) in *.
  destruct op; step S; unfold set_line; cbn [made accepted_posts refused flat_map pl_calls]; rewrite ?app_nil_r; auto.
  1:{ match goal with |- context [held s ((_, (?x, ?m)) :: _)] => change (held s ((g, (x, m)) :: pl_calls pl)) with ((if Nat.eqb x s then [m] else []) ++ held s (pl_calls pl)) end.
    destruct (Nat.eqb _ s); rewrite ?app_nil_r; auto. cbn [app]. rewrite Permutation_app_comm. cbn [app]. rewrite IH.
    rewrite !app_assoc. apply Permutation_middle. }
  all: match goal with H : call_of _ ?g = Some (?t, ?m) |- _ => destruct (drop_split _ g _ N H) as (l1 & l2 & El & ->); rewrite El, held_app in IH; rewrite held_app;
         change (held s ((g, (t, m)) :: l2)) with ((if Nat.eqb t s then [m] else []) ++ held s l2) in IH end;
       destruct (Nat.eqb _ s); rewrite ?app_nil_r; auto; rewrite IH; rewrite <- ?app_assoc; cbn [app].
  all: try (apply Permutation_app_head; apply Permutation_app_head; symmetry; apply Permutation_middle).
  all: apply Permutation_app_head; rewrite !app_assoc; rewrite <- Permutation_middle; rewrite <- ?app_assoc; reflexivity.
Qed.
Lemma dealt_made env ops pl evs s : pool_runs env ops pl evs -> exists rest, Permutation (made s evs) (dealt s evs ++ rest).
Proof.
  intros R. eexists. rewrite (all_made env ops pl evs s R), (queues env ops pl evs R s), <- app_assoc. reflexivity.
Qed.
(** ** Numbers in the order of making *)
Lemma made_serials env ops pl evs : pool_runs env ops pl evs -> forall s,
  map (fun m => h_serial (po_hdr m)) (made s evs) = map serial (seq 0 (length (made s evs))) /\ next_serial (next_of pl s) = serial (length (made s evs)).
Proof.
  revert ops pl evs. apply (pool_ind env (fun pl evs => forall s, map (fun m => h_serial (po_hdr m)) (made s evs) = map serial (seq 0 (length (made s evs))) /\ next_serial (next_of pl s) = serial (length (made s evs)))).
  { intros [|s]; split; reflexivity. }
  intros pl evs op pl' es IH S s. specialize (IH s). rewrite made_app.
  assert (Q : forall s1 l1 l2 h c, nth_error (pl_lines pl) s1 = Some l1 -> next_of (Pool h (put_nth s1 l2 (pl_lines pl)) c) s = if Nat.eqb s s1 then ln_next l2 else next_of pl s).
  { intros s1 l1 l2 h c E. unfold next_of. cbn [pl_lines]. rewrite put_nth_get. destruct (Nat.eqb_spec s s1) as [->|]; [|reflexivity]. rewrite E. reflexivity. }
  assert (K : forall s1 l1, nth_error (pl_lines pl) s1 = Some l1 -> next_of pl s1 = ln_next l1) by (intros s1 l1 E; unfold next_of; rewrite E; reflexivity).
  destruct op; step S; unfold set_line; cbn [made flat_map pl_lines]; rewrite ?app_nil_r; auto.
  1:{ unfold next_of in *. cbn [pl_lines]. destruct (Nat.lt_ge_cases s (length (pl_lines pl))) as [L|L]; [rewrite nth_error_app1 by exact L; exact IH|].
      rewrite nth_error_app2 by exact L. rewrite (proj2 (nth_error_None _ _) L) in IH. destruct (s - _)%nat as [|[|?]]; exact IH. }
  all: try (match goal with H : nth_error (pl_lines _) ?x = Some ?y |- _ => erewrite (Q x y) by exact H; pose proof (K x y H) as K1; cbn [ln_next];
         destruct (Nat.eqb_spec s x) as [->|]; rewrite <- ?K1; exact IH end).
  match goal with H : nth_error (pl_lines _) ?x = Some ?y |- _ => erewrite (Q x y) by exact H; pose proof (K x y H) as K1; cbn [ln_next]; rewrite <- K1 end.
  rewrite (Nat.eqb_sym s). destruct (Nat.eqb_spec s0 s) as [->|]; rewrite ?app_nil_r; [|exact IH]. destruct IH as [I1 I2].
  rewrite map_app, app_length, seq_app, map_app, I1. cbn [map length po_hdr h_serial seq Nat.add]. rewrite I2, Nat.add_1_r. split; [reflexivity|apply serial_next].
Qed.
(** ** One call of Send at a time *)
Fixpoint busy_after (s : nat) (busy : bool) (evs : list pool_event) : bool :=
  match evs with
  | [] => busy
  | VMake _ s' _ _ _ :: r => busy_after s (if Nat.eqb s' s then true else busy) r
  | VPut _ s' _ :: r | VRefused _ s' _ :: r => busy_after s (if Nat.eqb s' s then false else busy) r
  | _ :: r => busy_after s busy r
  end.
Lemma busy_app s a b : forall busy, busy_after s busy (a ++ b) = busy_after s (busy_after s busy a) b.
Proof. induction a as [|[] a IH]; intros busy; cbn [app busy_after]; auto. Qed.
Lemma one_app s a b : forall busy, one_at_a_time s busy (a ++ b) -> one_at_a_time s busy a /\ one_at_a_time s (busy_after s busy a) b.
Proof.
  induction a as [|[] a IH]; intros busy; cbn [app busy_after one_at_a_time]; auto; intros H; try (destruct (Nat.eqb _ s)); auto.
  destruct H as [-> H]. destruct (IH _ H). auto.
Qed.
Definition in_order (s : nat) (pl : pool) (evs : list pool_event) : Prop := one_at_a_time s false evs ->
  (busy_after s false evs = false -> held s (pl_calls pl) = []) /\ (length (held s (pl_calls pl)) <= 1)%nat /\
  (made s evs = accepted_posts s evs ++ held s (pl_calls pl) \/ shut pl s /\ exists rest, made s evs = accepted_posts s evs ++ rest).
Lemma orders env ops pl evs s : pool_runs env ops pl evs -> in_order s pl evs.
Proof.
  revert ops pl evs. apply (pool_ind_runs env (in_order s)).
  { intros _. repeat split; auto. }
  intros ops pl evs op pl' es R IH S O. destruct (calls_ok env ops pl evs R) as [N B]. apply one_app in O as [O1 O2]. destruct (IH O1) as (I1 & I2 & I3). clear IH.
  rewrite busy_app, made_app, accepted_app.
  assert (Q : forall s1 l1 l2 h c, nth_error (pl_lines pl) s1 = Some l1 -> (ln_closed l1 = true -> ln_closed l2 = true) -> shut pl s -> shut (Pool h (put_nth s1 l2 (pl_lines pl)) c) s).
  { intros s1 l1 l2 h c E C (l & L & H). unfold shut. cbn [pl_lines]. rewrite put_nth_get. destruct (Nat.eqb_spec s s1) as [->|]; [|eauto].
    rewrite E in *. injection L as <-. eauto. }
  destruct op; step S; unfold set_line; cbn [made accepted_posts flat_map pl_lines pl_calls busy_after one_at_a_time] in *; rewrite ?app_nil_r; auto.
  all: try (split; [exact I1|]; split; [exact I2|]; destruct I3 as [I3|[H J]]; [left; exact I3|right; split; [|exact J]];
            first [eapply Q; [eassumption|cbn [ln_closed]; auto|exact H]
                  |destruct H as (l & L & C); exists l; cbn [pl_lines]; rewrite nth_error_app1; [auto|apply nth_error_Some; congruence]]).
  1:{ match goal with |- context [held s ((_, (?x, ?m)) :: _)] => change (held s ((g, (x, m)) :: pl_calls pl)) with ((if Nat.eqb x s then [m] else []) ++ held s (pl_calls pl)) end.
      destruct (Nat.eqb_spec s0 s) as [->|NE]; cbn [app].
      - destruct O2 as [O2 _]. rewrite (I1 O2) in *. split; [discriminate|]. split; [cbn [length]; lia|]. rewrite app_nil_r in I3.
        destruct I3 as [->|[H (r & ->)]]; [left; reflexivity|right; split; [|rewrite <- app_assoc; eauto]]. eapply Q; [eassumption|cbn [ln_closed]; auto|exact H].
      - rewrite app_nil_r. split; [exact I1|]. split; [exact I2|]. destruct I3 as [I3|[H J]]; [left; exact I3|right; split; [|exact J]]. eapply Q; [eassumption|cbn [ln_closed]; auto|exact H]. }
  all: match goal with H : call_of _ ?g = Some (?t, ?m) |- _ => destruct (drop_split _ g _ N H) as (l1 & l2 & El & Ed); rewrite Ed; rewrite El, held_app in I1, I2, I3; rewrite !held_app;
         change (held s ((g, (t, m)) :: l2)) with ((if Nat.eqb t s then [m] else []) ++ held s l2) in I1, I2, I3 end;
       match goal with H : call_of _ ?g = Some (?t, ?m) |- _ => destruct (Nat.eqb_spec t s) as [->|NE]; cbn [app] in I1, I2, I3 end.
  all: try (rewrite ?app_nil_r; split; [exact I1|]; split; [exact I2|]; destruct I3 as [I3|[H J]]; [left; exact I3|right; split; [|exact J]];
            first [exact H|eapply Q; [eassumption|cbn [ln_closed]; congruence|exact H]]).
  all: assert (Z1 : held s l1 = [] /\ held s l2 = []) by (rewrite app_length in I2; cbn [length] in I2; destruct (held s l1), (held s l2); cbn [length] in I2; try lia; auto);
       destruct Z1 as [Z1 Z2]; rewrite Z1, Z2 in *; cbn [app length] in *; split; [reflexivity|]; split; [lia|]; rewrite ?app_nil_r.
  4:{ exfalso. assert (In (g, (s, p0)) (pl_calls pl)) as X by (rewrite El; apply in_or_app; right; left; reflexivity). specialize (B _ X). cbn [fst snd] in B. apply nth_error_Some in B. congruence. }
  3:{ destruct I3 as [I3|[(l' & L & C) J]]; [left; exact I3|congruence]. }
  2:{ right. split; [|destruct I3 as [->|[_ J]]; eauto]. unfold shut. cbn [pl_lines]. rewrite put_nth_get, Nat.eqb_refl. match goal with H : nth_error _ s = _ |- _ => rewrite H end. eauto. }
  right. split; [|destruct I3 as [->|[_ J]]; eauto]. unfold shut. eauto.
Qed.
Lemma dealt_order env ops pl evs s : pool_runs env ops pl evs -> one_at_a_time s false evs -> exists rest, made s evs = dealt s evs ++ rest.
Proof.
  intros R O. destruct (orders env ops pl evs s R O) as (_ & _ & I). rewrite (queues env ops pl evs R s) in I.
  destruct I as [->|[_ (r & ->)]]; rewrite <- app_assoc; eauto.
Qed.
Lemma wire_serials env ops pl evs s i m : pool_runs env ops pl evs -> one_at_a_time s false evs -> nth_error (dealt s evs) i = Some m -> h_serial (po_hdr m) = serial i.
Proof.
  intros R O H. destruct (dealt_order env ops pl evs s R O) as (r & E). destruct (made_serials env ops pl evs R s) as [M _].
  assert (H1 : nth_error (made s evs) i = Some m) by (rewrite E, nth_error_app1; [exact H|apply nth_error_Some; congruence]).
  assert (H2 : nth_error (map (fun m => h_serial (po_hdr m)) (made s evs)) i = Some (h_serial (po_hdr m))) by (rewrite nth_error_map, H1; reflexivity).
  assert (L : (i < length (made s evs))%nat) by (apply nth_error_Some; congruence).
  rewrite M, nth_error_map, (nth_error_nth' _ 0%nat) in H2 by (rewrite seq_length; exact L). cbn [option_map] in H2. rewrite seq_nth in H2 by exact L. injection H2 as <-. reflexivity.
Qed.
