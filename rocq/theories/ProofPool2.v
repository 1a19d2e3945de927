(** What is written is what was sent, if nobody changes it; order on the wire. *)
From Verif Require Import Base LibBase Bits Env Registry EntTerm EntPlat Message Session SpecSession SpecMsg ProofSession ProofBody4 Pool SpecPool ProofPool.

(** ** How many messages hold a body *)
Definition cnt (p : nat) (l : list post) : nat := length (filter (fun m => Nat.eqb (po_ptr m) p) l).
Definition called (pl : pool) : list post := map (fun x => snd (snd x)) (pl_calls pl).
Definition queued (pl : pool) : list post := concat (map ln_queue (pl_lines pl)).
Definition dealt_with (p : nat) (ev : pool_event) : bool :=
  match ev with VWire _ _ m _ | VFailed _ m _ => Nat.eqb (po_ptr m) p | _ => false end.
Definition deals (p : nat) (evs : list pool_event) : nat := length (filter (dealt_with p) evs).
Lemma cnt_app p a b : cnt p (a ++ b) = (cnt p a + cnt p b)%nat.
Proof. unfold cnt. rewrite filter_app, app_length. reflexivity. Qed.
Lemma cnt_cons p m l : cnt p (m :: l) = ((if Nat.eqb (po_ptr m) p then 1 else 0) + cnt p l)%nat.
Proof. unfold cnt. cbn [filter]. destruct (Nat.eqb _ _); reflexivity. Qed.
Lemma cnt_put p s l l' : forall L, nth_error L s = Some l ->
  (cnt p (concat (map ln_queue (put_nth s l' L))) + cnt p (ln_queue l) = cnt p (concat (map ln_queue L)) + cnt p (ln_queue l'))%nat.
Proof.
  revert s. induction s as [|s IH]; intros [|x L] E; try discriminate; cbn [put_nth map concat]; rewrite !cnt_app.
  - injection E as ->. lia.
  - pose proof (IH L E). lia.
Qed.
Lemma cnt_drop p g c l : call_of l g = Some c ->
  (cnt p (map (fun x => snd (snd x)) (drop_call l g)) + cnt p [snd c] <= cnt p (map (fun x => snd (snd x)) l))%nat.
Proof.
  induction l as [|[i x] l IH]; cbn [call_of]; [discriminate|]. unfold drop_call. cbn [filter fst]. destruct (Nat.eqb i g) eqn:E; cbn [negb].
  - intros H. injection H as ->. cbn [map snd]. change (snd c :: map (fun x => snd (snd x)) l) with ([snd c] ++ map (fun x : nat * (nat * post) => snd (snd x)) l). rewrite cnt_app.
    enough (cnt p (map (fun x => snd (snd x)) (filter (fun x => negb (Nat.eqb (fst x) g)) l)) <= cnt p (map (fun x : nat * (nat * post) => snd (snd x)) l))%nat by lia.
    clear. induction l as [|[j y] l IH]; cbn [filter map fst snd]; [lia|]. destruct (negb _); cbn [map snd]; unfold cnt in *; cbn [filter]; destruct (Nat.eqb (po_ptr (snd y)) p); cbn [length]; lia.
  - intros H. specialize (IH H). cbn [map snd]. unfold drop_call in IH. rewrite !cnt_cons in *. lia.
Qed.
Lemma cnt_one p m : cnt p [m] = if Nat.eqb (po_ptr m) p then 1%nat else 0%nat.
Proof. unfold cnt. cbn [filter]. destruct (Nat.eqb _ _); reflexivity. Qed.
Lemma counted env ops pl evs : pool_runs env ops pl evs -> forall p, (cnt p (called pl) + cnt p (queued pl) + deals p evs <= times_sent p evs)%nat.
Proof.
  revert ops pl evs. apply (pool_ind env (fun pl evs => forall p, (cnt p (called pl) + cnt p (queued pl) + deals p evs <= times_sent p evs)%nat)); [intros p; cbn; lia|].
  intros pl evs op pl' es IH S p. specialize (IH p). unfold deals, times_sent in *. rewrite !filter_app, !app_length.
  unfold called, queued in *.
  assert (K : forall s l l', nth_error (pl_lines pl) s = Some l ->
    (cnt p (concat (map ln_queue (put_nth s l' (pl_lines pl)))) + cnt p (ln_queue l) = cnt p (concat (map ln_queue (pl_lines pl))) + cnt p (ln_queue l'))%nat)
    by (intros; apply cnt_put; assumption).
  assert (D : forall g c, call_of (pl_calls pl) g = Some c ->
    (cnt p (map (fun x => snd (snd x)) (drop_call (pl_calls pl) g)) + cnt p [snd c] <= cnt p (map (fun x => snd (snd x)) (pl_calls pl)))%nat) by (intros; apply cnt_drop; assumption).
  destruct op; step S; unfold set_line; cbn [pl_heap pl_lines pl_calls filter dealt_with length];
    repeat match goal with
    | H : nth_error (pl_lines _) ?x = Some ?y |- context [put_nth ?x ?l' _] => pose proof (K x y l' H); cbn [ln_queue] in *; clear K
    | H : call_of _ ?g = Some ?c |- _ => pose proof (D g c H); cbn [snd] in *; clear D
    end; clear K D || idtac;
    repeat match goal with H : ln_queue ?l = _, H1 : context [ln_queue ?l] |- _ => lazymatch H1 with H => fail | _ => rewrite H in H1 end end;
    rewrite ?map_app, ?concat_app in *; cbn [map concat ln_queue snd] in *; rewrite ?cnt_app, ?cnt_cons in *;
    repeat match goal with |- context [cnt p []] => change (cnt p []) with 0%nat | H : context [cnt p []] |- _ => change (cnt p []) with 0%nat in H end;
    cbn [po_ptr] in *;
    repeat match goal with |- context [Nat.eqb ?x p] => destruct (Nat.eqb x p) | H : context [Nat.eqb ?x p] |- _ => destruct (Nat.eqb x p) end; cbn [length]; try lia.
Qed.

(** ** What was sent *)
Lemma value_new env ops pl evs a p e b : pool_runs env ops pl evs -> evs = a ++ VNew p e :: b -> value p a = None.
Proof.
  intros R E. destruct (pool_moment env ops pl evs a _ b R E) as (ops1 & op & pl1 & pl2 & R1 & S). rewrite <- (heap_value env _ _ _ R1 p).
  destruct op; cbn [pool_step] in S; cbv zeta in S;
  repeat (first [discriminate | match type of S with context [match ?x with _ => _ end] => destruct x eqn:? end]); try discriminate.
  injection S as _ <- _. apply nth_error_None. lia.
Qed.
Lemma value_made env ops pl evs a g s h p e b : pool_runs env ops pl evs -> evs = a ++ VMake g s h p e :: b -> value p a = Some e.
Proof.
  intros R E. destruct (pool_moment env ops pl evs a _ b R E) as (ops1 & op & pl1 & pl2 & R1 & S). rewrite <- (heap_value env _ _ _ R1 p).
  destruct op; cbn [pool_step] in S; cbv zeta in S;
  repeat (first [discriminate | match type of S with context [match ?x with _ => _ end] => destruct x eqn:? end]); try discriminate.
  injection S as _ _ _ _ <- <-. assumption.
Qed.
Lemma value_failed env ops pl evs a s m v b : pool_runs env ops pl evs -> evs = a ++ VFailed s m v :: b ->
  exists e, value (po_ptr m) a = Some e /\ (forall d, encode env e = Ok d -> v = encoded e).
Proof.
  intros R E. destruct (pool_moment env ops pl evs a _ b R E) as (ops1 & op & pl1 & pl2 & R1 & S). pose proof (heap_value env _ _ _ R1 (po_ptr m)) as H.
  destruct op; cbn [pool_step] in S; cbv zeta in S;
  repeat (first [discriminate | match type of S with context [match ?x with _ => _ end] => destruct x eqn:? end]); try discriminate;
  injection S as _ _ <- <-; rewrite <- H; eexists; (split; [eassumption|]); intros; congruence.
Qed.
Lemma kept env ops pl evs p (K : entity -> Prop) e a : pool_runs env ops pl evs -> value p a = Some e -> K e ->
  (forall v, K v -> exists d, encode env v = Ok d) ->
  forall b c, evs = a ++ b ++ c -> untouched_in p b ->
  (forall v, K v -> K (encoded v)) \/ deals p b = 0%nat ->
  exists v, value p (a ++ b) = Some v /\ K v.
Proof.
  intros R V Ke En b. induction b as [|ev b IH] using rev_ind; intros c E U D.
  - rewrite app_nil_r. eauto.
  - rewrite <- app_assoc in E. cbn [app] in E. destruct (IH (ev :: c)) as (v & Vv & Kv); [exact E|intros x X; apply (U x); apply in_or_app; left; exact X| |].
    { destruct D as [D|D]; [left; exact D|right]. unfold deals in *. rewrite filter_app, app_length in D. lia. }
    rewrite app_assoc, value_snoc. rewrite Vv. cbn [fold_left]. assert (E2 : evs = (a ++ b) ++ ev :: c) by (rewrite <- app_assoc; exact E).
    assert (D2 : dealt_with p ev = true -> forall v, K v -> K (encoded v)).
    { intros T. destruct D as [D|D]; [exact D|]. unfold deals in D. rewrite filter_app, app_length in D. cbn [filter] in D. rewrite T in D. cbn [length] in D. lia. }
    destruct ev as [q x|q x| | | |? ? m ?|? m w]; cbn [after dealt_with] in *; eauto.
    + destruct (Nat.eqb_spec q p) as [->|]; [|eauto]. rewrite (value_new env ops pl evs _ _ _ _ R E2) in Vv. discriminate.
    + destruct (Nat.eqb_spec q p) as [->|]; [|eauto]. destruct (U x). apply in_or_app. right. left. reflexivity.
    + destruct (Nat.eqb_spec (po_ptr m) p); [|eauto]. cbn [option_map]. eauto.
    + destruct (Nat.eqb_spec (po_ptr m) p) as [Ep|]; [|eauto]. destruct (value_failed env ops pl evs _ _ _ _ _ R E2) as (v' & V' & W).
      rewrite Ep in V'. assert (v' = v) by congruence. subst v'. destruct (En v Kv) as (d & Ed). rewrite (W d Ed). eauto.
Qed.
Lemma frame_same env h e v rnd d : encode env v = encode env e -> entity_id v = entity_id e -> frame_of env h v rnd d -> frame_of env h e rnd d.
Proof.
  intros A B (m' & H). unfold frame_of, msg_encode, enc_body in *. cbn [m_body m_hdr body_id] in *. rewrite A, B in H.
  destruct (encode env e) as [raw| |]; try discriminate. cbn [bind] in *. destruct (set_body_size (h_prop h) (u16 (zlen raw))); try discriminate. cbn [bind] in *.
  destruct (hdr_encode _) as [[hb h2]| |]; try discriminate. cbn [bind] in *. injection H as <- _. eauto.
Qed.
Lemma times_app p a b : times_sent p (a ++ b) = (times_sent p a + times_sent p b)%nat.
Proof. unfold times_sent. rewrite filter_app, app_length. reflexivity. Qed.
Lemma written_alone env ops pl evs a s rnd m d b : pool_runs env ops pl evs -> evs = a ++ VWire s rnd m d :: b -> times_sent (po_ptr m) evs = 1%nat -> deals (po_ptr m) a = 0%nat.
Proof.
  intros R E T. assert (R' := R). destruct (pool_moment env ops pl evs a _ b R E) as (ops1 & op & pl1 & pl2 & R1 & S).
  pose proof (counted env _ _ _ R1 (po_ptr m)) as C. rewrite E, times_app in T.
  enough (1 <= cnt (po_ptr m) (queued pl1))%nat by lia.
  destruct op; cbn [pool_step] in S; cbv zeta in S;
  repeat (first [discriminate | match type of S with context [match ?x with _ => _ end] => destruct x eqn:? end]); try discriminate.
  injection S as _ <- _ <- _. unfold queued. match goal with H : nth_error (pl_lines pl1) _ = Some ?l |- _ =>
    pose proof (cnt_put (po_ptr p) _ l (Line 0 0 [] true true) _ H) as K end. cbn [ln_queue] in K.
  match goal with H : ln_queue _ = _ |- _ => rewrite H in K end. rewrite cnt_cons, Nat.eqb_refl in K. unfold cnt at 4 in K. cbn in K. lia.
Qed.
Lemma as_sent env ops pl evs a g s h p e b rnd d c raw : pool_runs env ops pl evs ->
  evs = a ++ VMake g s h p e :: b ++ VWire s rnd (Post h p) d :: c -> untouched_in p b -> encode env e = Ok raw -> (uses_up e -> times_sent p evs = 1%nat) ->
  frame_of env h e rnd d.
Proof.
  intros R E U En X. pose proof (value_made env ops pl evs a g s h p e _ R E) as V.
  set (a1 := a ++ [VMake g s h p e]). assert (V1 : value p a1 = Some e) by (unfold a1; rewrite value_snoc; exact V).
  assert (E1 : evs = a1 ++ b ++ VWire s rnd (Post h p) d :: c) by (unfold a1; rewrite <- app_assoc; exact E).
  assert (E2 : evs = (a1 ++ b) ++ VWire s rnd (Post h p) d :: c) by (rewrite <- app_assoc; exact E1).
  destruct (written_value env ops pl evs (a1 ++ b) s rnd (Post h p) d c R E2) as (v & Vv & F). cbn [po_ptr po_hdr] in *.
  assert (Q : encode env v = encode env e /\ entity_id v = entity_id e); [|apply (frame_same env h e v); tauto].
  assert (D : (forall x, e <> E0801 x) \/ uses_up e) by (destruct e; try (left; discriminate); right; eexists; reflexivity).
  destruct D as [D|D].
  - destruct (kept env ops pl evs p (fun v => encode env v = Ok raw /\ entity_id v = entity_id e /\ forall x, v <> E0801 x) e a1 R V1) with (b := b) (c := VWire s rnd (Post h p) d :: c) as (v' & V' & K1 & K2 & _); auto.
    + intros w (W & _). eauto.
    + left. intros w (W1 & W2 & W3). split; [apply repeat_others; assumption|]. split; [rewrite <- W2; destruct w; reflexivity|]. intros x Ex. destruct w; try discriminate. eapply W3; reflexivity.
    + rewrite Vv in V'. injection V' as ->. rewrite K1, K2. auto.
  - destruct (kept env ops pl evs p (fun v => v = e) e a1 R V1) with (b := b) (c := VWire s rnd (Post h p) d :: c) as (v' & V' & ->); auto.
    + intros w ->. eauto.
    + right. pose proof (written_alone env ops pl evs _ s rnd (Post h p) d c R E2 (X D)) as W. cbn [po_ptr] in W. unfold deals in *. rewrite filter_app, app_length in W. lia.
    + rewrite Vv in V'. injection V' as ->. auto.
Qed.
