(** Sections over the map of sessions and over the requests; every section as a whole. *)
From Verif Require Import Base LibBase Timer LibHeap ProofTimer Session Server Locks SpecLocks ProofLocks.

Lemma inner_s x p d a b : guard x = Mserver -> (forall c, p <> PDone c) -> will x p d a b -> exists p' d', inner p d = Ok (p', d') /\ will x p' d' a b /\ (d' = d \/ exists l, d' = put_sessions d l).
Proof.
  intros G N W. assert (W' : fin_s p (da_sessions d) = Ok (da_sessions a, b)) by (unfold will in W; rewrite G in W; exact W). clear W.
  assert (B : forall p' d', inner p d = Ok (p', d') -> fin_s p' (da_sessions d') = fin_s p (da_sessions d) -> (d' = d \/ exists l, d' = put_sessions d l) ->
    exists p' d', inner p d = Ok (p', d') /\ will x p' d' a b /\ (d' = d \/ exists l, d' = put_sessions d l)).
  { intros p' d' I F D. exists p', d'. split; [exact I|]. split; [unfold will; rewrite G; congruence|exact D]. }
  destruct p; cbn [fin_s] in W'; try discriminate W'.
  - eapply (B (PDone ANone)); [reflexivity|reflexivity|eauto].
  - eapply B; [reflexivity|reflexivity|eauto].
  - eapply B; [reflexivity|reflexivity|eauto].
  - destruct left as [|y l]; (eapply B; [reflexivity| |eauto]); cbn [fin_s]; [rewrite app_nil_r; reflexivity|rewrite <- app_assoc; reflexivity].
  - eapply B; [reflexivity|reflexivity|eauto].
  - destruct (N a0). reflexivity.
Qed.

Lemma skipn_nth {A} (l : list A) : forall i x, nth_error l i = Some x -> skipn i l = x :: skipn (S i) l.
Proof. induction l as [|y l IH]; intros [|i] x; cbn [nth_error]; intros E; try discriminate; [injection E as ->; reflexivity|]. apply (IH i x E). Qed.
Lemma firstn_snoc {A} (l : list A) : forall i x, nth_error l i = Some x -> firstn (S i) l = firstn i l ++ [x].
Proof. induction l as [|y l IH]; intros [|i] x; cbn [nth_error]; intros E; try discriminate; [injection E as ->; reflexivity|]. cbn [firstn app]. f_equal. apply (IH i x E). Qed.
Lemma replace_split l : forall i r x, nth_error l i = Some x -> replace_at l i r = firstn i l ++ r :: skipn (S i) l.
Proof. induction l as [|y l IH]; intros [|i] r x; cbn [nth_error]; intros E; try discriminate; [reflexivity|]. cbn [replace_at firstn app]. rewrite (IH i r x E). reflexivity. Qed.
Lemma replace_len l : forall i r, length (replace_at l i r) = length l.
Proof. induction l as [|y l IH]; intros [|i] r; cbn [replace_at length]; auto. Qed.
Lemma put_same d s l : da_requests (put_requests d s l) s = l.
Proof. cbn [put_requests da_requests]. rewrite Z.eqb_refl. reflexivity. Qed.

Lemma inner_r x s p d a b : guard x = Msession s -> (forall c, p <> PDone c) -> will x p d a b -> exists p' d', inner p d = Ok (p', d') /\ will x p' d' a b /\ (d' = d \/ exists l, d' = put_requests d s l).
Proof.
  intros G N W. assert (W' : fin_r s p (da_requests d s) = Ok (da_requests a s, b)) by (unfold will in W; rewrite G in W; exact W). clear W.
  assert (B : forall p' d', inner p d = Ok (p', d') -> fin_r s p' (da_requests d' s) = fin_r s p (da_requests d s) -> (d' = d \/ exists l, d' = put_requests d s l) ->
    exists p' d', inner p d = Ok (p', d') /\ will x p' d' a b /\ (d' = d \/ exists l, d' = put_requests d s l)).
  { intros p' d' I F D. exists p', d'. split; [exact I|]. split; [unfold will; rewrite G; congruence|exact D]. }
  destruct p as [| | | | | | | | | | | | | |s' r i|s' r i|s' r|s' n i|s' i r|s' r|c]; cbn [fin_r] in W'; try discriminate W';
    try (destruct (Z.eqb_spec s' s) as [->|]; [|discriminate W']).
  - (* PScan *) destruct (nth_error (da_requests d s) i) as [y|] eqn:E.
    + destruct (rq_msgid y =? rq_msgid r) eqn:T.
      * eapply (B (PPut s r i)); [cbn [inner]; rewrite E, T; reflexivity| |eauto]. cbn [fin_r]. rewrite Z.eqb_refl. rewrite (replace_split _ _ _ _ E), (skipn_nth _ _ _ E). cbn [add_request]. rewrite T. reflexivity.
      * eapply (B (PScan s r (S i))); [cbn [inner]; rewrite E, T; reflexivity| |eauto]. cbn [fin_r]. rewrite Z.eqb_refl. rewrite (firstn_snoc _ _ _ E), (skipn_nth _ _ _ E).
        cbn [add_request]. rewrite T, <- app_assoc. reflexivity.
    + eapply (B (PAppend s r)); [cbn [inner]; rewrite E; reflexivity| |eauto]. cbn [fin_r]. rewrite Z.eqb_refl. apply nth_error_None in E. rewrite firstn_all2, skipn_all2 by lia. reflexivity.
  - (* PPut *) eapply (B (PDone ANone)); [reflexivity| |eauto]. cbn [fin_r]. rewrite Z.eqb_refl, put_same. reflexivity.
  - (* PAppend *) eapply (B (PDone ANone)); [reflexivity| |eauto]. cbn [fin_r]. rewrite Z.eqb_refl, put_same. reflexivity.
  - (* PSeek *) destruct (nth_error (da_requests d s) i) as [y|] eqn:E.
    + destruct (rq_serial y =? n) eqn:T.
      * eapply (B (PLast s i y)); [cbn [inner]; rewrite E, T; reflexivity| |eauto]. cbn [fin_r]. rewrite Z.eqb_refl, (skipn_nth _ _ _ E). cbn [find_serial]. rewrite T, Nat.add_0_r. rewrite (nth_error_nth _ _ _ E). reflexivity.
      * eapply (B (PSeek s n (S i))); [cbn [inner]; rewrite E, T; reflexivity| |eauto]. cbn [fin_r]. rewrite Z.eqb_refl, (skipn_nth (da_requests d s) i _ E). cbn [find_serial]. rewrite T.
        destruct (find_serial (skipn (S i) (da_requests d s)) n) as [j|]; [|reflexivity]. rewrite Nat.add_succ_r. reflexivity.
    + eapply (B (PDone (AReq None))); [cbn [inner]; rewrite E; reflexivity| |eauto]. cbn [fin_r]. rewrite Z.eqb_refl. apply nth_error_None in E. rewrite skipn_all2 by lia. reflexivity.
  - (* PLast *) unfold cut in W'. destruct (nth_error (da_requests d s) (length (da_requests d s) - 1)) as [z|] eqn:E; [|discriminate W'].
    eapply (B (PCut s r)); [cbn [inner]; cbv zeta; rewrite E; reflexivity| |eauto]. cbn [fin_r]. rewrite Z.eqb_refl, put_same. unfold cut. rewrite E, replace_len.
    destruct (da_requests d s) as [|u l]; [destruct (0 - 1)%nat; discriminate E|]. destruct i; reflexivity.
  - (* PCut *) destruct (da_requests d s) as [|u l] eqn:E; [discriminate W'|]. eapply (B (PDone (AReq (Some r)))); [cbn [inner]; cbv zeta; rewrite E; reflexivity| |eauto]. cbn [fin_r].
    rewrite Z.eqb_refl, put_same. reflexivity.
  - (* PDone *) destruct (N c). reflexivity.
Qed.

(** A statement: it works, the section goes on as it should, nothing else is touched *)
Lemma will_inner x p d a b : (forall c, p <> PDone c) -> will x p d a b ->
  exists p' d', inner p d = Ok (p', d') /\ will x p' d' a b /\ (forall m, m <> guard x -> agree m d d') /\ da_seconds d' = da_seconds d.
Proof.
  intros N W. destruct (guard x) as [| |s] eqn:G.
  - destruct (inner_s x p d a b G N W) as (p' & d' & I & W' & [->|(l & ->)]); exists p'; eexists; (split; [exact I|]); (split; [exact W'|]); (split; [|reflexivity]); intros [| |s'] M; try reflexivity; congruence.
  - destruct (inner_t x p d a b G N W) as (p' & t' & [(I & W')|(I & W')]); exists p'; eexists; (split; [exact I|]); (split; [exact W'|]); (split; [|reflexivity]); intros [| |s'] M; try reflexivity; congruence.
  - destruct (inner_r x s p d a b G N W) as (p' & d' & I & W' & [->|(l & ->)]); exists p'; eexists; (split; [exact I|]); (split; [exact W'|]); (split; [|reflexivity]); intros [| |s'] M; try reflexivity.
    cbn [agree put_requests da_requests]. destruct (Z.eqb_spec s' s); [congruence|reflexivity].
Qed.

(** A whole section *)
Lemma whole_ok x a : tinv (da_timer a) -> exists a' b, whole x a = Ok (a', b) /\ tinv (da_timer a') /\
  (forall d, agree (guard x) d a -> will x (first_spot x) d a' b) /\ (forall m, m <> guard x -> agree m a a').
Proof.
  intros I. destruct x as [id|id| |id|k|k e|now|s r|s n]; cbn [whole].
  - eexists _, _. split; [reflexivity|]. split; [exact I|]. split; [intros d E; unfold will; cbn in E |- *; rewrite E; reflexivity|]. intros [| |s'] M; try reflexivity. destruct M. reflexivity.
  - eexists _, _. split; [reflexivity|]. split; [exact I|]. split; [intros d E; unfold will; cbn in E |- *; rewrite E; reflexivity|]. intros [| |s'] M; reflexivity.
  - eexists _, _. split; [reflexivity|]. split; [exact I|]. split; [intros d E; unfold will; cbn in E |- *; rewrite E; reflexivity|]. intros [| |s'] M; reflexivity.
  - eexists _, _. split; [reflexivity|]. split; [exact I|]. split; [intros d E; unfold will; cbn in E |- *; rewrite E; reflexivity|]. intros [| |s'] M; try reflexivity. destruct M. reflexivity.
  - destruct (remove_step _ k I) as (t' & E & I' & _). rewrite E. eexists _, _. split; [reflexivity|]. split; [exact I'|]. split; [|intros [| |s'] M; try reflexivity; destruct M; reflexivity].
    intros d D. unfold will. cbn [guard first_spot agree] in *. cbn [fin_t]. rewrite D, E. reflexivity.
  - destruct (insert_step _ k e I) as (I' & _). eexists _, _. split; [reflexivity|]. split; [exact I'|]. split; [|intros [| |s'] M; try reflexivity; destruct M; reflexivity].
    intros d D. unfold will. cbn [guard first_spot agree] in *. cbn [fin_t]. rewrite D. reflexivity.
  - destruct (tick_step (S (length (tm_q (da_timer a)))) _ now I ltac:(lia)) as (t' & ps & E & I' & _). fold (timer_check (da_timer a) now) in E. rewrite E. eexists _, _. split; [reflexivity|]. split; [exact I'|].
    split; [|intros [| |s'] M; try reflexivity; destruct M; reflexivity]. intros d D. unfold will. cbn [guard first_spot agree] in *. cbn [fin_t]. unfold ticked. rewrite D, E. reflexivity.
  - eexists _, _. split; [reflexivity|]. split; [exact I|]. split.
    + intros d E. unfold will. cbn [guard first_spot agree] in *. cbn [fin_r]. rewrite Z.eqb_refl, put_same, E. reflexivity.
    + intros [| |s'] M; try reflexivity. cbn [guard] in M. cbn [agree put_requests da_requests]. destruct (Z.eqb_spec s' s); [congruence|reflexivity].
  - destruct (take_request (da_requests a s) n) as [o l] eqn:T. eexists _, _. split; [reflexivity|]. split; [exact I|]. split.
    + intros d E. unfold will. cbn [guard first_spot agree] in *. cbn [fin_r]. rewrite Z.eqb_refl, put_same, E. cbn [skipn]. unfold take_request in T.
      destruct (find_serial (da_requests a s) n) as [j|] eqn:F; injection T as <- <-; [|reflexivity]. cbn [Nat.add]. unfold cut.
      assert (L : (0 < length (da_requests a s))%nat) by (destruct (da_requests a s); [discriminate F|cbn [length]; lia]).
      destruct (nth_error (da_requests a s) (length (da_requests a s) - 1)) as [z|] eqn:Z1; [|apply nth_error_None in Z1; lia]. rewrite (nth_error_nth _ _ (Request 0 0 0) Z1). reflexivity.
    + intros [| |s'] M; try reflexivity. cbn [guard] in M. cbn [agree put_requests da_requests]. destruct (Z.eqb_spec s' s); [congruence|reflexivity].
Qed.
