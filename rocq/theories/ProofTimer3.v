(** The timer under concurrent use, and readings of its history. *)
From Coq Require Import Permutation Sorted.
From Verif Require Import Base LibBase Timer LibHeap SpecTimer ProofTimer ProofTimer2.

(** ** Updates of one key do not overlap *)
Lemma find_u_in l tok c : find_ucall l tok = Some c -> In c l /\ uc_tok c = tok.
Proof. induction l as [|x l IH]; cbn; [discriminate|]. destruct (Z.eqb_spec (uc_tok x) tok); [intros H; injection H as ->; auto|]. intros H. destruct (IH H). auto. Qed.
Lemma find_u_split l tok c : find_ucall l tok = Some c -> exists a b, l = a ++ c :: b /\ del_ucall l tok = a ++ b.
Proof.
  induction l as [|x l IH]; cbn; [discriminate|]. destruct (Z.eqb_spec (uc_tok x) tok); [intros H; injection H as ->; exists [], l; auto|].
  intros H. destruct (IH H) as (a & b & -> & ->). exists (x :: a), b. auto.
Qed.
Record crel (c : tcfg) (s : cspec) : Prop := {
  cr_tight : tight (tc_timer c);
  cr_view : view (tc_timer c) (cs_dl s);
  cr_run : tc_calls c = cs_run s;
  cr_secs : tm_seconds (tc_timer c) = cs_secs s;
  cr_keys : NoDup (map uc_key (cs_run s));
  cr_gone : Forall (fun u => uc_removed u = true -> cs_dl s (uc_key u) = None) (cs_run s) }.
Lemma gone_put f k l : Forall (fun u => uc_removed u = true -> f (uc_key u) = None) l -> Forall (fun u => uc_removed u = true -> put f k None (uc_key u) = None) l.
Proof. intros H. eapply Forall_impl; [|exact H]. cbn beta. intros u X R. unfold put. destruct (uc_key u =? k); auto. Qed.
Lemma crel_step c s o : crel c s -> match o with TStart tok k _ => Forall (fun u => uc_key u <> k /\ uc_tok u <> tok) (cs_run s) | _ => True end ->
  exists c', tstep c o = Ok c' /\ crel c' (cspec_step s o) /\
  match o with TTick now => exists ks, tc_fired c' = (now, ks) :: tc_fired c /\ fires (cs_dl s) now ks | _ => tc_fired c' = tc_fired c end.
Proof.
  intros [T V R S K G] A. destruct o as [tok k now|tok|tok|k|n|now]; cbn [tstep cspec_step].
  - eexists. split; [reflexivity|]. split; [|reflexivity]. constructor; cbn [tc_timer tc_calls cs_run cs_dl cs_secs map]; auto.
    + unfold deadline. rewrite S, R. reflexivity.
    + constructor; auto. cbn [uc_key]. intros H. apply in_map_iff in H. destruct H as (u & E & U). rewrite Forall_forall in A. apply A in U. tauto.
    + constructor; auto. cbn. discriminate.
  - unfold running. rewrite R. destruct (find_ucall (cs_run s) tok) as [[tok' k x [|]]|] eqn:F; [| |eexists; split; [reflexivity|]; split; [|reflexivity]; constructor; auto].
    { eexists. split; [reflexivity|]. split; [|reflexivity]. constructor; auto. }
    destruct (tight_remove _ k _ T V) as (t1 & E & T1 & V1 & S1). rewrite E. cbn [bind]. eexists. split; [reflexivity|]. split; [|reflexivity].
    destruct (find_u_split _ _ _ F) as (a & b & RS & D). rewrite D in *. rewrite RS in K, G. rewrite map_app in K. cbn [map uc_key] in K.
    constructor; cbn [tc_timer tc_calls cs_run cs_dl cs_secs map uc_key]; auto; try congruence.
    + apply (Permutation_NoDup (Permutation_sym (Permutation_middle _ _ _))) in K. rewrite map_app. exact K.
    + constructor; [intros _; cbn [uc_key]; unfold put; rewrite Z.eqb_refl; reflexivity|]. apply gone_put. apply Forall_app in G. destruct G as (G1 & G2). inversion G2; subst. apply Forall_app. auto.
  - unfold running. rewrite R. destruct (find_ucall (cs_run s) tok) as [[tok' k x [|]]|] eqn:F; [|eexists; split; [reflexivity|]; split; [|reflexivity]; constructor; auto|eexists; split; [reflexivity|]; split; [|reflexivity]; constructor; auto].
    eexists. split; [reflexivity|]. split; [|reflexivity].
    destruct (find_u_split _ _ _ F) as (a & b & RS & D). rewrite D in *. rewrite RS in K, G. rewrite map_app in K. cbn [map uc_key] in K.
    apply Forall_app in G. destruct G as (G1 & G2). inversion G2 as [|? ? G3 G4]; subst. cbn [uc_removed uc_key] in G3.
    destruct (tight_insert _ k x _ T V (G3 eq_refl)) as (T2 & V2 & S2). constructor; cbn [tc_timer tc_calls cs_run cs_dl cs_secs map uc_key]; auto; try congruence.
    + rewrite map_app. apply NoDup_remove_1 in K. exact K.
    + apply NoDup_remove_2 in K. assert (X : forall u, In u (a ++ b) -> uc_key u <> k). { intros u U E. apply K. rewrite <- map_app. rewrite <- E. apply in_map. auto. }
      apply Forall_forall. intros u U Ru. unfold put. destruct (Z.eqb_spec (uc_key u) k); [exfalso; eapply X; eauto|].
      assert (GG : Forall (fun u => uc_removed u = true -> cs_dl s (uc_key u) = None) (a ++ b)) by (apply Forall_app; auto). rewrite Forall_forall in GG. auto.
  - destruct (tight_remove _ k _ T V) as (t1 & E & T1 & V1 & S1). rewrite E. cbn [bind]. eexists. split; [reflexivity|]. split; [|reflexivity].
    constructor; cbn [tc_timer tc_calls cs_run cs_dl cs_secs]; auto; try congruence. apply gone_put; auto.
  - destruct (tight_set _ n _ T V) as (T1 & V1 & S1). eexists. split; [reflexivity|]. split; [|reflexivity].
    destruct (0 <? n); constructor; cbn [tc_timer tc_calls cs_run cs_dl cs_secs]; auto; congruence.
  - destruct (tight_tick _ now _ T V) as (t1 & keys & E & T1 & V1 & S1 & F). rewrite E. cbn [bind]. eexists. split; [reflexivity|]. split.
    + constructor; cbn [tc_timer tc_calls cs_run cs_dl cs_secs]; auto; try congruence. eapply Forall_impl; [|exact G]. cbn beta. intros u X Y. unfold without_expired. destruct (expired _ _ _); auto.
    + exists keys. split; [reflexivity|exact F].
Qed.
Lemma crel_run ops : forall c s, crel c s -> apart s ops -> exists c' out, trun c ops = Ok c' /\ tc_fired c' = rev out ++ tc_fired c /\ ticks_ok s ops out.
Proof.
  induction ops as [|o ops IH]; intros c s R A; [exists c, []; repeat split|]. destruct A as (A & B). cbn [trun].
  destruct (crel_step c s o R A) as (c1 & E & R1 & L). rewrite E. cbn [bind]. destruct (IH c1 _ R1 B) as (c' & out & T & F & K).
  destruct o; try (exists c', out; split; [exact T|]; split; [rewrite F, L; reflexivity|exact K]).
  destruct L as (ks & L1 & L2). exists c', ((now, ks) :: out). split; [exact T|]. split; [rewrite F, L1; cbn [rev]; rewrite <- app_assoc; reflexivity|]. cbn [ticks_ok]. auto.
Qed.
Lemma apart_exact s0 ops : apart (Cspec s0 [] none_due) ops ->
  exists c, trun (tinit s0) ops = Ok c /\ ticks_ok (Cspec s0 [] none_due) ops (rev (tc_fired c)).
Proof.
  intros A. destruct (crel_run ops (tinit s0) (Cspec s0 [] none_due)) as (c & out & T & F & K); auto.
  - constructor; cbn; auto using tight_new, view_new; constructor.
  - exists c. split; auto. rewrite F. cbn [tinit tc_fired]. rewrite app_nil_r, rev_involutive. exact K.
Qed.

(** ** Any interleaving *)
Definition from (s0 : Z) (ops : list top) (k x : Z) : Prop := exists tok u s, In (TStart tok k u) ops /\ In s (timeouts s0 ops) /\ x = wrapped u s.
Definition has_key (t : timer) (k : Z) (q : list nat) : nat := length (filter (fun p => key_of t p =? k) q).
Definition calls_of (k : Z) (l : list ucall) : nat := length (filter (fun u => uc_key u =? k) l).
Record ainv (s0 : Z) (ops : list top) (c : tcfg) : Prop := {
  ai_inv : tinv (tc_timer c);
  ai_secs : In (tm_seconds (tc_timer c)) (timeouts s0 ops);
  ai_q : forall p, In p (tm_q (tc_timer c)) -> from s0 ops (key_of (tc_timer c) p) (exp_of (tc_timer c) p);
  ai_calls : Forall (fun u => from s0 ops (uc_key u) (uc_expire u)) (tc_calls c);
  ai_fired : forall now ks k, In (now, ks) (tc_fired c) -> In k ks -> exists x, from s0 ops k x /\ x <= now;
  ai_count : forall k, (firings k (tc_fired c) + has_key (tc_timer c) k (tm_q (tc_timer c)) + calls_of k (tc_calls c) <= updates k ops)%nat }.
Lemma timeouts_app s0 a b : incl (timeouts s0 a) (timeouts s0 (a ++ b)).
Proof. unfold timeouts. rewrite flat_map_app. intros x [<-|H]; [left; auto|right]. apply in_or_app. auto. Qed.
Lemma from_app s0 a b k x : from s0 a k x -> from s0 (a ++ b) k x.
Proof. intros (tok & u & s & A & B & C). exists tok, u, s. split; [apply in_or_app; auto|]. split; auto. apply timeouts_app. auto. Qed.
Lemma updates_app k a b : updates k (a ++ b) = (updates k a + updates k b)%nat.
Proof. unfold updates. rewrite filter_app, app_length. reflexivity. Qed.
Lemma perm_filter {A} (f : A -> bool) l l' : Permutation l l' -> length (filter f l) = length (filter f l').
Proof. intros H. induction H; cbn; auto; repeat match goal with |- context[if ?c then _ else _] => destruct c end; cbn; congruence. Qed.
Lemma ainv_more s0 ops o c : ainv s0 ops c -> match o with TStart _ _ _ => False | _ => True end -> ainv s0 (ops ++ [o]) c.
Proof.
  intros [A B C D E F] X. constructor; auto.
  - apply timeouts_app; auto.
  - intros. apply from_app; auto.
  - eapply Forall_impl; [|exact D]. intros. apply from_app; auto.
  - intros. destruct (E now ks k) as (x & P & Q); auto. exists x. split; auto. apply from_app; auto.
  - intros k. rewrite updates_app. specialize (F k). lia.
Qed.
Lemma has_key_ext t t' k q : (forall p, In p q -> key_of t' p = key_of t p) -> has_key t' k q = has_key t k q.
Proof. intros H. unfold has_key. f_equal. apply filter_ext_in. intros p P. rewrite H; auto. Qed.
Lemma remove_ainv s0 ops c k : ainv s0 ops c -> exists t', timer_remove (tc_timer c) k = Ok t' /\ ainv s0 ops (Tcfg t' (tc_calls c) (tc_fired c)).
Proof.
  intros [A B C D E F]. destruct (remove_step _ k A) as (t' & R & I & K & M & Q). exists t'. split; auto.
  assert (IN : forall p, In p (tm_q t') -> In p (tm_q (tc_timer c))).
  { intros p P. destruct (map_get (tm_map (tc_timer c)) k); [apply (Permutation_in _ (Permutation_sym Q)); right; auto|rewrite <- Q; auto]. }
  constructor; cbn [tc_timer tc_calls tc_fired]; auto.
  - rewrite (proj1 K). auto.
  - intros p P. rewrite (proj1 (proj2 K p)), (proj2 (proj2 K p)). auto.
  - intros k1. rewrite (has_key_ext (tc_timer c)) by (intros; apply K). specialize (F k1). enough (has_key (tc_timer c) k1 (tm_q t') <= has_key (tc_timer c) k1 (tm_q (tc_timer c)))%nat by lia.
    unfold has_key. destruct (map_get (tm_map (tc_timer c)) k); [rewrite (perm_filter _ _ _ Q); cbn [filter]; destruct (_ =? _); cbn [length]; lia|rewrite Q; lia].
Qed.
Lemma calls_split k a u b : calls_of k (a ++ u :: b) = (calls_of k (a ++ b) + (if (uc_key u =? k)%Z then 1 else 0))%nat.
Proof. unfold calls_of. rewrite !filter_app, !app_length. cbn [filter]. destruct (uc_key u =? k); cbn [length]; lia. Qed.
Lemma firings_cons k now ks out : firings k ((now, ks) :: out) = (count_occ Z.eq_dec ks k + firings k out)%nat.
Proof. unfold firings. cbn [map concat snd]. apply count_occ_app. Qed.
Lemma count_keys t k ps : count_occ Z.eq_dec (map (key_of t) ps) k = has_key t k ps.
Proof. unfold has_key. induction ps as [|p ps IH]; cbn [map count_occ filter length]; auto. destruct (Z.eq_dec (key_of t p) k), (Z.eqb_spec (key_of t p) k); try contradiction; cbn [length]; auto. Qed.
Lemma ainv_step s0 ops c o : ainv s0 ops c -> exists c', tstep c o = Ok c' /\ ainv s0 (ops ++ [o]) c'.
Proof.
  intros AI. destruct o as [tok k now|tok|tok|k|n|now]; cbn [tstep].
  - eexists. split; [reflexivity|]. destruct AI as [A B C D E F]. constructor; cbn [tc_timer tc_calls tc_fired]; auto.
    + apply timeouts_app; auto.
    + intros. apply from_app; auto.
    + constructor; [|eapply Forall_impl; [|exact D]; intros; apply from_app; auto]. exists tok, now, (tm_seconds (tc_timer c)). split; [apply in_or_app; right; left; reflexivity|]. split; [apply timeouts_app; auto|reflexivity].
    + intros. destruct (E now0 ks k0) as (x & P & Q); auto. exists x. split; auto. apply from_app; auto.
    + intros k1. rewrite updates_app. specialize (F k1). unfold calls_of, updates in *. cbn [filter uc_key]. destruct (k =? k1); cbn [length]; lia.
  - apply (ainv_more _ _ (TDel tok)) in AI; [|exact I]. destruct (find_ucall (tc_calls c) tok) as [[tok' k x [|]]|] eqn:X; eauto.
    destruct (remove_ainv _ _ _ k AI) as (t' & R & [A B C D E F]). rewrite R. cbn [bind]. eexists. split; [reflexivity|]. cbn [tc_timer tc_calls tc_fired] in *.
    destruct (find_u_split _ _ _ X) as (a & b & RS & DD). rewrite DD. rewrite RS in D, F. constructor; cbn [tc_timer tc_calls tc_fired]; auto.
    + apply Forall_app in D. destruct D as (D1 & D2). inversion D2; subst. constructor; auto. apply Forall_app. auto.
    + intros k1. specialize (F k1). rewrite calls_split in F. cbn [uc_key] in F. unfold calls_of in *. cbn [filter uc_key]. destruct (k =? k1); cbn [length]; lia.
  - apply (ainv_more _ _ (TIns tok)) in AI; [|exact I]. destruct (find_ucall (tc_calls c) tok) as [[tok' k x [|]]|] eqn:X; eauto.
    eexists. split; [reflexivity|]. destruct AI as [A B C D E F]. destruct (find_u_split _ _ _ X) as (a & b & RS & DD). rewrite DD. rewrite RS in D, F.
    destruct (insert_step _ k x A) as (I & S & K & EX & NI & O & P & M). apply Forall_app in D. destruct D as (D1 & D2). inversion D2 as [|? ? D3 D4]; subst.
    constructor; cbn [tc_timer tc_calls tc_fired]; auto.
    + intros p Hp. apply (Permutation_in _ (Permutation_sym P)) in Hp. destruct Hp as [<-|Hp]; [rewrite K, EX; exact D3|]. rewrite (proj1 (O p Hp)), (proj2 (O p Hp)). auto.
    + apply Forall_app. auto.
    + intros k1. specialize (F k1). rewrite calls_split in F. cbn [uc_key] in F. unfold has_key in *. rewrite <- (perm_filter _ _ _ P). cbn [filter]. rewrite K.
      fold (has_key (timer_insert (tc_timer c) k x) k1 (tm_q (tc_timer c))) in *. 
      assert (HK : length (filter (fun p => key_of (timer_insert (tc_timer c) k x) p =? k1) (tm_q (tc_timer c))) = length (filter (fun p => key_of (tc_timer c) p =? k1) (tm_q (tc_timer c)))).
      { f_equal. apply filter_ext_in. intros p Hp. rewrite (proj1 (O p Hp)). reflexivity. }
      unfold has_key. destruct (k =? k1); cbn [length]; rewrite HK; lia.
  - apply (ainv_more _ _ (TRemove k)) in AI; [|exact I]. destruct (remove_ainv _ _ _ k AI) as (t' & R & AI'). rewrite R. cbn [bind]. eauto.
  - eexists. split; [reflexivity|]. assert (AI' := ainv_more _ _ (TSet n) _ AI I). destruct AI' as [[G MM] B C D E F]. unfold timer_set_expiration. destruct (0 <? n) eqn:Z0; [|constructor; cbn [tc_timer]; auto; constructor; auto].
    constructor; cbn [tc_timer tc_calls tc_fired tm_seconds tm_q]; auto; [constructor; auto|]. unfold timeouts. rewrite flat_map_app. right. apply in_or_app. right. cbn. rewrite Z0. left. reflexivity.
  - apply (ainv_more _ _ (TTick now)) in AI; [|exact I]. destruct AI as [A B C D E F]. unfold timer_check.
    destruct (tick_step (S (length (tm_q (tc_timer c)))) _ now A (Nat.lt_succ_diag_r _)) as (t' & ps & R & I & K & P & DU & L & SS & M). rewrite R. cbn [bind].
    eexists. split; [reflexivity|]. assert (IN : forall p, In p (ps ++ tm_q t') -> In p (tm_q (tc_timer c))) by (intros p; apply (Permutation_in _ (Permutation_sym P))).
    constructor; cbn [tc_timer tc_calls tc_fired]; auto.
    + rewrite (proj1 K). auto.
    + intros p Hp. rewrite (proj1 (proj2 K p)), (proj2 (proj2 K p)). apply C, IN, in_or_app. auto.
    + intros n ks k [H|H] Hk; [|eauto]. injection H as <- <-. apply in_map_iff in Hk. destruct Hk as (p & <- & Hp). exists (exp_of (tc_timer c) p). split; [apply C, IN, in_or_app; auto|]. rewrite Forall_forall in DU. auto.
    + intros k. rewrite firings_cons, count_keys, (has_key_ext (tc_timer c) t') by (intros; apply K). specialize (F k). unfold has_key in *. rewrite (perm_filter _ _ _ P), filter_app, app_length in F. lia.
Qed.
Lemma ainv_run s0 ops : forall pre c, ainv s0 pre c -> exists c', trun c ops = Ok c' /\ ainv s0 (pre ++ ops) c'.
Proof.
  induction ops as [|o ops IH]; intros pre c A; [exists c; rewrite app_nil_r; split; [reflexivity|auto]|]. cbn [trun]. destruct (ainv_step s0 pre c o A) as (c1 & E & A1). rewrite E. cbn [bind].
  destruct (IH _ _ A1) as (c' & R & A'). exists c'. split; auto. rewrite <- app_assoc in A'. exact A'.
Qed.
Lemma any_interleaving s0 ops : exists c, trun (tinit s0) ops = Ok c /\
  (forall now ks k, In (now, ks) (tc_fired c) -> In k ks -> exists tok u s, In (TStart tok k u) ops /\ In s (timeouts s0 ops) /\ wrapped u s <= now) /\
  (forall k, (firings k (tc_fired c) <= updates k ops)%nat).
Proof.
  destruct (ainv_run s0 ops [] (tinit s0)) as (c & R & [A B C D E F]).
  - constructor; cbn; auto using tinv_new; intros; try contradiction.
  - exists c. split; auto. split.
    + intros now ks k H K. destruct (E now ks k H K) as (x & (tok & u & s & P & Q & ->) & L). exists tok, u, s. auto.
    + intros k. specialize (F k). cbn [app] in F. lia.
Qed.

(** ** Overlapping Updates of one key *)
Definition overlap : list top := [TStart 1 7 0; TStart 2 7 50; TDel 1; TDel 2; TIns 1; TIns 2].
Lemma early : exists c1 c2, trun (tinit 60) (overlap ++ [TTick 60]) = Ok c1 /\ tc_fired c1 = [(60, [7])] /\ tc_calls c1 = [] /\
  trun (tinit 60) (overlap ++ [TRemove 7; TTick 60]) = Ok c2 /\ tc_fired c2 = [(60, [7])] /\ tc_calls c2 = [].
Proof. eexists. eexists. split; [vm_compute; reflexivity|]. split; [reflexivity|]. split; [reflexivity|]. split; [vm_compute; reflexivity|]. split; reflexivity. Qed.
