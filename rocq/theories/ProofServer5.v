(** The server: uploads. *)
From Coq Require Import Sorted Permutation.
From Verif Require Import Base LibBase Bits LibBits Env EntTerm EntPlat Registry Message Timer Session Multipart Server.
From Verif Require Import SpecSession SpecMulti SpecTimer SpecServer LibMulti ProofMulti ProofMulti2 ProofMulti3 ProofServer ProofServer2 ProofServer3 ProofServer4.

Lemma packets_app mf a b : packets mf (a ++ b) = packets mf a ++ packets mf b. Proof. apply flat_map_app. Qed.
Lemma numbers_app a b : numbers (a ++ b) = numbers a ++ numbers b. Proof. apply map_app. Qed.
Lemma calls_app mf a b : calls_for mf (a ++ b) = calls_for mf a ++ calls_for mf b. Proof. apply filter_app. Qed.
Lemma calls_handled mf evs : calls_for mf evs = calls_for mf (handled evs).
Proof. induction evs as [|ev evs IH]; auto. destruct ev; cbn [calls_for handled filter] in *; auto. destruct (part_of true m) as [[[a b] c]|]; [destruct (same_upload a mf)|]; cbn; auto. f_equal. exact IH. Qed.

(** The data of a part, from the packets *)
Definition latest (ps : list (Z * message * Z * bytes)) (i : Z) : option bytes :=
  fold_left (fun acc p => if snd (fst p) =? i then Some (snd p) else acc) ps None.
Lemma latest_snoc ps p i : latest (ps ++ [p]) i = if snd (fst p) =? i then Some (snd p) else latest ps i.
Proof. unfold latest. rewrite fold_left_app. reflexivity. Qed.
Lemma latest_in ps i : latest ps i <> None <-> In i (numbers ps).
Proof.
  induction ps as [|p ps IH] using rev_ind; [cbn; tauto|]. rewrite latest_snoc, numbers_app, in_app_iff, <- IH. cbn. destruct (Z.eqb_spec (snd (fst p)) i); intuition congruence.
Qed.
Lemma latest_find ps i : NoDup (numbers ps) -> match latest ps i with Some d => d | None => [] end = data_with ps i.
Proof.
  unfold data_with. induction ps as [|p ps IH] using rev_ind; [reflexivity|]. intros N. rewrite numbers_app in N. cbn in N. apply NoDup_remove in N. rewrite app_nil_r in N. destruct N as (N & Np).
  rewrite latest_snoc. assert (F : find (fun p0 => snd (fst p0) =? i) (ps ++ [p]) = match find (fun p0 => snd (fst p0) =? i) ps with Some x => Some x | None => if snd (fst p) =? i then Some p else None end).
  { clear. induction ps as [|q ps IH]; cbn; [reflexivity|]. destruct (snd (fst q) =? i); auto. }
  rewrite F. specialize (IH N). destruct (Z.eqb_spec (snd (fst p)) i) as [<-|].
  - assert (X : find (fun p0 => snd (fst p0) =? snd (fst p)) ps = None); [|rewrite X; reflexivity].
    destruct (find _ ps) as [q|] eqn:E; auto. apply find_some in E. destruct E as (E1 & E2). exfalso. apply Np. assert (snd (fst q) = snd (fst p)) by lia. unfold numbers. rewrite <- H. apply (in_map (fun p0 => snd (fst p0))). auto.
  - rewrite IH. destruct (find _ ps); reflexivity.
Qed.
Lemma same_refl m : same_upload m m = true. Proof. unfold same_upload. rewrite !Z.eqb_refl. reflexivity. Qed.
Lemma written_app_foreign m s ops : Forall (foreign m) ops -> written ops m s = None.
Proof. intros F. rewrite <- (app_nil_l ops). rewrite foreign_written; auto. Qed.
Lemma written_packets mf prior ops i : Forall (foreign mf) prior -> written (hi_up (history true prior ops)) mf i = latest (packets mf ops) i.
Proof.
  intros F. induction ops as [|o ops IH] using rev_ind; [cbn; apply written_app_foreign; auto|]. rewrite history_snoc, packets_app.
  assert (K : forall u m', written (u ++ [MMerge m']) mf i = written u mf i) by (intros; rewrite written_snoc; reflexivity).
  destruct o; try (cbn [packets flat_map hist_step hi_up]; rewrite app_nil_r; exact IH). cbn [packets flat_map hist_step]. rewrite app_nil_r. destruct (has_body m) eqn:HB.
  - destruct (part_of true m) as [[[mf' sq] data]|] eqn:PO; [|rewrite app_nil_r; exact IH].
    assert (W : written (hi_up (history true prior ops) ++ [MWrite mf' sq data]) mf i = latest (packets mf ops ++ (if same_upload mf' mf then [(id, m, sq, data)] else [])) i).
    { rewrite written_snoc. destruct (same_upload mf' mf); cbn [andb]; [rewrite latest_snoc; cbn; destruct (sq =? i); auto|rewrite app_nil_r; exact IH]. }
    destruct (completes _ _); cbn [hi_up]; [|exact W]. change [MWrite mf' sq data; MMerge mf'] with ([MWrite mf' sq data] ++ [MMerge mf']). rewrite app_assoc, K. exact W.
  - assert (PO : part_of true m = None). { unfold part_of. unfold has_body in HB. destruct (h_packet (m_hdr m)) as [[? ?]|]; auto. destruct (m_body m); auto. discriminate. }
    rewrite PO, app_nil_r. exact IH.
Qed.
Lemma part_with_data m c mf sq data : part_of true m = Some (mf, sq, data) -> exists d, part_of true (with_data m c) = Some (mf, sq, d).
Proof.
  unfold part_of, with_data. destruct (h_packet (m_hdr m)) as [[sum s]|] eqn:HP; [|discriminate]. destruct (m_body m) as [| |e]; try discriminate. destruct e; try discriminate. cbn [m_hdr m_body a0801_head a0801_packet]. rewrite HP.
  intros E. injection E as <- <- <-. eexists. reflexivity.
Qed.

(** One step *)
Lemma calls_step ka prior pre op evs mf : effect true ka prior pre op evs ->
  (forall id now m mf' sq data, op = ODeliver id now m -> part_of true m = Some (mf', sq, data) -> same_upload mf' mf = true -> completes (hi_up (history true prior (ops_of pre))) (mf', sq, data) = false) ->
  calls_for mf evs = [].
Proof.
  intros E N. rewrite calls_handled. pose proof (effect_kinds _ _ _ _ _ _ E) as (_ & _ & K). destruct op; try (destruct K as (-> & _); reflexivity). cbn [effect] in E. apply delivery_kinds in E. cbn zeta in E. destruct E as (A & B & _).
  destruct (passes _ _ m) eqn:P; [|destruct (A eq_refl) as (-> & _); reflexivity]. destruct (B eq_refl) as (m' & H1 & H2 & H3 & -> & _). destruct (handler_of _ _) as [h|]; [|reflexivity]. cbn [calls_for filter].
  destruct (part_of true m) as [[[mf' sq] data]|] eqn:PO.
  - destruct (H3 _ _ _ eq_refl) as (c & _ & ->). destruct (part_with_data m c mf' sq data PO) as (d & ->). destruct (same_upload mf' mf) eqn:S; [|reflexivity]. exfalso.
    specialize (N _ _ _ _ _ _ eq_refl PO S). unfold passes in P. rewrite PO, N, andb_false_r in P. discriminate.
  - rewrite H2, PO by auto. reflexivity.
Qed.
Definition never (prior : list mop) (mf : mpf) (ops : list sv_op) : Prop :=
  forall a id now m b mf' sq data, ops = a ++ ODeliver id now m :: b -> part_of true m = Some (mf', sq, data) -> same_upload mf' mf = true -> completes (hi_up (history true prior a)) (mf', sq, data) = false.
Lemma never_prefix prior mf a b : never prior mf (a ++ b) -> never prior mf a.
Proof. intros N x id now m y mf' sq data ->. rewrite <- app_assoc in N. apply (N x id now m (y ++ b)). reflexivity. Qed.
Lemma never_calls ka prior mf tr : exact true ka prior tr -> never prior mf (ops_of tr) -> calls_for mf (effects tr) = [].
Proof.
  intros X N. induction tr as [|[op evs] tr IH] using rev_ind; [reflexivity|]. rewrite effects_snoc, calls_app, IH; [|eapply exact_prefix; eauto|rewrite ops_snoc in N; eapply never_prefix; eauto].
  apply (calls_step ka prior tr op); [apply (X tr op evs []); reflexivity|]. intros id now m mf' sq data -> PO S. apply (N (ops_of tr) id now m []); auto. rewrite ops_snoc. reflexivity.
Qed.
Lemma never_merge prior mf ops : Forall (foreign mf) prior -> never prior mf ops -> no_merge mf (hi_up (history true prior ops)).
Proof.
  intros F. induction ops as [|o ops IH] using rev_ind; intros N.
  - cbn. apply Forall_forall. intros x I. rewrite Forall_forall in F. specialize (F x I). destruct x; auto.
  - rewrite history_snoc. specialize (IH (never_prefix _ _ _ _ N)). destruct o; try exact IH. cbn [hist_step]. destruct (has_body m); [|exact IH]. destruct (part_of true m) as [[[mf' sq] data]|] eqn:PO; [|exact IH].
    destruct (completes (hi_up (history true prior ops)) (mf', sq, data)) eqn:C; cbn [hi_up]; unfold no_merge; apply Forall_app; (split; [exact IH|]); constructor; auto. constructor; auto.
    destruct (same_upload mf' mf) eqn:S; auto. rewrite (N ops id now m [] mf' sq data eq_refl PO S) in C. discriminate.
Qed.

(** A packet completes its upload when it is the last one missing and has the highest number. *)
Lemma completes_iff prior mf ops sq data : Forall (foreign mf) prior -> 0 <= mp_sum mf ->
  completes (hi_up (history true prior ops)) (mf, sq, data) = true <-> sq = mp_sum mf /\ forall i, 1 <= i <= mp_sum mf -> In i (numbers (packets mf ops) ++ [sq]).
Proof.
  intros F S. unfold completes. rewrite andb_true_iff, all_writtenb_spec by auto. unfold all_written. rewrite Z.eqb_eq.
  assert (K : forall i, written (hi_up (history true prior ops) ++ [MWrite mf sq data]) mf i <> None <-> In i (numbers (packets mf ops) ++ [sq])).
  { intros i. rewrite written_snoc, same_refl. cbn [andb]. rewrite in_app_iff, <- latest_in, <- (written_packets mf prior ops i F). cbn [In]. destruct (Z.eqb_spec sq i); [intuition congruence|intuition]. }
  split; intros (A & B); split; auto; intros i I; apply K; auto.
Qed.
Lemma in_upto n i : In i (upto n) <-> 1 <= i <= n.
Proof. unfold upto. rewrite in_map_iff. split; [intros (k & <- & I); apply in_seq in I; lia|]. intros I. exists (Z.to_nat i). split; [lia|]. apply in_seq. lia. Qed.
Lemma nodup_upto n : NoDup (upto n).
Proof. unfold upto. apply FinFun.Injective_map_NoDup; [intros a b; lia|apply seq_NoDup]. Qed.
(** Without repetitions nothing is complete before the last packet. *)
Lemma early mf prior ops : Forall (foreign mf) prior -> 0 <= mp_sum mf -> Permutation (numbers (packets mf ops)) (upto (mp_sum mf)) ->
  (forall id now m mf' sq d, In (ODeliver id now m) ops -> part_of true m = Some (mf', sq, d) -> same_upload mf' mf = true -> mf' = mf) ->
  forall a id now m b mf' sq data, ops = a ++ ODeliver id now m :: b -> part_of true m = Some (mf', sq, data) -> same_upload mf' mf = true ->
    completes (hi_up (history true prior a)) (mf', sq, data) = true <-> sq = mp_sum mf /\ packets mf b = [].
Proof.
  intros F S P U a id now m b mf' sq data E PO SU. assert (mf' = mf) by (eapply U; eauto; rewrite E; apply in_app_iff; cbn; auto). subst mf'. rewrite completes_iff by auto.
  assert (Q : packets mf ops = packets mf a ++ (id, m, sq, data) :: packets mf b) by (rewrite E, packets_app; cbn [packets flat_map]; rewrite PO, SU; reflexivity).
  assert (N : NoDup (numbers (packets mf ops))) by (apply (Permutation_NoDup (Permutation_sym P)), nodup_upto). rewrite Q, numbers_app in N, P.
  split; intros (A & B); split; auto.
  - destruct (packets mf b) as [|q ps]; auto. exfalso. cbn in N, P. assert (I : In (snd (fst q)) (upto (mp_sum mf))) by (apply (Permutation_in _ P); apply in_app_iff; cbn; auto).
    apply in_upto in I. apply B in I. change (numbers (packets mf a) ++ sq :: snd (fst q) :: map (fun p => snd (fst p)) ps) with (numbers (packets mf a) ++ [sq] ++ snd (fst q) :: map (fun p => snd (fst p)) ps) in N.
    rewrite app_assoc in N. apply NoDup_remove_2 in N. apply N. apply in_app_iff. auto.
  - intros i I. rewrite B in P. cbn in P. apply (Permutation_in _ (Permutation_sym P)). apply in_upto. auto.
Qed.

Lemma split_ops (tr : trace) : forall a op b, ops_of tr = a ++ op :: b -> exists ta evs tb, tr = ta ++ (op, evs) :: tb /\ ops_of ta = a /\ ops_of tb = b.
Proof.
  induction tr as [|[o es] tr IH]; intros a op b E; [destruct a; discriminate|]. destruct a as [|x a]; cbn in E.
  - injection E as -> <-. exists [], es, tr. auto.
  - injection E as -> E. destruct (IH a op b E) as (ta & evs & tb & -> & <- & <-). exists ((x, es) :: ta), evs, tb. auto.
Qed.
Lemma calls_quiet ka prior mf : forall b tr, exact true ka prior (tr ++ b) -> packets mf (ops_of b) = [] -> calls_for mf (effects b) = [].
Proof.
  induction b as [|[op evs] b IH]; intros tr X P; [reflexivity|]. change (effects ((op, evs) :: b)) with (evs ++ effects b). rewrite calls_app. cbn [ops_of map fst] in P.
  change (op :: map fst b) with ([op] ++ ops_of b) in P. rewrite packets_app in P. apply app_eq_nil in P. destruct P as (P1 & P2). rewrite (IH (tr ++ [(op, evs)])); [|rewrite <- app_assoc; exact X|auto].
  rewrite app_nil_r. apply (calls_step ka prior tr op); [apply (X tr op evs b); reflexivity|]. intros id now m mf' sq data -> PO S. cbn in P1. rewrite PO, S in P1. discriminate.
Qed.
Lemma upload o prior ops tr mf a id now m b sq data : runs o prior ops tr -> opt_auto o = true -> Forall (foreign mf) prior -> mpf_ok mf ->
  Permutation (numbers (packets mf ops)) (upto (mp_sum mf)) ->
  (forall i t x mf' s d, In (ODeliver i t x) ops -> part_of true x = Some (mf', s, d) -> same_upload mf' mf = true -> mf' = mf) ->
  ops = a ++ ODeliver id now m :: b -> part_of true m = Some (mf, sq, data) -> packets mf b = [] ->
  calls_for mf (effects tr) =
    if sq =? mp_sum mf then match handler_of a (h_id (m_hdr m)) with Some h => [SvHandle id h (with_data m (concat (map (data_with (packets mf ops)) (upto (mp_sum mf)))))] | None => [] end
    else [].
Proof.
  intros R A F M P U E PO PB. destruct (runs_exact _ _ _ _ R) as (OP & X). rewrite A in X. assert (S0 : 0 <= mp_sum mf) by (destruct M as (_ & _ & _ & M); unfold is_u16 in M; lia).
  pose proof (early mf prior ops F S0 P U) as EA. rewrite <- OP in E. destruct (split_ops tr a _ b E) as (ta & evs & tb & T & <- & <-).
  assert (NA : never prior mf (ops_of ta)).
  { intros x i t y z mf' s d Ex Py Sy. destruct (completes _ _) eqn:C; auto. exfalso. apply (EA x i t y (z ++ ODeliver id now m :: ops_of tb) mf' s d) in C; auto.
    - destruct C as (_ & C). rewrite packets_app in C. apply app_eq_nil in C. destruct C as (_ & C). cbn in C. rewrite PO, same_refl in C. discriminate.
    - rewrite <- OP, E, Ex, <- app_assoc. reflexivity. }
  assert (Xa : exact true (keepalive o) prior ta). { intros x op es y ->. apply (X x op es (y ++ (ODeliver id now m, evs) :: tb)). rewrite T, <- app_assoc. reflexivity. }
  rewrite T, effects_app, calls_app, (never_calls _ _ _ _ Xa NA). change (effects ((ODeliver id now m, evs) :: tb)) with (evs ++ effects tb). rewrite calls_app, (calls_quiet (keepalive o) prior mf tb (ta ++ [(ODeliver id now m, evs)])); [|rewrite <- app_assoc; cbn [app]; rewrite <- T; exact X|auto].
  rewrite app_nil_r. cbn [app]. pose proof (X ta _ evs tb T) as FE.
  pose proof (EA (ops_of ta) id now m (ops_of tb) mf sq data) as C. rewrite <- OP in C. specialize (C E PO (same_refl mf)).
  destruct (Z.eqb_spec sq (mp_sum mf)) as [Q|Q].
  - assert (CT : completes (hi_up (history true prior (ops_of ta))) (mf, sq, data) = true) by (apply C; auto). cbn [effect] in FE. apply delivery_kinds in FE. cbn zeta in FE. destruct FE as (_ & B & _).
    assert (HB : has_body m = true). { unfold part_of in PO. unfold has_body. destruct (h_packet (m_hdr m)) as [[? ?]|]; [|discriminate]. destruct (m_body m); auto; discriminate. }
    destruct B as (m' & _ & _ & B & H & _); [unfold passes; rewrite HB, PO, CT; reflexivity|]. destruct (B _ _ _ PO) as (c & MC & ->). rewrite calls_handled, H. destruct (handler_of _ _) as [h|]; [|reflexivity].
    cbn [calls_for filter]. destruct (part_with_data m c mf sq data PO) as (d & ->). rewrite same_refl. do 2 f_equal. f_equal.
    set (up := hi_up (history true prior (ops_of ta)) ++ [MWrite mf sq data]) in *.
    assert (NM : no_merge mf up) by (unfold up; apply Forall_app; split; [apply never_merge; auto|constructor; auto]).
    assert (W : forall i, written up mf i = latest (packets mf ops) i).
    { intros i. unfold up. rewrite written_snoc, same_refl, (written_packets mf prior _ i F). cbn [andb]. rewrite <- OP, E, packets_app. cbn [packets flat_map]. fold (packets mf (ops_of tb)). rewrite PO, same_refl, PB. cbn [app]. rewrite latest_snoc. cbn. destruct (sq =? i); auto. }
    inversion MC as [h0 m0 l0 N0 P0|h0 m1 h2 m0 l0 old S2 N0 M0 P0]; subst; [|unfold no_merge in NM; rewrite <- H0 in NM; apply Forall_app in NM; destruct NM as (_ & NM); apply Forall_inv in NM; congruence].
    rewrite (exact_parts up mf l0 M).
    + f_equal. apply map_ext. intros i. unfold data_of. rewrite W. apply latest_find. apply (Permutation_NoDup (Permutation_sym P)), nodup_upto.
    + intros i _. rewrite W, latest_in. rewrite <- in_upto. split; intros I; [apply (Permutation_in _ P)|apply (Permutation_in _ (Permutation_sym P))]; auto.
    + exact P0.
  - apply (calls_step (keepalive o) prior ta (ODeliver id now m)); auto. intros i t x mf' s d Ex Px Sx. injection Ex as <- <- <-. rewrite PO in Px. injection Px as <- <- <-. destruct (completes _ _); auto. exfalso. destruct C as (C & _). destruct (C eq_refl). contradiction.
Qed.
