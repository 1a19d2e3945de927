(** The dialogue of the example terminal with the example platform. *)
From Coq Require Import Permutation.
From Verif Require Import Base LibBase Bits LibBits Decimal GoTime Env EntTerm EntPlat Registry Message Timer Session Multipart Server.
From Verif Require Import SpecGeo SpecEntity SpecRange SpecFrame SpecMsg SpecSession SpecMulti SpecTimer SpecServer.
From Verif Require Import ProofServer ProofServer3 ProofServer4 ProofServer5 ProofServer6 SpecHost ProofHost.
From Verif Require Import App SpecApp ProofApp ProofApp2.

Lemma conv_flat key prior id f ops : (forall a now m b, ops = a ++ ODeliver id now m :: b -> speech key (hi_up (history true prior a)) m = f m) ->
  conversation key prior id ops = flat_map f (messages id ops).
Proof.
  induction ops as [|o ops IH] using rev_ind; intros H; [reflexivity|]. rewrite conversation_snoc, messages_app, flat_map_app, IH by (intros a now m b E; apply (H a now m (b ++ [o])); rewrite E, <- app_assoc; reflexivity).
  f_equal. destruct o; try reflexivity. cbn [messages flat_map]. destruct (Z.eqb_spec id0 id) as [->|N]; [|reflexivity]. cbn [flat_map app]. rewrite app_nil_r. apply (H ops now m []). reflexivity.
Qed.

(** Contents of the dialogue: packets of the file, and bodies that are no packets *)
Definition in_dialogue (k : Z) (c : content) : Prop :=
  let '(i, n, p, e) := c in
  entity_id e = i /\ match e with E0801 x => i = 0x0801 /\ n = 3 /\ (exists sq, p = Some (k, sq)) /\ a0800_media (a0801_head x) = 1024 | _ => p = None end.
Definition cpart (c : content) : list (Z * bytes) :=
  match c with (_, _, Some (_, sq), E0801 x) => [(sq, match a0801_packet x with Some r => rdr_data r | None => [] end)] | _ => [] end.
Lemma heard_part k m c : hears m c -> in_dialogue k c -> match cpart c with [(sq, d)] => part_of true m = Some (my_file k, sq, d) | _ => part_of true m = None end.
Proof.
  destruct c as [[[i n] p] e]. intros (H1 & H2 & H3 & H4 & H5) (D1 & D2). unfold part_of. rewrite H1, H2, H4, H5. destruct e; cbn [cpart]; try (rewrite D2; reflexivity).
  destruct D2 as (-> & _ & (sq & ->) & ->). reflexivity.
Qed.
Lemma cpart_shape c : cpart c = [] \/ exists x, cpart c = [x].
Proof. destruct c as [[[i n] [[a b]|]] e]; destruct e; cbn; eauto. Qed.
Definition numbered (ps : list (Z * message * Z * bytes)) : list (Z * bytes) := map (fun p => (snd (fst p), snd p)) ps.
Lemma numbered_numbers ps : numbers ps = map fst (numbered ps).
Proof. unfold numbered. rewrite map_map. reflexivity. Qed.
Lemma numbered_data ps i : data_with ps i = match find (fun q => fst q =? i) (numbered ps) with Some q => snd q | None => [] end.
Proof. unfold data_with. induction ps as [|[[[a b] s] d] ps IH]; cbn; [reflexivity|]. destruct (s =? i); auto. Qed.
Lemma packets_heard k id ops : forall cs, alone k id ops -> Forall2 hears (messages id ops) cs -> Forall (in_dialogue k) cs -> numbered (packets (my_file k) ops) = flat_map cpart cs.
Proof.
  induction ops as [|o ops IH]; intros cs A F D.
  - inversion F. reflexivity.
  - assert (A' : alone k id ops) by (intros i t x mf s d I; apply (A i t x mf s d); cbn; auto). change (o :: ops) with ([o] ++ ops) in *. rewrite packets_app, messages_app in *. unfold numbered in *. rewrite map_app.
    destruct o; try (cbn [messages flat_map app packets map] in *; apply IH; auto). cbn [messages flat_map app packets] in F |- *. rewrite app_nil_r. destruct (Z.eqb_spec id0 id) as [->|N]; cbn [app] in F.
    + inversion F; subst. inversion D; subst. cbn [flat_map]. rewrite <- (IH l') by auto. f_equal. pose proof (heard_part k m y H1 H2) as P. destruct (cpart_shape y) as [E|([sq d] & E)]; rewrite E in *; rewrite P.
      * reflexivity.
      * rewrite same_refl. reflexivity.
    + rewrite IH with (cs := cs) by auto. destruct (part_of true m) as [[[mf s] d]|] eqn:P; [|reflexivity]. rewrite (A id0 now m mf s d) by (auto; cbn; auto). reflexivity.
Qed.
Lemma rest_dialogue k cs : answers_only cs -> Forall (in_dialogue k) cs /\ flat_map cpart cs = [].
Proof.
  induction 1 as [|[[[i n] p] e] cs H F (A & B)]; [split; constructor|]. assert (i = 0x0104 /\ p = None /\ exists x, e = E0104 x) as (-> & -> & x & ->).
  { destruct (Z.eq_dec i 0x0104) as [->|N]; [destruct p; [contradiction|]; destruct e; try contradiction; eauto|]. exfalso. revert H. destruct i as [|q|q]; auto. do 9 (destruct q as [q|q|]; auto); congruence. }
  split; [constructor; auto; split; reflexivity|]. cbn. exact B.
Qed.
Lemma upload_dialogue env now media : Forall (in_dialogue (zlen media / 512)) (upload_content env now media) /\ flat_map cpart (upload_content env now media) = map (fun i => (i, slice media i)) (upto (zlen media / 512)).
Proof.
  unfold upload_content. induction (upto (zlen media / 512)) as [|i l (A & B)]; cbn [map flat_map]; split; auto.
  - constructor; auto. split; [reflexivity|]. split; [reflexivity|]. split; [reflexivity|]. split; [eauto|reflexivity].
  - cbn [cpart packet_content app a0801_packet rdr_data]. rewrite B. reflexivity.
Qed.
Lemma script_dialogue env now mykey media rest : answers_only rest -> Forall (in_dialogue (zlen media / 512)) (script env now mykey media rest) /\
  flat_map cpart (script env now mykey media rest) = map (fun i => (i, slice media i)) (upto (zlen media / 512)).
Proof.
  intros R. destruct (rest_dialogue (zlen media / 512) rest R) as (A1 & A2). destruct (upload_dialogue env now media) as (B1 & B2). unfold script. split.
  - apply Forall_app. split; [repeat constructor|]. apply Forall_app. auto.
  - rewrite !flat_map_app, A2, B2, app_nil_r. reflexivity.
Qed.
Lemma Forall2_split {A B} (P : A -> B -> Prop) a x b : forall l, Forall2 P (a ++ x :: b) l -> exists c y d, l = c ++ y :: d /\ Forall2 P a c /\ P x y /\ Forall2 P b d.
Proof.
  induction a as [|u a IH]; intros l F; cbn [app] in F; inversion F; subst.
  - exists [], y, l'. auto.
  - destruct (IH l' H3) as (c & z & d & -> & F1 & F2 & F3). exists (y :: c), z, d. auto.
Qed.
Lemma map_fst_slice media l : map fst (map (fun i => (i, slice media i)) l) = l.
Proof. rewrite map_map. apply map_id. Qed.

Definition creply (key : option t0a00) (c : content) : list entity :=
  let '(i, n, p, e) := c in
  match e with
  | E0102 _ => [ack n i; E8104]
  | E0200 _ => [ack n i]
  | E0801 x => ack n i :: match p with Some (sum, sq) => if sq =? sum then [E8800 (T8800 1024 [])] else [] | None => [] end
  | E0A00 _ => ack n i :: match key with Some x => [E8A00 x] | None => [] end
  | _ => []
  end.
Lemma rest_silent key cs : answers_only cs -> flat_map (creply key) cs = [].
Proof.
  induction 1 as [|[[[i n] p] e] cs H F IH]; [reflexivity|]. cbn [flat_map]. rewrite IH, app_nil_r. destruct (Z.eq_dec i 0x0104) as [->|N]; [destruct p; [contradiction|]; destruct e; try contradiction; reflexivity|].
  exfalso. revert H. destruct i as [|q|q]; auto. do 9 (destruct q as [q|q|]; auto); congruence.
Qed.
Lemma skip_skip {A} a b (l : list A) : skipn a (skipn b l) = skipn (a + b) l.
Proof. rewrite Nat.add_comm. revert l. induction b as [|b IH]; intros l; [reflexivity|]. destruct l as [|x l]; [cbn; apply skipn_nil|]. cbn [skipn Nat.add]. apply IH. Qed.
Section Dialogue.
Variables (env : Env) (now k id : Z) (mykey : t0a00) (media : bytes) (rest : list content) (prior : list mop) (ops : list sv_op).
Hypothesis FILE : file_ok media.
Hypothesis K : k = zlen media / 512.
Hypothesis REST : answers_only rest.
Hypothesis HEARD : Forall2 hears (messages id ops) (script env now mykey media rest).
Hypothesis ALONE : alone k id ops.
Hypothesis PRIOR : Forall (foreign (my_file k)) prior.

Lemma k_range : 1 <= k <= 65535. Proof. subst. destruct FILE as (_ & _ & H). exact H. Qed.
Lemma my_packets_numbered : numbered (packets (my_file k) ops) = map (fun i => (i, slice media i)) (upto k).
Proof. destruct (script_dialogue env now mykey media rest REST) as (D & C). rewrite K at 2. rewrite <- C. apply packets_heard with (id := id); auto. rewrite K. exact D. Qed.
Lemma my_packets_perm : Permutation (numbers (packets (my_file k) ops)) (upto (mp_sum (my_file k))).
Proof. rewrite numbered_numbers, my_packets_numbered, map_fst_slice. apply Permutation_refl. Qed.
Lemma my_packets_same i t x mf' s d : In (ODeliver i t x) ops -> part_of true x = Some (mf', s, d) -> same_upload mf' (my_file k) = true -> mf' = my_file k.
Proof.
  intros I P S. destruct (Z.eq_dec i id) as [->|N]; [|rewrite (ALONE i t x mf' s d) in S by auto; discriminate].
  apply in_split in I. destruct I as (a & b & ->). pose proof HEARD as F. rewrite messages_app in F. cbn [messages flat_map] in F. rewrite Z.eqb_refl in F. cbn [app] in F. destruct (Forall2_split _ _ _ _ _ F) as (c1 & y & c2 & E & _ & H & _).
  destruct (script_dialogue env now mykey media rest REST) as (D & _). rewrite E in D. apply Forall_app in D. destruct D as (_ & D). apply Forall_inv in D. rewrite <- K in D.
  pose proof (heard_part k x y H D) as Q. destruct (cpart_shape y) as [Q0|([sq d0] & Q0)]; rewrite Q0 in Q; congruence.
Qed.
(** Which packet completes the file *)
Lemma my_completes a t m b mf sq d : ops = a ++ ODeliver id t m :: b -> part_of true m = Some (mf, sq, d) -> mf = my_file k /\ completes (hi_up (history true prior a)) (mf, sq, d) = (sq =? k).
Proof.
  intros E P. pose proof HEARD as F. rewrite E, messages_app in F. cbn [messages flat_map] in F. rewrite Z.eqb_refl in F. cbn [app] in F. destruct (Forall2_split _ _ _ _ _ F) as (c1 & y & c2 & EC & F1 & H & F2).
  destruct (script_dialogue env now mykey media rest REST) as (D & C). rewrite <- K in D, C. rewrite EC in D. assert (DY := D). apply Forall_app in DY. destruct DY as (_ & DY). assert (D2 := Forall_inv_tail DY). apply Forall_inv in DY.
  pose proof (heard_part k m y H DY) as Q. destruct (cpart_shape y) as [Q0|([sq0 d0] & Q0)]; rewrite Q0 in Q; [congruence|]. rewrite P in Q. injection Q as -> <- <-. split; [reflexivity|].
  assert (KR := k_range). destruct (Z.eqb_spec sq k) as [->|N].
  - apply (early (my_file k) prior ops PRIOR ltac:(cbn; lia) my_packets_perm my_packets_same a id t m b (my_file k) k d E P (same_refl _)). split; [reflexivity|].
    assert (AL : alone k id b) by (intros i u x mf s e I; apply (ALONE i u x mf s e); rewrite E; apply in_app_iff; cbn; auto).
    pose proof (packets_heard k id b c2 AL F2 D2) as PB. rewrite EC, flat_map_app in C. cbn [flat_map] in C. rewrite Q0 in C. cbn [app] in C.
    assert (NB : flat_map cpart c2 = []).
    { assert (U : upto k = upto (k - 1) ++ [k]). { unfold upto. replace (Z.to_nat k) with (S (Z.to_nat (k - 1))) by lia. rewrite seq_S, map_app. cbn [map]. do 2 f_equal. lia. }
      assert (ND : NoDup (map fst (flat_map cpart c1 ++ (k, d) :: flat_map cpart c2))) by (rewrite C, map_fst_slice; apply nodup_upto).
      rewrite U, map_app in C. cbn [map] in C. destruct (flat_map cpart c2) as [|z l] using rev_ind; [reflexivity|]. exfalso. change ((k, d) :: l ++ [z]) with (((k, d) :: l) ++ [z]) in C. rewrite app_assoc in C. apply app_inj_tail in C. destruct C as (_ & ->).
      rewrite map_app in ND. cbn [map fst] in ND. apply NoDup_remove_2 in ND. apply ND. apply in_app_iff. right. rewrite map_app. apply in_app_iff. right. cbn. auto. }
    rewrite NB in PB. unfold numbered in PB. apply map_eq_nil in PB. exact PB.
  - destruct (completes _ _) eqn:CC; auto. exfalso. apply N. apply (completes_iff prior (my_file k) a sq d PRIOR) in CC; [|cbn; lia]. apply CC.
Qed.
Definition reply_to (key : option t0a00) (m : message) : list entity :=
  match part_of true m with Some (mf, sq, _) => response m 0 :: if sq =? mp_sum mf then says_to key m else [] | None => says_to key m end.
Lemma my_speech key a t m b : ops = a ++ ODeliver id t m :: b -> speech key (hi_up (history true prior a)) m = reply_to key m.
Proof.
  intros E. assert (HB : has_body m = true).
  { pose proof HEARD as F. rewrite E, messages_app in F. cbn [messages flat_map] in F. rewrite Z.eqb_refl in F. cbn [app] in F. destruct (Forall2_split _ _ _ _ _ F) as (c1 & [[[i n] p] e] & c2 & _ & _ & (_ & _ & _ & _ & H) & _). unfold has_body. rewrite H. reflexivity. }
  unfold speech, reply_to. rewrite HB. destruct (part_of true m) as [[[mf sq] d]|] eqn:P; [|reflexivity]. destruct (my_completes a t m b mf sq d E P) as (-> & ->). reflexivity.
Qed.
Lemma heard_reply key m c : hears m c -> in_dialogue k c -> reply_to key m = creply key c.
Proof.
  intros H D. pose proof (heard_part k m c H D) as P. destruct c as [[[i n] p] e]. destruct H as (H1 & H2 & H3 & H4 & H5), D as (D1 & D2). unfold reply_to, says_to, response, ack, creply.
  destruct e; cbn [cpart] in P; try (rewrite D2 in P; rewrite P, H5, ?H1, ?H3; reflexivity).
  destruct D2 as (-> & -> & (sq & ->) & E). rewrite P, H5, H1, H3, E. reflexivity.
Qed.
Lemma flat_heard key ms cs : Forall2 hears ms cs -> Forall (in_dialogue k) cs -> flat_map (reply_to key) ms = flat_map (creply key) cs.
Proof. induction 1 as [|m c ms cs H F IH]; intros D; cbn [flat_map]; [reflexivity|]. rewrite IH by exact (Forall_inv_tail D). f_equal. apply heard_reply; [auto|exact (Forall_inv D)]. Qed.
Lemma my_conversation key : conversation key prior id ops = dialogue key k.
Proof.
  rewrite (conv_flat key prior id (reply_to key) ops) by (intros a t m b E; eapply my_speech; eauto). destruct (script_dialogue env now mykey media rest REST) as (D & _). rewrite <- K in D. rewrite (flat_heard key _ _ HEARD D).
  unfold script, dialogue. rewrite !flat_map_app. cbn [greeting_content flat_map creply app]. do 4 f_equal. rewrite app_nil_r. f_equal.
  rewrite (rest_silent key rest REST), app_nil_r. unfold upload_content. rewrite <- K. assert (KR := k_range).
  assert (U : upto k = upto (k - 1) ++ [k]). { unfold upto. replace (Z.to_nat k) with (S (Z.to_nat (k - 1))) by lia. rewrite seq_S, map_app. cbn [map]. do 2 f_equal. lia. }
  rewrite U, map_app, flat_map_app. cbn [map flat_map creply packet_content]. rewrite <- K, Z.eqb_refl. cbn [app].
  assert (Q : flat_map (creply key) (map (packet_content env now media) (upto (k - 1))) = repeat (ack 3 0x0801) (Z.to_nat (k - 1))).
  { assert (H : forall i, In i (upto (k - 1)) -> i <> k) by (intros i I; apply in_upto in I; lia). replace (Z.to_nat (k - 1)) with (length (upto (k - 1))) by (unfold upto; rewrite map_length, seq_length; reflexivity).
    clear U. induction (upto (k - 1)) as [|i l IH]; [reflexivity|]. cbn [map flat_map length repeat]. rewrite IH by (intros; apply H; cbn; auto). cbn [creply packet_content]. rewrite <- K. destruct (Z.eqb_spec i k) as [->|]; [destruct (H k (or_introl eq_refl) eq_refl)|]. reflexivity. }
  rewrite Q. replace (Z.to_nat k) with (Z.to_nat (k - 1) + 1)%nat by lia. rewrite repeat_app, <- app_assoc. reflexivity.
Qed.
Lemma slices n : forall i, 0 <= i -> zlen media = 512 * i + 512 * Z.of_nat n -> concat (map (slice media) (map (fun j => i + Z.of_nat j) (seq 1 n))) = skipn (Z.to_nat (512 * i)) media.
Proof.
  induction n as [|n IH]; intros i I L; cbn [seq map concat].
  - symmetry. apply skipn_all2. unfold zlen in L. lia.
  - rewrite <- (seq_shift n 1), (map_map S). rewrite (map_ext (fun j => i + Z.of_nat (S j)) (fun j => (i + 1) + Z.of_nat j)) by (intros; lia). rewrite IH by lia. unfold slice. change (i + Z.of_nat 1) with (i + 1). replace (512 * (i + 1 - 1)) with (512 * i) by lia.
    replace (Z.to_nat (512 * (i + 1))) with (512 + Z.to_nat (512 * i))%nat by lia. rewrite <- skip_skip. apply firstn_skipn.
Qed.
Lemma whole : concat (map (data_with (packets (my_file k) ops)) (upto k)) = media.
Proof.
  assert (E : map (data_with (packets (my_file k) ops)) (upto k) = map (slice media) (upto k)).
  { apply map_ext_in. intros i I. rewrite numbered_data, my_packets_numbered. revert I. induction (upto k) as [|j l IH]; [contradiction|]. intros I. cbn [map find fst]. destruct (Z.eqb_spec j i) as [->|N]; [reflexivity|]. destruct I as [->|I]; [contradiction|]. auto. }
  rewrite E. unfold upto. assert (KR := k_range). destruct FILE as (_ & M & _). rewrite (map_ext Z.of_nat (fun j => 0 + Z.of_nat j)) by (intros; lia). rewrite slices by lia. reflexivity.
Qed.
End Dialogue.

Lemma last_packet env now k id mykey media rest ops : file_ok media -> k = zlen media / 512 -> answers_only rest -> alone k id ops ->
  Forall2 hears (messages id ops) (script env now mykey media rest) ->
  exists a t m b, ops = a ++ ODeliver id t m :: b /\ hears m (packet_content env now media k) /\ packets (my_file k) b = [].
Proof.
  intros F K R A H. assert (KR : 1 <= k <= 65535) by (subst; destruct F as (_ & _ & X); exact X).
  assert (U : upto k = upto (k - 1) ++ [k]). { unfold upto. replace (Z.to_nat k) with (S (Z.to_nat (k - 1))) by lia. rewrite seq_S, map_app. cbn [map]. do 2 f_equal. lia. }
  assert (E : script env now mykey media rest = (greeting_content env now mykey ++ map (packet_content env now media) (upto (k - 1))) ++ packet_content env now media k :: rest).
  { unfold script, upload_content. rewrite <- K, U, map_app, <- !app_assoc. reflexivity. }
  rewrite E in H. clear E U. remember (greeting_content env now mykey ++ map (packet_content env now media) (upto (k - 1))) as pre. clear Heqpre. revert pre H A. induction ops as [|o ops IH]; intros pre H A.
  - inversion H. destruct pre; discriminate.
  - assert (A' : alone k id ops) by (intros i t x mf s d I; apply (A i t x mf s d); cbn; auto).
    assert (SKIP : Forall2 hears (messages id ops) (pre ++ packet_content env now media k :: rest) -> exists a t m b, o :: ops = a ++ ODeliver id t m :: b /\ hears m (packet_content env now media k) /\ packets (my_file k) b = []).
    { intros H'. destruct (IH pre H' A') as (a & t & m & b & -> & X). exists (o :: a), t, m, b. auto. }
    destruct o; try exact (SKIP H). cbn [messages flat_map] in H. destruct (Z.eqb_spec id0 id) as [->|N]; [|exact (SKIP H)]. cbn [app] in H. destruct pre as [|c pre]; cbn [app] in H.
    + inversion H; subst y l l'. exists [], now0, m, ops. split; [reflexivity|]. split; auto. destruct (rest_dialogue k rest R) as (D1 & D2). pose proof (packets_heard k id ops rest A' H5 D1) as P. rewrite D2 in P. unfold numbered in P. apply map_eq_nil in P. exact P.
    + inversion H; subst. destruct (IH pre H5 A') as (a & t & m' & b & -> & X). exists (ODeliver id now0 m :: a), t, m', b. auto.
Qed.
Lemma handled_file env now id mykey media rest prior o tr : runs o prior (ops_of tr) tr -> opt_auto o = true ->
  file_ok media -> answers_only rest -> alone (zlen media / 512) id (ops_of tr) -> Forall (foreign (my_file (zlen media / 512))) prior ->
  (forall a x b, ops_of tr = a ++ ODeliver id (fst x) (snd x) :: b -> handler_of a 0x0801 = Some 3) ->
  Forall2 hears (messages id (ops_of tr)) (script env now mykey media rest) ->
  exists m, calls_for (my_file (zlen media / 512)) (effects tr) = [SvHandle id 3 m] /\
    hears m (0x0801, 3, Some (zlen media / 512, zlen media / 512), E0801 (T0801 (T0800 1024 1 0 13 28) (seen_position env now) (Some (Rdr media false)))).
Proof.
  intros RU AU F R A P HH H. destruct (last_packet env now _ id mykey media rest (ops_of tr) F eq_refl R A H) as (a & t & m & b & E & HM & PB).
  set (k := zlen media / 512) in *. assert (KR : 1 <= k <= 65535) by (destruct F as (_ & _ & X); exact X).
  assert (PM : part_of true m = Some (my_file k, k, slice media k)).
  { destruct HM as (H1 & H2 & H3 & H4 & H5). unfold part_of. rewrite H1, H2, H4, H5. reflexivity. }
  pose proof (upload o prior (ops_of tr) tr (my_file k) a id t m b k (slice media k) RU AU P) as U.
  rewrite U; auto.
  - cbn [my_file mp_sum]. rewrite Z.eqb_refl. destruct HM as (H1 & H2 & H3 & H4 & H5). rewrite H1, (HH a (t, m) b E). eexists. split; [reflexivity|].
    pose proof (whole env now k id mykey media rest prior (ops_of tr) F eq_refl R H A P) as W. cbn [my_file mp_sum] in W. rewrite W. unfold with_data. rewrite H5. unfold hears. cbn [m_hdr m_body a0801_head a0801_loc]. auto.
  - split; [vm_compute; intuition congruence|]. split; [vm_compute; intuition congruence|]. split; [vm_compute; intuition congruence|]. cbn. unfold is_u16. lia.
  - apply (my_packets_perm env now k id mykey media rest (ops_of tr)); auto.
  - intros i u x mf' s d. apply (my_packets_same env now k id mykey media rest (ops_of tr)); auto.
Qed.
