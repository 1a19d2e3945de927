(** Counting the comparisons. *)
From Verif Require Import Base LibBase Bits Env Registry Message Codec Cost SpecStream SpecCost.

(** ** The count changes nothing *)
Lemma buffer_same env priv buf : fst (read_from_buffer_c env priv buf) = read_from_buffer env priv buf.
Proof.
  destruct buf as [|b t]; [reflexivity|]. cbn [read_from_buffer_c read_from_buffer]. destruct (negb _); [reflexivity|]. cbv zeta. destruct (_ =? _)%nat; [reflexivity|]. destruct (msg_decode _ _ _); reflexivity.
Qed.
Lemma loop_same env priv evs : forall buf n, fst (read_loop_c env priv buf evs n) = read_loop env priv buf evs.
Proof.
  induction evs as [|[d|e] evs IH]; intros buf n; cbn [read_loop_c read_loop]; [reflexivity| |reflexivity]. cbv zeta. destruct (_ =? 0); [apply IH|]. destruct (_ <? _); [reflexivity|].
  rewrite <- buffer_same. destruct (read_from_buffer_c env priv (buf ++ d)) as [[[m|e| |] b] c]; cbn [fst]; try reflexivity. apply IH.
Qed.
Lemma receive_same env priv buf evs n : fst (receive_c env priv buf evs n) = receive env priv buf evs.
Proof. unfold receive_c, receive. rewrite <- buffer_same. destruct (read_from_buffer_c env priv buf) as [[[m|e| |] b] c]; cbn [fst]; try reflexivity. apply loop_same. Qed.
Lemma all_same env priv fuel : forall buf evs n, fst (receive_all_c fuel env priv buf evs n) = receive_all fuel env priv buf evs.
Proof.
  induction fuel as [|f IH]; intros buf evs n; [reflexivity|]. cbn [receive_all_c receive_all]. rewrite <- (receive_same env priv buf evs n).
  destruct (receive_c env priv buf evs n) as [[[[m|e| |] b] evs'] n']; cbn [fst]; try reflexivity. specialize (IH b evs' n'). destruct (receive_all_c f env priv b evs' n') as [[ms r] n'']. cbn [fst] in *. rewrite <- IH. reflexivity.
Qed.

(** ** One call of readFromBuffer *)
Lemma find_split l : l = firstn (find_prefix l) l ++ skipn (find_prefix l) l /\ ~ In 126 (firstn (find_prefix l) l) /\ length (firstn (find_prefix l) l) = find_prefix l.
Proof.
  split; [symmetry; apply firstn_skipn|]. induction l as [|b t [IH1 IH2]]; [split; [intros []|reflexivity]|]. cbn [find_prefix]. destruct (Z.eqb_spec b prefix_id) as [->|N]; [split; [intros []|reflexivity]|].
  cbn [firstn length]. split; [|lia]. intros [->|I0]; [apply N; reflexivity|exact (IH1 I0)].
Qed.
Lemma find_max l : (find_prefix l <= length l)%nat.
Proof. destruct (find_split l) as (_ & _ & <-). rewrite firstn_length. lia. Qed.
Lemma compared_find l : compared l = Z.of_nat (find_prefix l) + (if (find_prefix l =? length l)%nat then 0 else 1).
Proof.
  induction l as [|b t IH]; [reflexivity|]. cbn [compared find_prefix]. destruct (b =? prefix_id); [reflexivity|]. rewrite IH. change (S (find_prefix t) =? length (b :: t))%nat with (find_prefix t =? length t)%nat.
  destruct (_ =? _)%nat; lia.
Qed.
Lemma delimited_tail f a l : delimited f (a ++ l) -> delimited f l.
Proof. intros D x g c -> N. apply (D (a ++ x) g c); [rewrite app_assoc; reflexivity|exact N]. Qed.
Lemma delimited_head f l c : delimited f (l ++ c) -> delimited f l.
Proof. intros D x g y -> N. apply (D x g (y ++ c)); [rewrite <- !app_assoc; reflexivity|exact N]. Qed.
Lemma find_less f l : delimited f l -> Z.of_nat (find_prefix l) < f.
Proof. intros D. destruct (find_split l) as (E & N & L). specialize (D [] (firstn (find_prefix l) l) (skipn (find_prefix l) l) E N). unfold zlen in D. lia. Qed.
(** What a call costs against what it takes out of the buffer *)
Lemma buffer_cost env priv f buf s b c : delimited f buf -> read_from_buffer_c env priv buf = (s, b, c) ->
  0 <= c /\ (exists p, buf = p ++ b) /\ match s with ScanMsg _ => c + zlen b = zlen buf | ScanNone => c <= f /\ b = buf | _ => c <= zlen buf + 1 end.
Proof.
  intros D H. destruct buf as [|x t].
  { injection H as <- <- <-. split; [lia|]. split; [exists []; reflexivity|]. pose proof (find_less f [] D) as F. cbn in F. split; [lia|reflexivity]. }
  cbn [read_from_buffer_c] in H. pose proof (find_max t) as M. pose proof (compared_find t) as C. pose proof (find_max (x :: t)) as M'. pose proof (compared_find (x :: t)) as C'.
  assert (SK : forall k, exists p, x :: t = p ++ skipn k (x :: t)) by (intros k; exists (firstn k (x :: t)); symmetry; apply firstn_skipn).
  assert (ZT : zlen (x :: t) = 1 + Z.of_nat (length t)) by (unfold zlen; cbn [length]; lia). assert (LC : length (x :: t) = S (length t)) by reflexivity.
  assert (CB : 0 <= compared (x :: t) <= zlen (x :: t)) by (destruct (Nat.eqb_spec (find_prefix (x :: t)) (length (x :: t))); lia). clear C'.
  set (cx := compared (x :: t)) in *. clearbody cx. set (ct := compared t) in *. clearbody ct.
  assert (Inj : forall (s1 s2 : scan) (b1 b2 : bytes) (c1 c2 : Z), (s1, b1, c1) = (s2, b2, c2) -> s1 = s2 /\ b1 = b2 /\ c1 = c2) by (intros; split; [|split]; congruence).
  destruct (negb _); [apply Inj in H as (<- & <- & <-); split; [lia|]; split; [apply SK|]; lia|].
  cbv zeta in H. destruct (Nat.eqb_spec (S (find_prefix t)) (length (x :: t))) as [Q|Q].
  { apply Inj in H as (<- & <- & <-). pose proof (find_less f t (delimited_tail f [x] t D)) as F. replace (find_prefix t =? length t)%nat with true in C by (symmetry; apply Nat.eqb_eq; lia).
    split; [lia|]. split; [exists []; reflexivity|]. split; [lia|reflexivity]. }
  replace (find_prefix t =? length t)%nat with false in C by (symmetry; apply Nat.eqb_neq; lia).
  assert (SL : zlen (skipn (S (S (find_prefix t))) (x :: t)) = zlen (x :: t) - Z.of_nat (S (S (find_prefix t)))) by (unfold zlen; rewrite skipn_length; lia).
  destruct (msg_decode _ _ _); apply Inj in H as (<- & <- & <-); (split; [lia|]); (split; [first [apply SK|exists []; reflexivity]|]); lia.
Qed.

(** ** Sessions *)
Definition budget (f : Z) (b : bytes) (evs : list read_event) : Z := zlen b + zlen (arrived evs) + 2 * f * reads_of evs.
Lemma arrived_data d evs : arrived (RData d :: evs) = d ++ arrived evs. Proof. reflexivity. Qed.
Lemma arrived_fail e evs : arrived (RFail e :: evs) = arrived evs. Proof. reflexivity. Qed.
Lemma reads_data d evs : reads_of (RData d :: evs) = 1 + reads_of evs. Proof. unfold reads_of. cbn [filter]. apply zlen_cons. Qed.
Lemma reads_fail e evs : reads_of (RFail e :: evs) = reads_of evs. Proof. reflexivity. Qed.
Lemma reads_pos evs : 0 <= reads_of evs. Proof. apply zlen_nonneg. Qed.
Lemma loop_cost env priv f evs : 0 < f -> forall buf n r b' evs' n', delimited f (buf ++ arrived evs) -> read_loop_c env priv buf evs n = (r, b', evs', n') ->
  n <= n' /\ (exists p, buf ++ arrived evs = p ++ b' ++ arrived evs') /\
  match r with
  | GotMsg _ => n' + f + budget f b' evs' <= n + budget f buf evs
  | _ => n' <= n + budget f buf evs + 1
  end.
Proof.
  intros F. induction evs as [|[d|e] evs IH]; intros buf n r b' evs' n' D H; cbn [read_loop_c] in H.
  - injection H as <- <- <- <-. split; [lia|]. split; [exists []; reflexivity|]. unfold budget. pose proof (zlen_nonneg buf). cbn. lia.
  - cbv zeta in H. rewrite arrived_data, app_assoc in D |- *. unfold budget. rewrite reads_data, arrived_data, zlen_app. assert (ZB : zlen (buf ++ d) = zlen buf + zlen d) by apply zlen_app.
    pose proof (zlen_nonneg (arrived evs)). pose proof (zlen_nonneg buf). pose proof (zlen_nonneg d). pose proof (reads_pos evs).
    destruct (_ =? 0).
    { apply IH in H as (G1 & G2 & G3); [|exact D]. split; [exact G1|]. split; [exact G2|]. unfold budget in G3. destruct r; lia. }
    destruct (_ <? _); [injection H as <- <- <- <-; split; [lia|]; split; [exists []; reflexivity|]; nia|].
    destruct (read_from_buffer_c env priv (buf ++ d)) as [[s b] c] eqn:E. apply (buffer_cost env priv f) in E as (C & (p & P) & Q); [|exact (delimited_head f _ _ D)].
    destruct s as [m|e| |].
    + injection H as <- <- <- <-. split; [lia|]. split; [exists p; rewrite P, <- app_assoc; reflexivity|]. lia.
    + injection H as <- <- <- <-. split; [lia|]. split; [exists p; rewrite P, <- app_assoc; reflexivity|]. nia.
    + destruct Q as (Q & ->). apply IH in H as (G1 & G2 & G3); [|exact D]. split; [lia|]. split; [exact G2|]. unfold budget in G3. destruct r; lia.
    + injection H as <- <- <- <-. split; [lia|]. split; [exists p; rewrite P, <- app_assoc; reflexivity|]. nia.
  - injection H as <- <- <- <-. split; [lia|]. rewrite arrived_fail. split; [exists []; reflexivity|]. unfold budget. rewrite reads_fail, arrived_fail. pose proof (zlen_nonneg buf). pose proof (zlen_nonneg (arrived evs)). pose proof (reads_pos evs). nia.
Qed.
Lemma receive_cost env priv f buf evs n r b' evs' n' : 0 < f -> delimited f (buf ++ arrived evs) -> receive_c env priv buf evs n = (r, b', evs', n') ->
  n <= n' /\ (exists p, buf ++ arrived evs = p ++ b' ++ arrived evs') /\
  match r with GotMsg _ => n' + budget f b' evs' <= n + budget f buf evs | _ => n' <= n + budget f buf evs + f + 1 end.
Proof.
  intros F D H. unfold receive_c in H. destruct (read_from_buffer_c env priv buf) as [[s b] c] eqn:E. apply (buffer_cost env priv f) in E as (C & (p & P) & Q); [|exact (delimited_head f _ _ D)].
  pose proof (zlen_nonneg (arrived evs)). pose proof (reads_pos evs).
  destruct s as [m|e| |].
  - injection H as <- <- <- <-. split; [lia|]. split; [exists p; rewrite P, <- app_assoc; reflexivity|]. unfold budget. lia.
  - injection H as <- <- <- <-. split; [lia|]. split; [exists p; rewrite P, <- app_assoc; reflexivity|]. unfold budget. nia.
  - destruct Q as (Q & ->). apply (loop_cost env priv f evs F) in H as (G1 & G2 & G3); [|exact D]. split; [lia|]. split; [exact G2|]. destruct r; lia.
  - injection H as <- <- <- <-. split; [lia|]. split; [exists p; rewrite P, <- app_assoc; reflexivity|]. unfold budget. nia.
Qed.
Lemma session_cost env priv f fuel : 0 < f -> forall buf evs n ms r n', delimited f (buf ++ arrived evs) -> receive_all_c fuel env priv buf evs n = (ms, r, n') ->
  n' <= n + zlen (buf ++ arrived evs) + (2 * reads_of evs + 1) * f + 1.
Proof.
  intros F. assert (G : forall buf evs n ms r n', delimited f (buf ++ arrived evs) -> receive_all_c fuel env priv buf evs n = (ms, r, n') -> n' <= n + budget f buf evs + f + 1).
  { induction fuel as [|k IH]; intros buf evs n ms r n' D H; cbn [receive_all_c] in H.
    - injection H as _ _ <-. unfold budget. pose proof (zlen_nonneg (arrived evs)). pose proof (reads_pos evs). pose proof (zlen_nonneg buf). nia.
    - destruct (receive_c env priv buf evs n) as [[[r1 b] evs1] n1] eqn:E. apply (receive_cost env priv f) in E as (G1 & (p & P) & G3); auto.
      destruct r1 as [m|e| |]; try (injection H as _ _ <-; exact G3).
      destruct (receive_all_c k env priv b evs1 n1) as [[ms2 r2] n2] eqn:E2. injection H as _ _ <-. apply IH in E2; [lia|]. rewrite P in D. exact (delimited_tail f p _ D). }
  intros buf evs n ms r n' D H. apply G in H; [|exact D]. unfold budget in H. rewrite zlen_app. lia.
Qed.

(** ** A frame sent byte by byte *)
Lemma compared_all x k : x <> prefix_id -> compared (repeat x k) = Z.of_nat k.
Proof. intros N. induction k as [|k IH]; [reflexivity|]. cbn [repeat compared]. destruct (Z.eqb_spec x prefix_id); [contradiction|]. rewrite IH. lia. Qed.
Lemma find_all x k : x <> prefix_id -> find_prefix (repeat x k) = k.
Proof. intros N. induction k as [|k IH]; [reflexivity|]. cbn [repeat find_prefix]. destruct (Z.eqb_spec x prefix_id); [contradiction|]. rewrite IH. reflexivity. Qed.
Definition open_frame (k : nat) : bytes := prefix_id :: repeat 0 k.
Lemma open_none env priv k : read_from_buffer_c env priv (open_frame k) = (ScanNone, open_frame k, Z.of_nat (S k)).
Proof.
  unfold open_frame. cbn [read_from_buffer_c]. rewrite Z.eqb_refl. cbn [negb]. cbv zeta. rewrite find_all, compared_all by discriminate. cbn [length]. rewrite repeat_length, Nat.eqb_refl. f_equal. lia.
Qed.
Lemma drip env priv k : forall j n, Z.of_nat (S j + k) <= 65535 -> exists n', read_loop_c env priv (open_frame j) (repeat (RData [0]) k) n = (Waiting, open_frame (j + k), [], n') /\
  2 * n' = 2 * n + Z.of_nat (S j + k) * (Z.of_nat (S j + k) + 1) - Z.of_nat (S j) * (Z.of_nat (S j) + 1).
Proof.
  induction k as [|k IH]; intros j n L; cbn [repeat read_loop_c].
  - rewrite Nat.add_0_r. exists n. rewrite Nat.add_0_r. split; [reflexivity|lia].
  - cbv zeta. assert (E : open_frame j ++ [0] = open_frame (S j)) by (unfold open_frame; cbn [app]; rewrite <- repeat_cons; reflexivity). rewrite E.
    assert (ZL : zlen (open_frame (S j)) = Z.of_nat (S (S j))) by (unfold zlen, open_frame; cbn [length]; rewrite repeat_length; reflexivity). rewrite ZL.
    replace (Z.of_nat (S (S j)) =? 0) with false by lia. replace (65535 <? Z.of_nat (S (S j))) with false by lia. rewrite open_none.
    destruct (IH (S j) (n + Z.of_nat (S (S j))) ltac:(lia)) as (n' & H1 & H2). exists n'. replace (j + S k)%nat with (S j + k)%nat by lia. split; [exact H1|]. replace (S j + S k)%nat with (S (S j) + k)%nat by lia. nia.
Qed.
Lemma byte_by_byte env priv n : 1 <= n <= 65535 -> let evs := map (fun x => RData [x]) (126 :: repeat 0 (Z.to_nat (n - 1))) in
  reads_of evs = n /\ zlen (arrived evs) = n /\ snd (receive_all_c 1 env priv [] evs 0) = n * (n + 1) / 2.
Proof.
  intros N. cbv zeta. set (k := Z.to_nat (n - 1)). assert (E : map (fun x => RData [x]) (126 :: repeat 0 k) = RData [126] :: repeat (RData [0]) k) by (cbn [map]; f_equal; clear; induction k as [|k IH]; [reflexivity|cbn [repeat map]; f_equal; exact IH]). rewrite E.
  assert (R : forall j, reads_of (repeat (RData [0]) j) = Z.of_nat j /\ zlen (arrived (repeat (RData [0]) j)) = Z.of_nat j).
  { induction j as [|j [I1 I2]]; [split; reflexivity|]. cbn [repeat]. rewrite reads_data, arrived_data, zlen_app, I1, I2. change (zlen [0]) with 1. lia. }
  destruct (R k) as (R1 & R2). rewrite reads_data, arrived_data, zlen_app, R1, R2. change (zlen [126]) with 1. split; [lia|]. split; [lia|].
  cbn [receive_all_c]. unfold receive_c. cbn [read_from_buffer_c read_loop_c]. cbv zeta. change (([] ++ [126])) with (open_frame 0). change (zlen (open_frame 0) =? 0) with false. change (65535 <? zlen (open_frame 0)) with false.
  rewrite open_none. destruct (drip env priv k 0 (0 + 0 + Z.of_nat 1) ltac:(lia)) as (n' & H1 & H2). rewrite H1. cbn [snd]. replace (Z.of_nat (1 + k)) with n in H2 by lia. change (Z.of_nat 1) with 1 in H2.
  assert (2 * n' = n * (n + 1)) by lia. rewrite <- H. rewrite Z.mul_comm, Z.div_mul by lia. reflexivity.
Qed.
Lemma no_factor env priv k : k < 32768 -> exists evs, events_ok evs /\ k * zlen (arrived evs) < snd (receive_all_c 1 env priv [] evs 0).
Proof.
  intros K. exists (map (fun x => RData [x]) (126 :: repeat 0 (Z.to_nat (65535 - 1)))). split.
  - apply Forall_forall. intros v V. apply in_map_iff in V as (x & <- & _). discriminate.
  - assert (N : 1 <= 65535 <= 65535) by lia. destruct (byte_by_byte env priv 65535 N) as (_ & -> & ->). change (65535 * (65535 + 1) / 2) with (65535 * 32768). lia.
Qed.
