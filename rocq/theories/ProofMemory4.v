(** Receive over memory is Receive; messages handed over stay as they are. *)
From Verif Require Import Base LibBase Bits Env Registry Message Codec Memory SpecMemory ProofMemory ProofMemory2 ProofMemory3.

Definition fit (evs : list (read_event * option nat)) : Prop := forall d g, In (RData d, g) evs -> (length d <= 128)%nat.
(** What a call of Receive leaves *)
Definition received_ok (env : Env) (P : nat -> Prop) (m m' : memory) (b b' : mbuf) (r : received) (v : option slice) : Prop :=
  moved P m m' /\ bwf m' b' /\ (bf_arr b' = bf_arr b \/ (mm_next m <= bf_arr b')%nat) /\
  forall x, r = GotMsg x -> exists w, v = Some w /\ handed env m m' x w /\ sl_arr w <> bf_arr b'.
Lemma handed_sooner env m m1 m' x w : (mm_next m <= mm_next m1)%nat -> handed env m1 m' x w -> handed env m m' x w.
Proof. intros L (A & B). split; [lia|exact B]. Qed.
Lemma later env (P Q : nat -> Prop) m m1 m' b b1 b' r v : moved P m m1 -> (bf_arr b1 = bf_arr b \/ (mm_next m <= bf_arr b1)%nat) -> (bf_arr b < mm_next m)%nat -> (forall a, (a < mm_next m)%nat -> Q a -> P a) ->
  received_ok env Q m1 m' b1 b' r v -> received_ok env P m m' b b' r v.
Proof.
  intros M B Lb I (M1 & W & B1 & H). pose proof (proj1 M) as N1. split; [|split; [exact W|split]].
  - destruct M as (A & M), M1 as (A1 & M1). split; [lia|]. intros a L. destruct (M a L) as [X Y]. destruct (M1 a ltac:(lia)) as [X1 Y1]. split; [|congruence]. intros Na. rewrite X1; [apply X; exact Na|]. intros Qa. apply Na, I; assumption.
  - destruct B as [B|B], B1 as [B1|B1]; try (left; congruence); right; lia.
  - intros x E. destruct (H x E) as (w & V & Hw & Nw). exists w. split; [exact V|]. split; [exact (handed_sooner _ _ _ _ _ _ N1 Hw)|exact Nw].
Qed.
Lemma loop_ok env key : forall evs m b tmp, bwf m b -> fit evs -> (tmp < mm_next m)%nat -> length (mm_at m tmp) = 128%nat -> tmp <> bf_arr b ->
  exists v m' b', m_loop env key m b tmp evs = (fst (fst (read_loop env key (content m b) (map fst evs))), v, m', b') /\ content m' b' = snd (fst (read_loop env key (content m b) (map fst evs))) /\
  received_ok env (fun a => a = bf_arr b \/ a = tmp) m m' b b' (fst (fst (read_loop env key (content m b) (map fst evs)))) v.
Proof.
  induction evs as [|[[d|e] g] evs IH]; intros m b tmp W F Lt L128 Nt; cbn [m_loop map fst read_loop].
  - exists None, m, b. split; [reflexivity|]. split; [reflexivity|]. split; [apply moved_grown, grown_refl|]. split; [exact W|]. split; [auto|]. intros x E. discriminate E.
  - assert (Ld : (length d <= 128)%nat) by (apply (F d g); left; reflexivity). set (m1 := blit m tmp 0 d). assert (F1 : (0 + length d <= length (mm_at m tmp))%nat) by (cbn; lia).
    assert (M1 : moved (fun a => a = bf_arr b \/ a = tmp) m m1) by (apply moved_blit; [right; reflexivity|exact F1]).
    assert (C1 : content m1 b = content m b) by (rewrite !content_def; unfold m1; rewrite at_blit_other by congruence; reflexivity).
    assert (W1 : bwf m1 b) by (unfold bwf, m1; rewrite blit_length by exact F1; exact W).
    set (p := Sl tmp 0 (length d) 128). assert (Vp : view m1 p = d). { unfold view, p, m1. cbn [sl_len sl_off sl_arr skipn]. rewrite at_blit. cbn [firstn app]. rewrite firstn_app, Nat.sub_diag. cbn [firstn]. rewrite app_nil_r. apply firstn_all. }
    assert (Wp : swf m1 p) by (unfold swf, p, m1; cbn [sl_arr sl_off sl_len sl_cap]; rewrite blit_length by exact F1; cbn [blit mm_next]; lia).
    destruct (bf_write m1 b p g) as [m2 b2] eqn:E. destruct (write_ok m1 b p g m2 b2 W1 Wp Nt E) as (C2 & W2 & M2 & A2). rewrite Vp, C1 in C2.
    assert (M12 : moved (fun a => a = bf_arr b \/ a = tmp) m m2) by (apply (moved_trans _ m m1); [exact M1|]; revert M2; apply moved_weaken; intros a _ Pa; left; exact Pa).
    pose proof (content_length m2 b2 W2) as L2. cbv zeta. rewrite <- C2. unfold zlen. rewrite L2.
    assert (Lt2 : (tmp < mm_next m2)%nat) by (destruct M12; lia). assert (L128' : length (mm_at m2 tmp) = 128%nat) by (rewrite (proj2 (proj2 M12 tmp Lt)); exact L128).
    assert (Nt2 : tmp <> bf_arr b2) by (destruct A2 as [-> |A2]; [exact Nt|cbn [m1 blit mm_next] in A2; lia]).
    assert (B2 : bf_arr b2 = bf_arr b \/ (mm_next m <= bf_arr b2)%nat) by (destruct A2 as [A2|A2]; [left; exact A2|right; exact A2]).
    assert (I2 : forall a, (a < mm_next m)%nat -> (a = bf_arr b2 \/ a = tmp) -> a = bf_arr b \/ a = tmp) by (intros a La [-> | ->]; [|auto]; destruct B2; [auto|lia]).
    assert (Lb : (bf_arr b < mm_next m)%nat) by (destruct W; assumption). assert (F' : fit evs) by (intros d' g' J; apply (F d' g'); right; exact J).
    replace (Z.of_nat (bf_end b2 - bf_off b2) =? 0) with (bf_end b2 - bf_off b2 =? 0)%nat by (destruct (Nat.eqb_spec (bf_end b2 - bf_off b2) 0), (Z.eqb_spec (Z.of_nat (bf_end b2 - bf_off b2)) 0); try reflexivity; lia).
    assert (Go : forall m3 b3, content m3 b3 = content m3 b3 -> moved (fun a => a = bf_arr b \/ a = tmp) m m3 -> bwf m3 b3 -> bf_arr b3 = bf_arr b2 -> (mm_next m2 <= mm_next m3)%nat ->
      exists v m' b', m_loop env key m3 b3 tmp evs = (fst (fst (read_loop env key (content m3 b3) (map fst evs))), v, m', b') /\ content m' b' = snd (fst (read_loop env key (content m3 b3) (map fst evs))) /\
      received_ok env (fun a => a = bf_arr b \/ a = tmp) m m' b b' (fst (fst (read_loop env key (content m3 b3) (map fst evs)))) v).
    { intros m3 b3 _ M3 W3 A3 N3. destruct (IH m3 b3 tmp W3 F') as (v & m' & b' & X & Y & R); [lia|rewrite (proj2 (proj2 M3 tmp Lt)); exact L128|congruence|]. exists v, m', b'. split; [exact X|]. split; [exact Y|].
      apply (later env _ (fun a => a = bf_arr b3 \/ a = tmp) m m3 m' b b3 b' _ v M3); [rewrite A3; exact B2|exact Lb|rewrite A3; exact I2|exact R]. }
    destruct (Nat.eqb_spec (bf_end b2 - bf_off b2) 0) as [Q|Q].
    { exact (Go m2 b2 eq_refl M12 W2 eq_refl (Nat.le_refl _)). }
    destruct (65535 <? Z.of_nat (bf_end b2 - bf_off b2)).
    { cbn [fst snd]. exists None, m2, b2. split; [reflexivity|]. split; [reflexivity|]. split; [exact M12|]. split; [exact W2|]. split; [exact B2|discriminate]. }
    destruct (try_ok env key m2 b2 W2) as (v & m3 & b3 & T & C3 & G3 & A3 & W3 & H3). rewrite T. destruct (read_from_buffer env key (content m2 b2)) as [sc buf]. cbn [fst snd] in *. subst buf.
    assert (M3 : moved (fun a => a = bf_arr b \/ a = tmp) m m3) by (apply (moved_trans _ m m2); [exact M12|apply moved_grown; exact G3]).
    assert (B3 : bf_arr b3 = bf_arr b \/ (mm_next m <= bf_arr b3)%nat) by (rewrite A3; exact B2).
    destruct sc as [x|e| |]; cbn [fst snd].
    + exists v, m3, b3. split; [reflexivity|]. split; [reflexivity|]. split; [exact M3|]. split; [exact W3|]. split; [exact B3|]. intros y Y. injection Y as <-. destruct (H3 x eq_refl) as (w & -> & H). exists w. split; [reflexivity|].
      split; [apply (handed_sooner env m m2); [destruct M12; assumption|exact H]|]. destruct H as (H & _). destruct W2 as (W2 & _). lia.
    + exists None, m3, b3. split; [reflexivity|]. split; [reflexivity|]. split; [exact M3|]. split; [exact W3|]. split; [exact B3|discriminate].
    + apply Go; [reflexivity|exact M3|exact W3|exact A3|destruct G3; assumption].
    + exists None, m3, b3. split; [reflexivity|]. split; [reflexivity|]. split; [exact M3|]. split; [exact W3|]. split; [exact B3|discriminate].
  - exists None, m, b. split; [reflexivity|]. split; [reflexivity|]. split; [apply moved_grown, grown_refl|]. split; [exact W|]. split; [auto|discriminate].
Qed.
Lemma receive_ok env key evs m b : bwf m b -> fit evs -> exists v m' b', m_receive env key m b evs = (fst (fst (receive env key (content m b) (map fst evs))), v, m', b') /\
  content m' b' = snd (fst (receive env key (content m b) (map fst evs))) /\ received_ok env (fun a => a = bf_arr b) m m' b b' (fst (fst (receive env key (content m b) (map fst evs)))) v.
Proof.
  intros W F. unfold m_receive, receive. destruct (try_ok env key m b W) as (v & m1 & b1 & T & C1 & G1 & A1 & W1 & H1). rewrite T. destruct (read_from_buffer env key (content m b)) as [sc buf]. cbn [fst snd] in *. subst buf.
  assert (M1 : moved (fun a => a = bf_arr b) m m1) by (apply moved_grown; exact G1). destruct sc as [x|e| |]; cbn [fst snd].
  - exists v, m1, b1. split; [reflexivity|]. split; [reflexivity|]. split; [exact M1|]. split; [exact W1|]. split; [auto|]. intros y Y. injection Y as <-. destruct (H1 x eq_refl) as (w & -> & H). exists w. split; [reflexivity|]. split; [exact H|].
    destruct H as (H & _), W as (W & _). lia.
  - exists None, m1, b1. split; [reflexivity|]. split; [reflexivity|]. split; [exact M1|]. split; [exact W1|]. split; [auto|discriminate].
  - destruct (grown_content m1 (alloc m1 (repeat 0 128)) b1 (grown_alloc _ _) W1) as [C2 W2]. assert (L1 : (bf_arr b1 < mm_next m1)%nat) by (destruct W1; assumption).
    destruct (loop_ok env key evs (alloc m1 (repeat 0 128)) b1 (mm_next m1) W2 F) as (w & m' & b' & X & Y & R); [cbn [alloc mm_next]; lia|rewrite at_alloc; apply repeat_length|lia|]. rewrite C2 in *.
    exists w, m', b'. split; [exact X|]. split; [exact Y|]. eapply (later env _ _ m _ m' b b1 b' _ w); [|left; exact A1|destruct W; assumption| |exact R].
    + apply (moved_trans _ m m1); [exact M1|apply moved_grown, grown_alloc].
    + intros a La [-> | ->]; [exact A1|]. destruct G1. lia.
  - exists None, m1, b1. split; [reflexivity|]. split; [reflexivity|]. split; [exact M1|]. split; [exact W1|]. split; [auto|discriminate].
Qed.

(** ** Histories *)
Record minv (s : mconn) : Prop := {
  mi_buf : bwf (mc_mem s) (mc_buf s);
  mi_got : forall j x v, nth_error (mc_got s) j = Some (x, v) -> swf (mc_mem s) v /\ sl_arr v <> bf_arr (mc_buf s);
  mi_apart : forall j k x y v w, nth_error (mc_got s) j = Some (x, v) -> nth_error (mc_got s) k = Some (y, w) -> j <> k -> sl_arr v <> sl_arr w;
}.
Lemma minv_init : minv minit.
Proof. split; [unfold bwf; cbn; lia|intros [|j] x v E; discriminate E|intros [|j] k x y v w E; discriminate E]. Qed.
Definition fits (o : mop) : Prop := match o with MReceive evs => fit evs | _ => True end.
Lemma snoc_nth {A} (l : list A) z j x : nth_error (l ++ [z]) j = Some x -> nth_error l j = Some x \/ (j = length l /\ x = z).
Proof.
  destruct (Nat.lt_ge_cases j (length l)) as [L|L]; [rewrite nth_error_app1 by exact L; auto|]. rewrite nth_error_app2 by exact L. destruct (j - length l)%nat eqn:E; cbn; [|destruct n; discriminate]. intros X. injection X as <-. right. split; [lia|reflexivity].
Qed.
Lemma replaced_in m v i b : swf m v -> (i < sl_cap v)%nat -> view (blit m (sl_arr v) (sl_off v + i) [b]) v = replaced i b (view m v).
Proof.
  intros (A & B & C) L. unfold view, replaced. rewrite at_blit. set (x := mm_at m (sl_arr v)) in *. cbn [length]. clearbody x.
  assert (Lx : length (firstn (sl_off v + i) x) = (sl_off v + i)%nat) by (rewrite firstn_length; lia).
  rewrite skipn_app, Lx. replace (sl_off v - (sl_off v + i))%nat with 0%nat by lia. cbn [skipn]. rewrite (skipn_firstn_comm (sl_off v)).  replace (sl_off v + i - sl_off v)%nat with i by lia.
  destruct (Nat.le_gt_cases (sl_len v) i) as [S1|S1].
  - rewrite (skipn_all2 (firstn (sl_len v) (skipn (sl_off v) x))) by (rewrite firstn_length; lia). rewrite firstn_app, firstn_firstn, Nat.min_l by lia. rewrite firstn_length, skipn_length. replace (sl_len v - Nat.min i (length x - sl_off v))%nat with 0%nat by lia. cbn [firstn]. apply app_nil_r.
  - rewrite skipn_firstn_comm, skip_skip. assert (Li : (i + sl_off v < length x)%nat) by lia.
    destruct (nth_error x (i + sl_off v)) as [y|] eqn:Y; [|apply nth_error_None in Y; lia]. rewrite (skipn_nth _ _ _ Y). replace (sl_len v - i)%nat with (S (sl_len v - i - 1)) by lia. cbn [firstn].
    rewrite firstn_firstn, Nat.min_l by lia. rewrite firstn_app, firstn_firstn, Nat.min_r by lia. rewrite firstn_length, skipn_length, Nat.min_l by lia. replace (sl_len v - i)%nat with (S (sl_len v - i - 1)) by lia. cbn [app firstn]. do 2 f_equal. replace (sl_off v + i + 1)%nat with (S (i + sl_off v)) by lia. f_equal; lia.
Qed.
Definition stays (j : nat) (o : mop) (d : bytes) : bytes := match o with MWrite k i b => if Nat.eqb k j then replaced i b d else d | MReceive _ => d end.
Lemma replaced_beyond i b d : (length d <= i)%nat -> replaced i b d = d.
Proof. intros L. unfold replaced. rewrite skipn_all2 by exact L. reflexivity. Qed.
Lemma step_ok env key s o : minv s -> fits o -> let s' := fst (mstep env key s o) in
  minv s' /\ (forall j x v, nth_error (mc_got s) j = Some (x, v) -> nth_error (mc_got s') j = Some (x, v) /\ view (mc_mem s') v = stays j o (view (mc_mem s) v)) /\
  match o with
  | MReceive evs => snd (mstep env key s o) = [fst (fst (receive env key (content (mc_mem s) (mc_buf s)) (map fst evs)))] /\
      content (mc_mem s') (mc_buf s') = snd (fst (receive env key (content (mc_mem s) (mc_buf s)) (map fst evs))) /\
      (forall x, snd (mstep env key s o) = [GotMsg x] -> exists v, mc_got s' = mc_got s ++ [(x, v)] /\ read_from env x (view (mc_mem s') v))
  | MWrite _ _ _ => snd (mstep env key s o) = [] /\ content (mc_mem s') (mc_buf s') = content (mc_mem s) (mc_buf s)
  end.
Proof.
  intros [I1 I2 I3] F. destruct o as [evs|j i b]; cbn [mstep fits] in *.
  - destruct (receive_ok env key evs _ _ I1 F) as (v & m' & b' & E & C & M & W & B & H). rewrite E. destruct (receive env key (content (mc_mem s) (mc_buf s)) (map fst evs)) as [[r buf] lft]. cbn [fst snd] in *. subst buf.
    assert (Lb : (bf_arr (mc_buf s) < mm_next (mc_mem s))%nat) by (destruct I1; assumption).
    assert (Old : forall j x w, nth_error (mc_got s) j = Some (x, w) -> swf m' w /\ sl_arr w <> bf_arr b' /\ view m' w = view (mc_mem s) w).
    { intros j x w J. destruct (I2 j x w J) as [Ws Nw]. assert (Lw : (sl_arr w < mm_next (mc_mem s))%nat) by (destruct Ws; assumption). split; [exact (moved_swf _ _ _ _ M Ws)|]. split; [destruct B; [congruence|lia]|]. exact (moved_view _ _ _ w M Lw Nw). }
    assert (K : forall r, (forall x, r <> GotMsg x) -> let s' := Mc m' b' (mc_got s) in minv s' /\ (forall j x w, nth_error (mc_got s) j = Some (x, w) -> nth_error (mc_got s') j = Some (x, w) /\ view (mc_mem s') w = view (mc_mem s) w)).
    { intros r0 _. cbv zeta. split; [split; cbn [mc_mem mc_buf mc_got]; [exact W|intros j x w J; destruct (Old j x w J) as (P & Q & _); auto|exact I3]|]. intros j x w J. cbn [mc_mem mc_got]. split; [exact J|apply (Old j x w J)]. }
    destruct r as [x|e| |]; [destruct (H x eq_refl) as (w & -> & Hw & Nw)|..]; cbv zeta; cbn [fst snd stays mc_mem mc_buf].
    2,3,4: match goal with |- context [ [?r] = [?r] ] => destruct (K r ltac:(discriminate)) as [K1 K2] end; split; [exact K1|]; split; [exact K2|]; split; [reflexivity|]; split; [reflexivity|]; intros x X; discriminate X.
    destruct Hw as (Fw & Ww & Rw). split; [|split; [|split; [reflexivity|split; [reflexivity|]]]].
    + split; cbn [mc_mem mc_buf mc_got].
      * exact W.
      * intros j y w' J. apply snoc_nth in J as [J|[-> J]]; [destruct (Old j y w' J) as (P & Q & _); auto|]. injection J as -> ->. auto.
      * intros j k y z w1 w2 J1 J2 N. apply snoc_nth in J1 as [J1|[-> J1]]; apply snoc_nth in J2 as [J2|[-> J2]].
        -- exact (I3 j k y z w1 w2 J1 J2 N).
        -- injection J2 as -> ->. destruct (I2 j y w1 J1) as [(Lw & _) _]. lia.
        -- injection J1 as -> ->. destruct (I2 k z w2 J2) as [(Lw & _) _]. lia.
        -- congruence.
    + intros j y w' J. cbn [mc_got]. split; [rewrite nth_error_app1 by (apply nth_error_Some; congruence); exact J|apply (Old j y w' J)].
    + intros y Y. injection Y as <-. exists w. auto.
  - destruct (nth_error (mc_got s) j) as [[x0 v0]|] eqn:J0.
    + destruct (I2 j x0 v0 J0) as [Wv Nv]. destruct (Nat.ltb_spec i (sl_cap v0)) as [L|L]; cbv zeta; cbn [fst snd mc_mem mc_buf mc_got].
      * assert (Fi : (sl_off v0 + i + length [b] <= length (mm_at (mc_mem s) (sl_arr v0)))%nat) by (destruct Wv as (P & Q & R); cbn [length]; lia).
        split; [|split; [|split; [reflexivity|]]].
        -- split; cbn [mc_mem mc_buf mc_got]; [unfold bwf; rewrite blit_length by exact Fi; exact I1|intros k y w K; destruct (I2 k y w K); split; [apply swf_blit; assumption|assumption]|exact I3].
        -- intros k y w K. split; [exact K|]. cbn [stays]. destruct (Nat.eqb_spec j k) as [<-|N].
           ++ rewrite J0 in K. injection K as -> ->. apply replaced_in; assumption.
           ++ apply view_blit. intros X. exact (I3 k j y x0 w v0 K J0 (not_eq_sym N) X).
        -- rewrite !content_def. rewrite at_blit_other by congruence. reflexivity.
      * split; [split; assumption|]. split; [|auto]. intros k y w K. split; [exact K|]. cbn [stays]. destruct (Nat.eqb_spec j k) as [<-|N]; [|reflexivity]. rewrite J0 in K. injection K as -> ->. symmetry. apply replaced_beyond. rewrite (view_length _ _ Wv). destruct Wv as (P & Q & R). lia.
    + cbv zeta. cbn [fst snd]. split; [split; assumption|]. split; [|auto]. intros k y w K. split; [exact K|]. cbn [stays]. destruct (Nat.eqb_spec j k) as [<-|N]; [congruence|reflexivity].
Qed.
Lemma fits_of ops : reads_fit ops -> Forall fits ops.
Proof. intros F. apply Forall_forall. intros [evs|j i b] I; [|exact Logic.I]. intros d g J. exact (F evs d g I J). Qed.
Lemma run_ok env key : forall ops s, minv s -> Forall fits ops -> minv (fst (mrun env key s ops)) /\ snd (mrun env key s ops) = vrun env key (content (mc_mem s) (mc_buf s)) ops /\
  (forall j x v, nth_error (mc_got s) j = Some (x, v) -> nth_error (mc_got (fst (mrun env key s ops))) j = Some (x, v) /\ view (mc_mem (fst (mrun env key s ops))) v = overwritten j ops (view (mc_mem s) v)).
Proof.
  induction ops as [|o ops IH]; intros s V F; cbn [mrun vrun overwritten]; [auto|]. inversion F as [|? ? Fo Fr]; subst. destruct (step_ok env key s o V Fo) as (V1 & G1 & R1). destruct (mstep env key s o) as [s1 e1]. cbn [fst snd] in *.
  destruct (IH s1 V1 Fr) as (V2 & R2 & G2). destruct (mrun env key s1 ops) as [s2 e2]. cbn [fst snd] in *. split; [exact V2|]. split.
  - destruct o as [evs|j i b].
    + destruct R1 as (-> & C1 & _). rewrite R2, C1. destruct (receive env key (content (mc_mem s) (mc_buf s)) (map fst evs)) as [[r buf] lft]. reflexivity.
    + destruct R1 as (-> & C1). rewrite R2, C1. reflexivity.
  - intros j x v J. destruct (G1 j x v J) as [J1 E1]. destruct (G2 j x v J1) as [J2 E2]. split; [exact J2|]. rewrite E2, E1. destruct o as [evs|k i b]; cbn [stays]; [reflexivity|]. destruct (Nat.eqb k j); reflexivity.
Qed.
Lemma mrun_app env key a : forall b s, mrun env key s (a ++ b) = let '(s1, e1) := mrun env key s a in let '(s2, e2) := mrun env key s1 b in (s2, e1 ++ e2).
Proof.
  induction a as [|o a IH]; intros b s; cbn [app mrun]; [destruct (mrun env key s b); reflexivity|]. destruct (mstep env key s o) as [s1 e1]. rewrite IH. destruct (mrun env key s1 a) as [s2 e2]. destruct (mrun env key s2 b) as [s3 e3]. rewrite app_assoc. reflexivity.
Qed.

Lemma by_value env key ops : reads_fit ops -> snd (mrun env key minit ops) = vrun env key [] ops.
Proof. intros F. destruct (run_ok env key ops minit minv_init (fits_of ops F)) as (_ & E & _). exact E. Qed.
Lemma undisturbed_bytes env key ops1 ops2 s1 e1 s2 e2 j x v : reads_fit (ops1 ++ ops2) -> mrun env key minit ops1 = (s1, e1) -> mrun env key s1 ops2 = (s2, e2) -> nth_error (mc_got s1) j = Some (x, v) ->
  nth_error (mc_got s2) j = Some (x, v) /\ view (mc_mem s2) v = overwritten j ops2 (view (mc_mem s1) v).
Proof.
  intros F E1 E2 J. pose proof (fits_of _ F) as F'. apply Forall_app in F' as [Fa Fb]. destruct (run_ok env key ops1 minit minv_init Fa) as (V1 & _). rewrite E1 in V1. cbn [fst] in V1.
  destruct (run_ok env key ops2 s1 V1 Fb) as (_ & _ & G). rewrite E2 in G. exact (G j x v J).
Qed.
Lemma handed_over env key ops evs s1 e1 s2 x : reads_fit (ops ++ [MReceive evs]) -> mrun env key minit ops = (s1, e1) -> mstep env key s1 (MReceive evs) = (s2, [GotMsg x]) ->
  exists v, mc_got s2 = mc_got s1 ++ [(x, v)] /\ forall e, m_body x = BEnt e -> exists n, decode env (h_id (m_hdr x)) (view (mc_mem s2) v) = Ok (e, n).
Proof.
  intros F E1 E2. pose proof (fits_of _ F) as F'. apply Forall_app in F' as [Fa Fb]. inversion Fb as [|? ? Fo _]; subst. destruct (run_ok env key ops minit minv_init Fa) as (V1 & _). rewrite E1 in V1. cbn [fst] in V1.
  destruct (step_ok env key s1 (MReceive evs) V1 Fo) as (_ & _ & _ & _ & H). rewrite E2 in H. exact (H x eq_refl).
Qed.
