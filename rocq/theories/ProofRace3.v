(** When simultaneous encodings agree, and when they can differ. *)
From Verif Require Import Base Bits Bcd Decimal Env EntTerm EntPlat Registry LibBase Race SpecRace ProofRace ProofRace2.

(** ** 0x0705: all stores store the same value *)
Section Can.
  Variable x : t0705.
  Let a := a0705_time x.
  Definition can_thread (m : list Z) (t : encoder) : Prop :=
    (exists r, t = Encoder [AClamp 0; ARead 0] r [] /\ (r = None \/ 24 * ns_hour < a)) \/
    (m = [clamp_0705 a] /\ (t = Encoder [ARead 0] None [] \/ t = Encoder [] None [clamp_0705 a])).
  Definition can_inv (s : race) : Prop :=
    (rc_mem s = [a] \/ rc_mem s = [clamp_0705 a]) /\ Forall (can_thread (rc_mem s)) (rc_enc s).
  Lemma can_mono m t : can_thread m t -> can_thread [clamp_0705 a] t.
  Proof. intros [H|[_ H]]; [left; auto|right; auto]. Qed.
  Lemma can_step s i : can_inv s -> can_inv (rstep s i).
  Proof.
    intros [M F]. unfold rstep. destruct (nth_error (rc_enc s) i) as [t|] eqn:E; [|split; auto].
    pose proof (Forall_nth _ _ _ _ F E) as T.
    destruct T as [(r & -> & R)|(EM & [-> | ->])].
    - cbn [turn en_code en_reg en_vals]. destruct r as [v|].
      + assert (B : 24 * ns_hour < a) by (destruct R; [discriminate|auto]).
        assert (EC : set_cell (rc_mem s) 0 (24 * ns_hour) = [clamp_0705 a]).
        { unfold clamp_0705. destruct (Z.ltb_spec (24 * ns_hour) a); [|lia]. destruct M as [-> | ->]; reflexivity. }
        rewrite EC. split; [right; reflexivity|]. cbn [rc_mem rc_enc]. apply Forall_set.
        * eapply Forall_impl; [|exact F]. apply can_mono.
        * right. split; auto.
      + destruct (Z.ltb_spec (24 * ns_hour) (cell (rc_mem s) 0)) as [H|H].
        * split; [exact M|]. cbn [rc_mem rc_enc]. apply Forall_set; auto. left. eexists. split; [reflexivity|]. right.
          destruct M as [E1|E1]; rewrite E1 in H; cbn [cell nth] in H; [exact H|].
          unfold clamp_0705 in H. destruct (Z.ltb_spec (24 * ns_hour) a); lia.
        * assert (EM : rc_mem s = [clamp_0705 a]).
          { destruct M as [E1|E1]; auto. rewrite E1 in *. cbn [cell nth] in H. f_equal. unfold clamp_0705.
            destruct (Z.ltb_spec (24 * ns_hour) a); [lia|reflexivity]. }
          split; [exact M|]. cbn [rc_mem rc_enc]. apply Forall_set; auto. right. auto.
    - cbn [turn en_code en_reg en_vals]. split; [exact M|]. cbn [rc_mem rc_enc]. apply Forall_set; auto.
      right. split; [exact EM|]. right. rewrite EM. reflexivity.
    - cbn [turn en_code]. split; auto.
  Qed.
  Lemma can_run s sch : can_inv s -> can_inv (rrun s sch).
  Proof. unfold rrun. revert s. induction sch; cbn; auto using can_step. Qed.
  Lemma can_start n : can_inv (rstart (E0705 x) n).
  Proof.
    split; [left; reflexivity|]. apply Forall_forall. intros t I. apply repeat_spec in I. subst t.
    left. exists None. split; [reflexivity|auto].
  Qed.
  Lemma can_returned s i rg vs : can_inv s -> nth_error (rc_enc s) i = Some (Encoder [] rg vs) ->
    vs = [clamp_0705 a] /\ rc_mem s = [clamp_0705 a].
  Proof.
    intros [M F] E. destruct (Forall_nth _ _ _ _ F E) as [(r & H & _)|(EM & [H|H])]; try discriminate.
    injection H as -> ->. auto.
  Qed.
End Can.

(** ** What every encoder shows *)
Lemma start_ok e n : marks_only e -> r_ok (code e) (cells e) (rstart e n).
Proof. intros M. apply r_ok_start. Qed.
Lemma run_ok e n sch : marks_only e -> r_ok (code e) (cells e) (rrun (rstart e n) sch).
Proof.
  intros M. apply r_ok_run; [apply code_ok; auto|apply late_last, code_late|apply start_ok; auto].
Qed.
Lemma returned_inv env e s i r : returned env e s i = Some r ->
  exists rg vs, nth_error (rc_enc s) i = Some (Encoder [] rg vs) /\ r = output env e vs.
Proof.
  unfold returned. destruct (nth_error (rc_enc s) i) as [[[|a k] rg vs]|]; try discriminate.
  intros H. injection H as <-. eauto.
Qed.
Lemma word_needs e c : marks_only e -> word (code e) (cells e) c = nth c (needs e) (0, []).
Proof. intros M. rewrite code_needs; auto. Qed.

Lemma shown e n sch i rg vs : marks_only e ->
  nth_error (rc_enc (rrun (rstart e n) sch)) i = Some (Encoder [] rg vs) ->
  Forall2 (fun v c => shows (nth c (needs e) (0, [])) v) vs (loads e).
Proof.
  intros M E. rewrite <- (code_reads e M).
  eapply F2_impl; [|eapply returned_shows; [apply run_ok; exact M|exact E]].
  intros v c H. cbv beta in H. rewrite <- word_needs by auto. exact H.
Qed.

Lemma needs_marks e : needs e <> [] -> marks_only e.
Proof. destruct e; cbn; auto. Qed.

Lemma race_shows env e n sch i r : needs e <> [] -> returned env e (rrun (rstart e n) sch) i = Some r ->
  exists vs, r = output env e vs /\ Forall2 (fun v c => shows (nth c (needs e) (0, [])) v) vs (loads e).
Proof.
  intros N H. apply returned_inv in H as (rg & vs & E & ->). exists vs. split; [reflexivity|].
  eapply shown; [apply needs_marks; auto|exact E].
Qed.

(** ** Settled bodies *)
Lemma settled_nth e c : settled e -> settled_word (nth c (needs e) (0, [])).
Proof.
  intros H. destruct (nth_in_or_default c (needs e) (0, [])) as [I|E].
  - unfold settled in H. rewrite Forall_forall in H. auto.
  - rewrite E. intros b [].
Qed.
Lemma settled_final e c v : marks_only e -> settled e -> shows (nth c (needs e) (0, [])) v -> v = final e c.
Proof.
  intros M S (A & B & C). pose proof (settled_nth e c S) as W. pose proof (final_bits e c M) as F.
  rewrite code_needs in * by auto. cbn [fst snd] in *. apply same_bits. intros i. etransitivity; [|symmetry; apply F].
  split; [apply C|]. intros [H|H]; [auto|]. destruct (W i H) as [X|X]; [apply B; exact X|apply A; exact X].
Qed.
Lemma settled_vals e vs l : marks_only e -> settled e ->
  Forall2 (fun v c => shows (nth c (needs e) (0, [])) v) vs l -> vs = map (final e) l.
Proof. intros M S F. induction F; cbn; [reflexivity|]. f_equal; auto. apply settled_final; auto. Qed.

Lemma race_settled env e n sch i r : settled e -> returned env e (rrun (rstart e n) sch) i = Some r -> r = encode env e.
Proof.
  intros S H. apply returned_inv in H as (rg & vs & E & ->).
  assert (D : marks_only e \/ exists x, e = E0705 x) by (destruct e; cbn; eauto).
  destruct D as [M|[x ->]].
  - pose proof (shown e n sch i rg vs M E) as F. apply settled_vals in F; auto. subst vs. apply output_final; auto.
  - destruct (can_returned x _ i rg vs (can_run x _ sch (can_start x n)) E) as [-> _]. reflexivity.
Qed.

Lemma race_settled_body e n sch i rg vs : ~ reads_dry e -> settled e ->
  nth_error (rc_enc (rrun (rstart e n) sch)) i = Some (Encoder [] rg vs) ->
  stored e (rc_mem (rrun (rstart e n) sch)) = encoded e.
Proof.
  intros RD S E. rewrite (encoded_stored e RD). f_equal.
  assert (D : marks_only e \/ exists x, e = E0705 x) by (destruct e; cbn; eauto).
  destruct D as [M|[x ->]].
  - pose proof (run_ok e n sch M) as R. apply list_cells.
    + destruct R as [L _]. rewrite L, cells_encoded_len. reflexivity.
    + intros c. apply settled_final; auto. rewrite <- word_needs by auto. eapply returned_mem; [exact R|exact E].
  - destruct (can_returned x _ i rg vs (can_run x _ sch (can_start x n)) E) as [_ ->]. reflexivity.
Qed.

(** ** Afterwards *)
Lemma loose_recover e m : marks_only e -> length m = length (cells e) ->
  (forall c, loose (code e) (cells e) c (cell m c)) ->
  cells (encoded (stored e m)) = cells (encoded e).
Proof.
  intros M L H. apply list_cells.
  - rewrite !cells_encoded_len, cells_stored; auto.
  - intros c. change (final (stored e m) c = final e c). apply same_bits. intros i.
    pose proof (final_bits e c M i) as F1. pose proof (final_bits (stored e m) c (stored_marks_only e m M) i) as F2.
    rewrite cells_stored, code_stored in F2 by auto. rewrite F1, F2. destruct (H c) as [A B].
    split; [intros [X|X]; [apply B; auto|auto]|intros [X|X]; [left; auto|auto]].
Qed.

Lemma clamp_idem a : clamp_0705 (clamp_0705 a) = clamp_0705 a.
Proof. unfold clamp_0705. destruct (Z.ltb_spec (24 * ns_hour) a); [|destruct (Z.ltb_spec (24 * ns_hour) a); lia].
  destruct (Z.ltb_spec (24 * ns_hour) (24 * ns_hour)); lia. Qed.

Lemma race_recover env e n sch : ~ reads_dry e ->
  let b := stored e (rc_mem (rrun (rstart e n) sch)) in
  encode env b = encode env e /\ encoded b = encoded e.
Proof.
  intros RD b. assert (D : marks_only e \/ exists x, e = E0705 x) by (destruct e; cbn; eauto).
  destruct D as [M|[x ->]].
  - pose proof (run_ok e n sch M) as (L & LO & _). set (m := rc_mem (rrun (rstart e n) sch)) in *.
    assert (RB : ~ reads_dry b).
    { intros [y H]. subst b. apply RD. destruct e; cbn in H; try discriminate. eexists; reflexivity. }
    pose proof (loose_recover e m M L LO) as C.
    split.
    + rewrite <- (output_final env b) by (apply stored_marks_only; auto). subst b.
      rewrite output_stored, loads_stored, <- (output_final env e) by auto. f_equal.
      apply map_ext. intros c. unfold final. rewrite C. reflexivity.
    + rewrite (encoded_stored b RB), (encoded_stored e RD). subst b. rewrite C, stored_stored; auto.
      apply cells_encoded_len.
  - destruct (can_run x _ sch (can_start x n)) as [[E|E] _]; subst b; rewrite E; cbn [stored cell nth].
    + split; destruct x; reflexivity.
    + cbn [encode encoded]. unfold enc_0705, upd_0705. cbn [a0705_time a0705_items]. rewrite clamp_idem. auto.
Qed.

(** ** Alone *)
Lemma drop_others s sch t : rc_enc s = [t] -> exists n, rrun s sch = rrun s (repeat 0%nat n).
Proof.
  revert s t. induction sch as [|i sch IH]; intros s t E; [exists 0%nat; reflexivity|].
  destruct i as [|i].
  - assert (exists t', rc_enc (rstep s 0) = [t']) as [t' E'].
    { unfold rstep. rewrite E. cbn. destruct (turn (rc_mem s) t) as [[m t']|]; [exists t'; reflexivity|exists t; auto]. }
    destruct (IH _ _ E') as [n H]. exists (S n). exact H.
  - assert (Q : rstep s (S i) = s) by (unfold rstep; rewrite E; destruct i; reflexivity).
    cbn. rewrite Q. apply (IH s t E).
Qed.
Lemma ended_stays s n rg vs : rc_enc s = [Encoder [] rg vs] -> rrun s (repeat 0%nat n) = s.
Proof.
  intros E. induction n; [reflexivity|]. cbn.
  assert (Q : rstep s 0 = s) by (unfold rstep; rewrite E; reflexivity). rewrite Q. exact IHn.
Qed.
Lemma race_alone e : exists k m vs, rrun (rstart e 1) (repeat 0%nat k) = Race m [Encoder [] None vs] /\
  (forall env, output env e vs = encode env e) /\ (~ reads_dry e -> stored e m = encoded e).
Proof.
  assert (D : marks_only e \/ exists x, e = E0705 x) by (destruct e; cbn; eauto).
  destruct D as [M|[x ->]].
  - destruct (drive (code e) (rstart e 1) 0 [] []) as (k & m & us & R & L & LU & B & V).
    + cbn. apply code_ok; auto.
    + cbn. rewrite app_nil_r. reflexivity.
    + cbn in R, L. exists k, m, us. split; [exact R|].
      assert (FN : forall c v, (forall b, Z.testbit v b = true <-> Z.testbit (cell (cells e) c) b = true \/ In b (bits c (code e))) ->
                   v = final e c).
      { intros c v H. apply same_bits. intros i. rewrite H. symmetry. apply final_bits; auto. }
      split.
      * intros env. rewrite <- output_final by auto. f_equal. rewrite <- code_reads by auto.
        specialize (V (code_late e)). clear -V FN. induction V; cbn; [reflexivity|]. f_equal; auto.
      * intros RD. rewrite (encoded_stored e RD). f_equal. apply list_cells.
        { rewrite L, cells_encoded_len. reflexivity. }
        intros c. apply FN. intros b. apply (B c b).
  - destruct (Z.ltb_spec (24 * ns_hour) (a0705_time x)) as [H|H].
    + assert (C : 24 * ns_hour = clamp_0705 (a0705_time x)).
      { unfold clamp_0705. destruct (Z.ltb_spec (24 * ns_hour) (a0705_time x)); [reflexivity|lia]. }
      exists 3%nat, [clamp_0705 (a0705_time x)], [clamp_0705 (a0705_time x)].
      split; [|split; reflexivity].
      unfold rrun, rstart. cbn [repeat fold_left code cells].
      unfold rstep at 3. cbn [rc_enc nth_error turn en_code en_reg rc_mem cell nth].
      destruct (Z.ltb_spec (24 * ns_hour) (a0705_time x)); [|lia].
      unfold rstep at 2. cbn [rc_enc nth_error turn en_code en_reg rc_mem set_cell en_vals].
      unfold rstep. cbn [rc_enc nth_error turn en_code en_reg rc_mem set_cell en_vals cell nth app].
      rewrite C. reflexivity.
    + assert (C : a0705_time x = clamp_0705 (a0705_time x)).
      { unfold clamp_0705. destruct (Z.ltb_spec (24 * ns_hour) (a0705_time x)); [lia|reflexivity]. }
      exists 2%nat, [a0705_time x], [a0705_time x].
      split; [|split; [intros env; cbn [output cell nth encode]; unfold enc_0705; rewrite <- C; reflexivity|]].
      * unfold rrun, rstart. cbn [repeat fold_left code cells].
        unfold rstep at 2. cbn [rc_enc nth_error turn en_code en_reg rc_mem cell nth].
        destruct (Z.ltb_spec (24 * ns_hour) (a0705_time x)); [lia|].
        unfold rstep. reflexivity.
      * intros _. cbn [stored cell nth encoded]. unfold upd_0705. rewrite <- C. reflexivity.
Qed.
Lemma race_alone_any env e sch r : ~ reads_dry e -> returned env e (rrun (rstart e 1) sch) 0 = Some r ->
  r = encode env e /\ stored e (rc_mem (rrun (rstart e 1) sch)) = encoded e.
Proof.
  intros RD H. destruct (drop_others (rstart e 1) sch _ eq_refl) as [n Q]. rewrite Q in *.
  destruct (race_alone e) as (k & m & vs & R & O & S). specialize (S RD).
  apply returned_inv in H as (rg & us & E & ->).
  assert (E1 : rc_enc (rrun (rstart e 1) (repeat 0%nat n)) = [Encoder [] rg us]).
  { assert (LL : forall s sc, length (rc_enc (rrun s sc)) = length (rc_enc s)).
    { intros s sc. revert s. induction sc as [|j sc IH]; intros s; [reflexivity|]. cbn. unfold rrun in IH. rewrite IH.
      unfold rstep. destruct (nth_error (rc_enc s) j); [|reflexivity]. destruct (turn (rc_mem s) e0) as [[? ?]|]; [|reflexivity].
      cbn. apply set_cell_len. }
    specialize (LL (rstart e 1) (repeat 0%nat n)). cbn in LL.
    destruct (rc_enc (rrun (rstart e 1) (repeat 0%nat n))) as [|t [|t' l]]; cbn in *; try lia. congruence. }
  assert (SAME : rrun (rstart e 1) (repeat 0%nat n) = Race m [Encoder [] None vs]).
  { destruct (Nat.le_ge_cases n k) as [Lk|Lk].
    - replace k with (n + (k - n))%nat in R by lia. rewrite repeat_app, rrun_app in R.
      rewrite (ended_stays _ _ _ _ E1) in R. exact R.
    - replace n with (k + (n - k))%nat by lia. rewrite repeat_app, rrun_app, R.
      apply (ended_stays _ _ None vs). reflexivity. }
  rewrite SAME in E1 |- *. cbn in E1. injection E1 as <- <-. cbn [rc_mem]. auto.
Qed.
