(** Several encodings of one body at the same moment: the general part, for any list of accesses. *)
From Verif Require Import Base Bits Decimal Env EntTerm EntPlat Registry LibBase Race SpecRace.

(** ** Element assignment *)
Lemma set_cell_len {A} (l : list A) n v : length (set_cell l n v) = length l.
Proof. revert n; induction l; destruct n; cbn; auto. Qed.
Lemma set_cell_eq {A} (l : list A) n v : (n < length l)%nat -> nth_error (set_cell l n v) n = Some v.
Proof. revert n; induction l; destruct n; cbn; intros; try lia; auto. apply IHl. lia. Qed.
Lemma set_cell_ne {A} (l : list A) n k v : n <> k -> nth_error (set_cell l n v) k = nth_error l k.
Proof. revert n k; induction l; destruct n, k; cbn; intros; try congruence; auto. Qed.
Lemma cell_set m c k v : (c < length m)%nat -> cell (set_cell m c v) k = if Nat.eqb c k then v else cell m k.
Proof.
  intros L. unfold cell. destruct (Nat.eqb_spec c k) as [->|N].
  - apply nth_error_nth. apply set_cell_eq; auto.
  - destruct (nth_error m k) eqn:E.
    + rewrite (nth_error_nth m k 0 E). apply nth_error_nth. rewrite set_cell_ne; auto.
    + apply nth_error_None in E. rewrite !nth_overflow; auto. rewrite set_cell_len; auto.
Qed.

(** ** Bits *)
Lemma setb_bit w v off i : 0 <= off < w -> Z.testbit (setb w v off true) i = Z.testbit v i || (i =? off).
Proof.
  intros R. unfold setb, bitmask. rewrite Z.shiftl_1_l, Z.lor_spec. f_equal.
  rewrite Z.mod_small by (split; [apply Z.pow_nonneg; lia|apply Z.pow_lt_mono_r; lia]).
  destruct (Z.eqb_spec i off) as [->|N]; [apply Z.pow2_bits_true; lia|apply Z.pow2_bits_false; auto].
Qed.

(** ** Accesses *)
Definition bits1 (c : nat) (a : act) : list Z :=
  match a with AMark c' _ off => if Nat.eqb c' c then [off] else [] | _ => [] end.
Definition bits (c : nat) (p : list act) : list Z := flat_map (bits1 c) p.
Definition reads (p : list act) : list nat :=
  flat_map (fun a => match a with ARead c => [c] | _ => [] end) p.
Definition act_ok (n : nat) (a : act) : Prop :=
  match a with
  | AMark c w off => (c < n)%nat /\ 0 <= off < w
  | AClamp _ => False
  | ARead c => (c < n)%nat
  end.
Lemma bits_app c a b : bits c (a ++ b) = bits c a ++ bits c b.
Proof. apply flat_map_app. Qed.
Lemma reads_app a b : reads (a ++ b) = reads a ++ reads b.
Proof. apply flat_map_app. Qed.

Lemma F2_impl {A B} (R S : A -> B -> Prop) l k : (forall a b, R a b -> S a b) -> Forall2 R l k -> Forall2 S l k.
Proof. intros H F. induction F; constructor; auto. Qed.

Section Any.
  Variable P : list act.
  Variable m0 : list Z.
  Hypothesis OK : Forall (act_ok (length m0)) P.
  (** a load comes after all marks of its word *)
  Hypothesis LAST : forall d c k, P = d ++ ARead c :: k -> bits c k = [].

  Definition word (c : nat) : Z * list Z := (cell m0 c, bits c P).
  (** the caller's bits are there, and no others than his and those asked for *)
  Definition loose (c : nat) (v : Z) : Prop :=
    (forall i, Z.testbit (cell m0 c) i = true -> Z.testbit v i = true) /\
    (forall i, Z.testbit v i = true -> Z.testbit (cell m0 c) i = true \/ In i (bits c P)).
  Lemma shows_loose c v : shows (word c) v -> loose c v.
  Proof. intros (A & _ & C). split; auto. Qed.

  Definition t_ok (m : list Z) (t : encoder) : Prop := exists d,
    P = d ++ en_code t /\
    (forall v, en_reg t = Some v -> exists c w off k, en_code t = AMark c w off :: k /\
       loose c v /\ (bits c d <> [] -> shows (word c) v)) /\
    (forall c, bits c d <> [] -> shows (word c) (cell m c)) /\
    Forall2 (fun v c => shows (word c) v) (en_vals t) (reads d).

  Definition r_ok (s : race) : Prop :=
    length (rc_mem s) = length m0 /\ (forall c, loose c (cell (rc_mem s) c)) /\
    Forall (t_ok (rc_mem s)) (rc_enc s).

  Lemma shows_none c v : bits c P = [] -> loose c v -> shows (word c) v.
  Proof. intros E [A B]. split; [exact A|split; [|exact B]]. cbn [snd word]. rewrite E. discriminate. Qed.

  Lemma t_ok_mono m m' t : (forall c, shows (word c) (cell m c) -> shows (word c) (cell m' c)) ->
    t_ok m t -> t_ok m' t.
  Proof. intros M (d & A & B & C & D). exists d. split; [exact A|split; [exact B|split; [|exact D]]]. auto. Qed.

  Lemma stored_shows d c w off k v : P = d ++ AMark c w off :: k -> loose c v ->
    (bits c d <> [] -> shows (word c) v) -> shows (word c) (setb w v off true).
  Proof.
    intros EP [LA LB] SH.
    assert (RO : 0 <= off < w).
    { assert (I : In (AMark c w off) P) by (rewrite EP; apply in_or_app; right; left; auto).
      rewrite Forall_forall in OK. apply OK in I. cbn in I. tauto. }
    assert (IN : In off (bits c P)).
    { rewrite EP, bits_app. apply in_or_app. right. cbn. rewrite Nat.eqb_refl. left; auto. }
    split; [|split]; cbn [fst snd word].
    - intros i H. rewrite setb_bit by auto. rewrite (LA i H). reflexivity.
    - intros b H. rewrite setb_bit by auto.
      destruct (bits c d) eqn:ED.
      + rewrite EP, bits_app, ED in H. cbn in H. rewrite Nat.eqb_refl in H. cbn in H.
        injection H as ->. rewrite Z.eqb_refl, orb_true_r. reflexivity.
      + destruct SH as (_ & S2 & _); [discriminate|]. rewrite (S2 b H). reflexivity.
    - intros i H. rewrite setb_bit in H by auto. apply orb_true_iff in H as [H|H].
      + destruct (LB i H); auto.
      + apply Z.eqb_eq in H. subst i. auto.
  Qed.

  Lemma loose_refl c : loose c (cell m0 c).
  Proof. split; auto. Qed.

  Lemma r_ok_start n : r_ok (Race m0 (repeat (Encoder P None []) n)).
  Proof.
    split; [reflexivity|split; [intros; apply loose_refl|]]. cbn.
    apply Forall_forall. intros t I. apply repeat_spec in I. subst t.
    exists []. split; [reflexivity|split; [discriminate|split; [intros c H; cbn in H; congruence|constructor]]].
  Qed.

  Lemma Forall_nth {A} (Q : A -> Prop) l i x : Forall Q l -> nth_error l i = Some x -> Q x.
  Proof. intros F E. rewrite Forall_forall in F. apply F. eapply nth_error_In; eauto. Qed.
  Lemma Forall_set {A} (Q : A -> Prop) l i x : Forall Q l -> Q x -> Forall Q (set_cell l i x).
  Proof.
    intros F H. revert i. induction F; destruct i; cbn; constructor; auto.
  Qed.

  Lemma r_ok_step s i : r_ok s -> r_ok (rstep s i).
  Proof.
    intros (LN & LO & F). unfold rstep. destruct (nth_error (rc_enc s) i) as [t|] eqn:E; [|split; auto].
    pose proof (Forall_nth _ _ _ _ F E) as (d & EP & RG & SH & VL).
    unfold turn. destruct (en_code t) as [|a k] eqn:EC; [split; auto|].
    assert (AO : act_ok (length m0) a).
    { rewrite Forall_forall in OK. apply OK. rewrite EP. apply in_or_app. right; left; auto. }
    destruct a as [c w off|c|c].
    - destruct AO as [CL RO]. destruct (en_reg t) as [v|] eqn:ER.
      + destruct (RG v eq_refl) as (c' & w' & off' & k' & EC' & LV & SV).
        injection EC' as <- <- <- <-.
        pose proof (stored_shows d c w off k v EP LV SV) as NEW.
        assert (MONO : forall c1, shows (word c1) (cell (rc_mem s) c1) ->
                       shows (word c1) (cell (set_cell (rc_mem s) c (setb w v off true)) c1)).
        { intros c1 H. rewrite cell_set by (rewrite LN; auto). destruct (Nat.eqb_spec c c1); subst; auto. }
        split; [cbn; rewrite set_cell_len; auto|split].
        * intros c1. cbn [rc_mem]. rewrite cell_set by (rewrite LN; auto).
          destruct (Nat.eqb_spec c c1); subst; auto. apply shows_loose; auto.
        * cbn [rc_mem rc_enc]. apply Forall_set; [eapply Forall_impl; [|exact F]; intros; eapply t_ok_mono; eauto|].
          exists (d ++ [AMark c w off]). cbn [en_code en_reg en_vals].
          split; [rewrite <- app_assoc; exact EP|split; [discriminate|split]].
          -- intros c1 H. rewrite cell_set by (rewrite LN; auto).
             destruct (Nat.eqb_spec c c1) as [<-|N]; [exact NEW|].
             rewrite bits_app in H. cbn in H. destruct (Nat.eqb_spec c c1); [congruence|].
             cbn in H. rewrite app_nil_r in H. auto.
          -- rewrite reads_app. cbn. rewrite app_nil_r. exact VL.
      + split; [auto|split; [auto|]]. cbn [rc_mem rc_enc]. apply Forall_set; auto.
        exists d. cbn [en_code en_reg en_vals]. split; [exact EP|split; [|split; auto]].
        intros v H. injection H as <-. exists c, w, off, k. split; [auto|split; auto].
    - destruct AO.
    - split; [auto|split; [auto|]]. cbn [rc_mem rc_enc]. apply Forall_set; auto.
      assert (SC : shows (word c) (cell (rc_mem s) c)).
      { pose proof (LAST d c k EP) as LK.
        destruct (bits c d) eqn:ED; [|apply SH; congruence].
        apply shows_none; auto. rewrite EP, bits_app, ED. cbn. exact LK. }
      exists (d ++ [ARead c]). cbn [en_code en_reg en_vals].
      split; [rewrite <- app_assoc; exact EP|split; [discriminate|split]].
      + intros c1 H. apply SH. rewrite bits_app in H. cbn in H. rewrite app_nil_r in H. exact H.
      + rewrite reads_app. apply Forall2_app; auto. cbn. constructor; auto.
  Qed.

  Lemma r_ok_run s sch : r_ok s -> r_ok (rrun s sch).
  Proof. unfold rrun. revert s. induction sch; cbn; auto using r_ok_step. Qed.

  Lemma returned_shows s i vs rg : r_ok s -> nth_error (rc_enc s) i = Some (Encoder [] rg vs) ->
    Forall2 (fun v c => shows (word c) v) vs (reads P).
  Proof.
    intros (_ & _ & F) E. destruct (Forall_nth _ _ _ _ F E) as (d & EP & _ & _ & VL).
    cbn in EP. rewrite app_nil_r in EP. subst d. exact VL.
  Qed.
  Lemma returned_mem s i vs rg : r_ok s -> nth_error (rc_enc s) i = Some (Encoder [] rg vs) ->
    forall c, shows (word c) (cell (rc_mem s) c).
  Proof.
    intros (_ & LO & F) E c. destruct (Forall_nth _ _ _ _ F E) as (d & EP & _ & SH & _).
    cbn in EP. rewrite app_nil_r in EP. subst d.
    destruct (bits c P) eqn:ED; [apply shows_none; auto|apply SH; congruence].
  Qed.

  (** ** One goroutine that gets all the turns *)
  Lemma rrun_app s a b : rrun s (a ++ b) = rrun (rrun s a) b.
  Proof. apply fold_left_app. Qed.

  (** It goes through [d]: the memory has all the bits, and so have the loads when they come last. *)
  Fixpoint late (p : list act) : Prop :=
    match p with
    | [] => True
    | ARead c :: k => bits c k = [] /\ late k
    | _ :: k => late k
    end.
  Lemma drive d : forall s i k vs, Forall (act_ok (length (rc_mem s))) d ->
    nth_error (rc_enc s) i = Some (Encoder (d ++ k) None vs) ->
    exists n m us, rrun s (repeat i n) = Race m (set_cell (rc_enc s) i (Encoder k None (vs ++ us))) /\
      length m = length (rc_mem s) /\ length us = length (reads d) /\
      (forall c b, Z.testbit (cell m c) b = true <-> Z.testbit (cell (rc_mem s) c) b = true \/ In b (bits c d)) /\
      (late d -> Forall2 (fun v c => forall b, Z.testbit v b = true <->
         Z.testbit (cell (rc_mem s) c) b = true \/ In b (bits c d)) us (reads d)).
  Proof.
    induction d as [|a d IH]; intros s i k vs O E.
    - exists 0%nat, (rc_mem s), []. cbn. split; [|split; [auto|split; [auto|split; [intros; tauto|constructor]]]].
      destruct s as [m l]; cbn in *. f_equal. rewrite app_nil_r.
      clear -E. revert i E. induction l; destruct i; cbn; intros; try discriminate; [injection E as ->; auto|].
      f_equal. auto.
    - inversion O as [|? ? OA OD]; subst.
      assert (IL : (i < length (rc_enc s))%nat) by (apply nth_error_Some; congruence).
      assert (SS : forall (l : list encoder) x y, set_cell (set_cell l i x) i y = set_cell l i y).
      { clear. intros l. revert i. induction l; destruct i; cbn; intros; auto. f_equal; auto. }
      destruct a as [c w off|c|c]; [| destruct OA |].
      + destruct OA as [CL RO].
        set (m1 := set_cell (rc_mem s) c (setb w (cell (rc_mem s) c) off true)).
        set (s1 := Race m1 (set_cell (set_cell (rc_enc s) i (Encoder (AMark c w off :: d ++ k) (Some (cell (rc_mem s) c)) vs)) i
                              (Encoder (d ++ k) None vs))).
        assert (ST : rrun s (repeat i 2) = s1).
        { unfold rrun. cbn [repeat fold_left].
          unfold rstep at 2. rewrite E. cbn [turn en_code en_reg app en_vals].
          unfold rstep. cbn [rc_enc rc_mem]. rewrite set_cell_eq by auto.
          cbn [turn en_code en_reg en_vals]. reflexivity. }
        assert (TB : forall c1 b l, Z.testbit (cell m1 c1) b = true \/ In b l <->
                     Z.testbit (cell (rc_mem s) c1) b = true \/ In b (bits1 c1 (AMark c w off) ++ l)).
        { intros c1 b l. subst m1. rewrite cell_set by auto. cbn [bits1]. rewrite in_app_iff.
          destruct (Nat.eqb_spec c c1) as [<-|N].
          - rewrite setb_bit by auto. rewrite orb_true_iff, Z.eqb_eq. cbn. intuition congruence.
          - cbn. tauto. }
        destruct (IH s1 i k vs) as (n & m & us & R & LM & LU & B & V).
        * subst s1 m1. cbn. rewrite set_cell_len. exact OD.
        * subst s1. cbn. rewrite SS. apply set_cell_eq; auto.
        * exists (2 + n)%nat, m, us. split; [|split; [|split; [exact LU|split]]].
          -- rewrite repeat_app, rrun_app, ST, R. subst s1. cbn [rc_enc]. rewrite !SS. reflexivity.
          -- rewrite LM. subst s1 m1. cbn. apply set_cell_len.
          -- intros c1 b. rewrite B. apply TB.
          -- intros LT. specialize (V LT). cbn [reads flat_map app].
             eapply F2_impl; [|exact V]. intros v c1 H b. etransitivity; [apply H|apply TB].
      + set (s1 := Race (rc_mem s) (set_cell (rc_enc s) i (Encoder (d ++ k) None (vs ++ [cell (rc_mem s) c])))).
        assert (ST : rrun s (repeat i 1) = s1).
        { unfold rrun. cbn [repeat fold_left]. unfold rstep. rewrite E. reflexivity. }
        destruct (IH s1 i k (vs ++ [cell (rc_mem s) c])) as (n & m & us & R & LM & LU & B & V).
        * exact OD.
        * subst s1. cbn. apply set_cell_eq; auto.
        * exists (1 + n)%nat, m, (cell (rc_mem s) c :: us).
          split; [|split; [exact LM|split; [cbn; auto|split]]].
          -- rewrite repeat_app, rrun_app, ST, R. subst s1. cbn [rc_enc]. rewrite SS, <- app_assoc. reflexivity.
          -- intros c1 b. rewrite B. cbn. tauto.
          -- intros [L1 L2]. cbn [reads flat_map app]. constructor; [|exact (V L2)].
             intros b. cbn [bits flat_map bits1 app]. unfold bits in L1. rewrite L1. cbn. tauto.
  Qed.
End Any.

Lemma late_last P : late P -> forall d c k, P = d ++ ARead c :: k -> bits c k = [].
Proof.
  induction P as [|a P IH]; intros L d c k E; [destruct d; discriminate|].
  destruct d as [|b d]; cbn in E; injection E as -> E.
  - subst. cbn in L. tauto.
  - eapply IH; [|exact E]. destruct b; cbn in L; tauto.
Qed.
Lemma late_app a b : late a -> late b -> (forall c, In c (reads a) -> bits c b = []) -> late (a ++ b).
Proof.
  induction a as [|x a IH]; cbn [app]; intros LA LB H; [auto|]. destruct x as [c w off|c|c]; cbn [late] in *.
  - apply IH; auto.
  - apply IH; auto.
  - destruct LA as [L1 L2]. split; [|apply IH; auto; intros; apply H; right; auto].
    rewrite bits_app, L1. apply H. left; auto.
Qed.
