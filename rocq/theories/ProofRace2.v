(** The accesses of the encoders: which words, which bits, which loads. *)
From Verif Require Import Base Bits Bcd Decimal Env EntTerm EntPlat Registry LibBase Race SpecRace ProofRace.

(** All bodies but 0x0705 *)
Definition marks_only (e : entity) : Prop := match e with E0705 _ => False | _ => True end.

(** ** Marks of one word *)
Lemma bits_mark_if c c' w off b : bits c (mark_if c' w off b) = if Nat.eqb c' c then (if b then [off] else []) else [].
Proof. destruct b; cbn; [rewrite app_nil_r|]; destruct (Nat.eqb c' c); reflexivity. Qed.
Lemma reads_mark_if c w off b : reads (mark_if c w off b) = [].
Proof. destruct b; reflexivity. Qed.
Lemma ok_mark_if n c w off b : (c < n)%nat -> 0 <= off < w -> Forall (act_ok n) (mark_if c w off b).
Proof. intros. destruct b; cbn; [constructor; [cbn; auto|constructor]|constructor]. Qed.
Lemma late_mark_if c w off b : late (mark_if c w off b).
Proof. destruct b; cbn; auto. Qed.
Lemma late_no_reads p : reads p = [] -> late p.
Proof. induction p as [|a p IH]; cbn; auto. destruct a; cbn; auto. discriminate. Qed.

Ltac bm := repeat first [rewrite bits_app | rewrite bits_mark_if | rewrite reads_app | rewrite reads_mark_if].

Lemma bits_circle c c' x : bits c (code_circle c' x) =
  if Nat.eqb c' c then signs 6 7 (under (ci_lat x)) (under (ci_lng x)) else [].
Proof.
  unfold code_circle, signs, under. bm. cbn. rewrite app_nil_r. destruct (Nat.eqb c' c); reflexivity.
Qed.
Lemma bits_rect c c' x : bits c (code_rect c' x) =
  if Nat.eqb c' c then signs 6 7 (under (re_llat x)) (under (re_llng x)) ++
                       signs 6 7 (under (re_rlat x)) (under (re_rlng x)) else [].
Proof.
  unfold code_rect, signs, under. bm. cbn. rewrite app_nil_r.
  destruct (Nat.eqb c' c); [rewrite !app_assoc|]; reflexivity.
Qed.
Lemma reads_circle c x : reads (code_circle c x) = [c; c].
Proof. unfold code_circle. bm. reflexivity. Qed.
Lemma reads_rect c x : reads (code_rect c x) = [c; c].
Proof. unfold code_rect. bm. reflexivity. Qed.
Lemma ok_circle n c x : (c < n)%nat -> Forall (act_ok n) (code_circle c x).
Proof. intros. unfold code_circle. rewrite !Forall_app. repeat split; try (apply ok_mark_if; lia). repeat constructor; cbn; auto. Qed.
Lemma ok_rect n c x : (c < n)%nat -> Forall (act_ok n) (code_rect c x).
Proof. intros. unfold code_rect. rewrite !Forall_app. repeat split; try (apply ok_mark_if; lia). repeat constructor; cbn; auto. Qed.
Lemma late_circle c x : late (code_circle c x).
Proof. unfold code_circle. rewrite app_assoc. apply late_app; [apply late_no_reads; bm; reflexivity|cbn; auto|bm; contradiction]. Qed.
Lemma late_rect c x : late (code_rect c x).
Proof.
  unfold code_rect. rewrite !app_assoc. apply late_app; [apply late_no_reads; bm; reflexivity|cbn; auto|bm; contradiction].
Qed.

(** ** Lists of items *)
Section Items.
  Context {A : Type} (f : nat -> A -> list act) (g : A -> list Z).
  Hypothesis FB : forall c c' x, bits c (f c' x) = if Nat.eqb c' c then g x else [].
  Hypothesis FR : forall c x, reads (f c x) = [c; c].
  Hypothesis FO : forall n c x, (c < n)%nat -> Forall (act_ok n) (f c x).
  Hypothesis FL : forall c x, late (f c x).

  Lemma items_bits l : forall k c, bits c (code_items f k l) =
    if Nat.leb k c then match nth_error l (c - k) with Some x => g x | None => [] end else [].
  Proof using FB. clear FR FO FL.
    induction l as [|x l IH]; intros k c; cbn [code_items].
    - destruct (Nat.leb k c); [|reflexivity]. destruct (c - k)%nat; reflexivity.
    - rewrite bits_app, FB, IH. destruct (Nat.eqb_spec k c) as [->|N].
      + rewrite Nat.leb_refl, Nat.sub_diag. destruct (Nat.leb_spec (S c) c); [lia|]. cbn. apply app_nil_r.
      + destruct (Nat.leb_spec (S k) c), (Nat.leb_spec k c); try lia; [|reflexivity].
        cbn [app]. replace (c - k)%nat with (S (c - S k)) by lia. reflexivity.
  Qed.
  Lemma items_reads l : forall k, reads (code_items f k l) = flat_map (fun c => [c; c]) (seq k (length l)).
  Proof using FR. clear g FB FO FL. induction l as [|x l IH]; intros k; cbn [code_items length seq flat_map]; [reflexivity|]. rewrite reads_app, FR, IH. reflexivity. Qed.
  Lemma items_ok n l : forall k, (k + length l <= n)%nat -> Forall (act_ok n) (code_items f k l).
  Proof using FO. clear g FB FR FL.
    induction l as [|x l IH]; intros k L; cbn [code_items]; [constructor|]. cbn in L. apply Forall_app.
    split; [apply FO; lia|apply IH; lia].
  Qed.
  Lemma items_late l : forall k, late (code_items f k l).
  Proof using FB FR FL. clear FO.
    induction l as [|x l IH]; intros k; cbn [code_items]; [exact Logic.I|].
    apply late_app; auto. intros c I. rewrite FR in I. assert (c = k) by (cbn in I; intuition congruence). subst c.
    rewrite items_bits. destruct (Nat.leb_spec (S k) k); [lia|reflexivity].
  Qed.
End Items.

(** ** The four facts for every body *)
Lemma code_ok e : marks_only e -> Forall (act_ok (length (cells e))) (code e).
Proof.
  destruct e; intros M; try (destruct M); cbn [cells code]; try constructor.
  1-3: unfold code_0200; rewrite !Forall_app; repeat split; try (apply ok_mark_if; cbn; lia);
       repeat constructor; cbn; auto.
  - rewrite map_length. apply items_ok; [apply ok_circle|lia].
  - rewrite map_length. apply items_ok; [apply ok_rect|lia].
  - apply Forall_app. split; [|repeat constructor; cbn; auto].
    apply Forall_concat. apply Forall_forall. intros p I. apply in_map_iff in I as (v & <- & _).
    unfold code_vertex. rewrite Forall_app. split; apply ok_mark_if; cbn; lia.
Qed.
Lemma vertex_reads l : reads (concat (map code_vertex l)) = [].
Proof. induction l as [|v l IH]; cbn; [reflexivity|]. rewrite reads_app, IH. unfold code_vertex. bm. reflexivity. Qed.
Lemma vertex_bits l : bits 0 (concat (map code_vertex l)) =
  flat_map (fun v => signs 6 7 (dlt (dmul (vx_lat v) dec_million) dec_zero)
                               (dlt (dmul (vx_lng v) dec_million) dec_zero)) l.
Proof.
  induction l as [|v l IH]; cbn [map concat flat_map]; [reflexivity|]. rewrite bits_app, IH. f_equal.
  unfold code_vertex. bm. reflexivity.
Qed.
Lemma vertex_bits' l c : c <> 0%nat -> bits c (concat (map code_vertex l)) = [].
Proof.
  intros N. induction l as [|v l IH]; cbn [map concat]; [reflexivity|]. rewrite bits_app, IH.
  unfold code_vertex. bm. destruct (Nat.eqb_spec 0 c); [congruence|reflexivity].
Qed.
Lemma code_late e : late (code e).
Proof.
  destruct e; cbn [code]; try exact Logic.I; try (cbn; auto; fail).
  1-3: unfold code_0200; rewrite app_assoc; apply late_app; [apply late_no_reads; bm; reflexivity|cbn; auto|bm; contradiction].
  - eapply items_late; [exact bits_circle|apply reads_circle|apply late_circle].
  - eapply items_late; [exact bits_rect|apply reads_rect|apply late_rect].
  - apply late_app; [apply late_no_reads, vertex_reads|cbn; auto|rewrite vertex_reads; contradiction].
Qed.
Lemma code_reads e : marks_only e -> reads (code e) = loads e.
Proof.
  destruct e; intros M; try (destruct M); cbn [code loads]; try reflexivity.
  1-3: unfold code_0200; bm; reflexivity.
  - apply items_reads, reads_circle.
  - apply items_reads, reads_rect.
  - rewrite reads_app, vertex_reads. reflexivity.
Qed.
Lemma signs_code x : bits 0 (code_0200 x) = signs 2 3 (under (p_lat x)) (under (p_lng x)).
Proof. unfold code_0200, signs, under. bm. cbn. rewrite app_nil_r. reflexivity. Qed.
Lemma signs_code' x c : c <> 0%nat -> bits c (code_0200 x) = [].
Proof. intros. unfold code_0200. bm. destruct (Nat.eqb_spec 0 c); [congruence|reflexivity]. Qed.
Lemma nth_map_d {A B} (f : A -> B) l c d : nth c (map f l) d = match nth_error l c with Some x => f x | None => d end.
Proof. revert c; induction l; destruct c; cbn; auto. Qed.
Lemma code_needs e c : marks_only e -> nth c (needs e) (0, []) = (cell (cells e) c, bits c (code e)).
Proof.
  assert (N : forall k (w : Z * list Z), nth (S k) [w] (0, []) = (0, [])) by (destruct k; reflexivity).
  assert (Z0 : forall k (w : Z), cell [w] (S k) = 0) by (destruct k; reflexivity).
  destruct e; intros M; try (destruct M); cbn [needs cells code]; try (destruct c; reflexivity).
  1-3: destruct c; [rewrite signs_code; reflexivity|rewrite N, Z0, signs_code' by discriminate; reflexivity].
  - rewrite (items_bits _ _ bits_circle). cbn [Nat.leb]. rewrite Nat.sub_0_r. unfold cell. rewrite !nth_map_d.
    destruct (nth_error (a8600_items e) c); reflexivity.
  - rewrite (items_bits _ _ bits_rect). cbn [Nat.leb]. rewrite Nat.sub_0_r. unfold cell. rewrite !nth_map_d.
    destruct (nth_error (a8602_items e) c); reflexivity.
  - rewrite bits_app. cbn [bits flat_map bits1 app]. rewrite app_nil_r.
    destruct c; [rewrite vertex_bits; reflexivity|rewrite N, Z0, vertex_bits' by discriminate; reflexivity].
Qed.
Lemma needs_len e : marks_only e -> length (needs e) = length (cells e).
Proof. destruct e; intros M; try (destruct M); cbn [needs cells]; try reflexivity; rewrite !map_length; reflexivity. Qed.

(** ** What Encode leaves *)
Definition final (e : entity) (c : nat) : Z := cell (cells (encoded e)) c.
Definition has (a : Z) (bs : list Z) (v : Z) : Prop := forall i, Z.testbit v i = true <-> Z.testbit a i = true \/ In i bs.
Lemma has_nil a : has a [] a.
Proof. intros i. cbn. tauto. Qed.
Lemma has_mark a bs v w off (n : bool) : 0 <= off < w -> has a bs v ->
  has a (bs ++ if n then [off] else []) (if n then setb w v off true else v).
Proof.
  intros R H i. destruct n; [|rewrite app_nil_r; apply H].
  rewrite setb_bit by auto. specialize (H i). rewrite orb_true_iff, Z.eqb_eq, in_app_iff. cbn. intuition congruence.
Qed.
Lemma has_signs16 a bs v b1 b2 : has a bs v -> has a (bs ++ signs 6 7 b1 b2) (mark16 (mark16 v 6 b1) 7 b2).
Proof.
  intros H. unfold signs. rewrite app_assoc. unfold mark16.
  apply (has_mark a _ _ 16 7); [lia|]. apply (has_mark a _ _ 16 6); [lia|auto].
Qed.
Lemma has_signs32 x : has (p_status x) (signs 2 3 (under (p_lat x)) (under (p_lng x))) (loc_status x).
Proof.
  unfold loc_status, signs, under. apply (has_mark _ _ _ 32 3); [lia|].
  apply (has_mark _ [] _ 32 2); [lia|]. apply has_nil.
Qed.
Lemma has_poly l : forall a bs v, has a bs v ->
  has a (bs ++ flat_map (fun v => signs 6 7 (dlt (dmul (vx_lat v) dec_million) dec_zero)
                               (dlt (dmul (vx_lng v) dec_million) dec_zero)) l) (fold_left poly_attr1 l v).
Proof.
  induction l as [|x l IH]; intros a bs v H; cbn [flat_map fold_left]; [rewrite app_nil_r; auto|].
  rewrite app_assoc. apply IH. apply has_signs16. auto.
Qed.
Lemma final_bits e c : marks_only e -> has (cell (cells e) c) (bits c (code e)) (final e c).
Proof.
  intros M. pose proof (code_needs e c M) as E. unfold final.
  assert (G : has (fst (nth c (needs e) (0, []))) (snd (nth c (needs e) (0, []))) (cell (cells (encoded e)) c));
    [|rewrite E in G; exact G]. clear E.
  assert (NN : forall k (w : Z * list Z) z, has (fst (nth (S k) [w] (0, []))) (snd (nth (S k) [w] (0, []))) (cell [z] (S k))).
  { intros. destruct k; apply has_nil. }
  destruct e; try (destruct M); cbn [needs encoded cells upd_0200 upd_0201 upd_8604 p_status a0201_loc a8604_attr];
    try (destruct c; [|apply NN]); try (destruct c; apply has_nil).
  1-3: apply has_signs32.
  - unfold cell, upd_8600. cbn [a8600_items]. rewrite map_map, !nth_map_d.
    destruct (nth_error (a8600_items e) c) as [x|]; [|apply has_nil].
    cbn. unfold circle_attr. apply (has_signs16 _ []). apply has_nil.
  - unfold cell, upd_8602. cbn [a8602_items]. rewrite map_map, !nth_map_d.
    destruct (nth_error (a8602_items e) c) as [x|]; [|apply has_nil].
    cbn [upd_rect re_attr fst snd]. unfold rect_attr. apply (has_signs16 _ (signs 6 7 _ _)).
    apply (has_signs16 _ []). apply has_nil.
  - unfold poly_attr. apply (has_poly _ _ []). apply has_nil.
Qed.

(** ** What the loads make *)
Lemma out_items_eq {A} (f : A -> Z -> Z -> bytes) (g : A -> bytes) (h : A -> Z) l :
  forall m k, (forall x, g x = f x (h x) (h x)) -> (forall c x, nth_error l c = Some x -> m (k + c)%nat = h x) ->
  out_items f l (map m (flat_map (fun c => [c; c]) (seq k (length l)))) = concat (map g l).
Proof.
  induction l as [|x l IH]; intros m k G H; cbn [length seq flat_map map app out_items concat]; [reflexivity|].
  rewrite G. rewrite (H 0%nat x eq_refl) || (pose proof (H 0%nat x eq_refl) as H0; rewrite Nat.add_0_r in H0; rewrite H0).
  f_equal. apply IH; auto. intros c y E. replace (S k + c)%nat with (k + S c)%nat by lia. apply H. exact E.
Qed.
Lemma output_final env e : marks_only e -> output env e (map (final e) (loads e)) = encode env e.
Proof.
  destruct e; intros M; try (destruct M); try reflexivity.
  - cbn [output loads encode]. unfold enc_8600. f_equal. cbn [concat]. do 3 f_equal. apply out_items_eq with (h := circle_attr).
    + intros x. reflexivity.
    + intros c x E. unfold final. cbn [encoded cells upd_8600 a8600_items]. unfold cell.
      rewrite map_map, nth_map_d. cbn [Nat.add]. rewrite E. reflexivity.
  - cbn [output loads encode]. unfold enc_8602. f_equal. cbn [concat]. do 3 f_equal. apply out_items_eq with (h := rect_attr).
    + intros x. reflexivity.
    + intros c x E. unfold final. cbn [encoded cells upd_8602 a8602_items]. unfold cell.
      rewrite map_map, nth_map_d. cbn [Nat.add]. rewrite E. reflexivity.
Qed.

(** ** The body in memory *)
Lemma put_attrs_get {A} (f : A -> Z -> A) (g : A -> Z) l m : (forall x v, g (f x v) = v) -> length m = length l ->
  map g (put_attrs f l m) = m.
Proof.
  intros H. revert m. induction l as [|x l IH]; destruct m as [|v m]; cbn; intros L; try lia; auto.
  rewrite H. f_equal. apply IH. lia.
Qed.
Lemma put_attrs_put {A} (f : A -> Z -> A) l m m' : (forall x v u, f (f x v) u = f x u) -> length m = length l ->
  length m' = length l -> put_attrs f (put_attrs f l m) m' = put_attrs f l m'.
Proof.
  intros H. revert m m'. induction l as [|x l IH]; destruct m as [|v m], m' as [|u m']; cbn; intros L L'; try lia; auto.
  rewrite H. f_equal. apply IH; lia.
Qed.
Lemma put_attrs_len {A} (f : A -> Z -> A) l m : length (put_attrs f l m) = length l.
Proof. revert m; induction l; destruct m; cbn; auto. Qed.
Lemma cells1 m : length m = 1%nat -> [cell m 0] = m.
Proof. destruct m as [|a [|b m]]; cbn; intros; try lia. reflexivity. Qed.
Lemma cells_stored e m : length m = length (cells e) -> cells (stored e m) = m.
Proof.
  destruct e; cbn [cells stored put_status p_status a0201_loc a0705_time a8604_attr a8600_items a8602_items length];
    intros L; try (apply cells1; exact L); try (destruct m; [reflexivity|discriminate]).
  - apply put_attrs_get; [reflexivity|rewrite map_length in L; auto].
  - apply put_attrs_get; [reflexivity|rewrite map_length in L; auto].
Qed.
Lemma stored_stored e m m' : length m = length (cells e) -> length m' = length (cells e) ->
  stored (stored e m) m' = stored e m'.
Proof.
  destruct e; cbn [cells stored a8600_items a8602_items a8600_action a8602_action]; intros L L'; try reflexivity.
  - rewrite map_length in L, L'. do 2 f_equal. apply put_attrs_put; auto.
  - rewrite map_length in L, L'. do 2 f_equal. apply put_attrs_put; auto.
Qed.
Lemma encoded_stored e : ~ reads_dry e -> encoded e = stored e (cells (encoded e)).
Proof.
  intros D. destruct e; try reflexivity; try (destruct D; eexists; reflexivity).
  - clear D. destruct e. cbn. unfold upd_8600. cbn. do 2 f_equal.
    induction a8600_items as [|x l IH]; cbn; [reflexivity|f_equal; auto].
  - clear D. destruct e. cbn. unfold upd_8602. cbn. do 2 f_equal.
    induction a8602_items as [|x l IH]; cbn; [reflexivity|f_equal; auto].
Qed.
Lemma cells_encoded_len e : length (cells (encoded e)) = length (cells e).
Proof. destruct e; cbn [encoded cells upd_8600 upd_8602 a8600_items a8602_items]; rewrite ?map_length; reflexivity. Qed.
Lemma code_items_put {A} (f : nat -> A -> list act) (p : A -> Z -> A) l : (forall c x v, f c (p x v) = f c x) ->
  forall m k, code_items f k (put_attrs p l m) = code_items f k l.
Proof. intros H. induction l as [|x l IH]; destruct m; intros; cbn; auto. rewrite H, IH. reflexivity. Qed.
Lemma code_stored e m : code (stored e m) = code e.
Proof.
  destruct e; try reflexivity; cbn [stored code a8600_items a8602_items]; apply code_items_put; reflexivity.
Qed.
Lemma out_items_put {A} (f : A -> Z -> Z -> bytes) (p : A -> Z -> A) l : (forall x v a b, f (p x v) a b = f x a b) ->
  forall m vs, out_items f (put_attrs p l m) vs = out_items f l vs.
Proof.
  intros H. induction l as [|x l IH]; intros m vs; destruct m; cbn; auto.
  destruct vs as [|a [|b vs]]; auto. rewrite H, IH. reflexivity.
Qed.
Lemma zlen_put_attrs {A} (f : A -> Z -> A) l m : zlen (put_attrs f l m) = zlen l.
Proof. unfold zlen. rewrite put_attrs_len. reflexivity. Qed.
Lemma output_stored env e m vs : output env (stored e m) vs = output env e vs.
Proof.
  destruct e; try reflexivity; cbn [stored output a8600_items a8602_items a8600_action a8602_action].
  - rewrite zlen_put_attrs, out_items_put by reflexivity. reflexivity.
  - rewrite zlen_put_attrs, out_items_put by reflexivity. reflexivity.
Qed.
Lemma loads_stored e m : loads (stored e m) = loads e.
Proof. destruct e; try reflexivity; cbn [stored loads a8600_items a8602_items]; rewrite put_attrs_len; reflexivity. Qed.
Lemma stored_marks_only e m : marks_only e -> marks_only (stored e m).
Proof. destruct e; auto. Qed.
Lemma list_cells l1 l2 : length l1 = length l2 -> (forall c, cell l1 c = cell l2 c) -> l1 = l2.
Proof. intros L H. apply (nth_ext _ _ 0 0); [exact L|intros; apply H]. Qed.
Lemma same_bits a b : (forall i, Z.testbit a i = true <-> Z.testbit b i = true) -> a = b.
Proof.
  intros H. apply Z.bits_inj'. intros n _. destruct (Z.testbit a n) eqn:A, (Z.testbit b n) eqn:B; auto;
    exfalso; destruct (H n) as [X Y]; [specialize (X A)|specialize (Y B)]; congruence.
Qed.
