(** Names of part files, read in both directions. *)
From Verif Require Import Base LibBase Bcd LibBcd Multipart LibMulti SpecMulti SpecParts.

(** ** Numerals *)
Definition dig (c : Z) : Prop := 48 <= c <= 57.
Notation val := (fold_left (fun a c => a * 10 + (c - 48))).
Lemma numeral_val s n : numeral s n <-> s <> [] /\ Forall dig s /\ n = val s 0.
Proof.
  split.
  - induction 1 as [d D|s n d H (A & B & C) D].
    + split; [discriminate|]. split; [repeat constructor; unfold dig; lia|]. cbn [fold_left]. lia.
    + split; [destruct s; discriminate|]. split; [apply Forall_app; split; auto; repeat constructor; unfold dig; lia|]. rewrite fold_left_app. cbn [fold_left]. lia.
  - revert n. induction s as [|c s IH] using rev_ind; intros n (A & B & ->); [congruence|]. apply Forall_app in B. destruct B as (B & C). apply Forall_inv in C. unfold dig in C.
    rewrite fold_left_app. cbn [fold_left]. replace c with (48 + (c - 48)) at 1 by lia. destruct s as [|x s].
    + cbn [fold_left app]. replace (0 * 10 + (c - 48)) with (c - 48) by lia. constructor. lia.
    + replace (val (x :: s) 0 * 10 + (c - 48)) with (10 * val (x :: s) 0 + (c - 48)) by lia. constructor; [|lia]. apply IH. split; [discriminate|auto].
Qed.
Lemma val_ge s : Forall dig s -> forall a, 0 <= a -> a <= val s a.
Proof. induction 1 as [|c s C H IH]; intros a A; cbn [fold_left]; [lia|]. unfold dig in C. specialize (IH (a * 10 + (c - 48)) ltac:(lia)). lia. Qed.
Lemma val_app p q a : val (p ++ q) a = val q (val p a). Proof. apply fold_left_app. Qed.
Lemma dig_char c : is_digit_char c = true <-> dig c. Proof. unfold is_digit_char, dig. lia. Qed.

(** ** Reading *)
Lemma from_value s : Forall dig s -> forall a, 0 <= a -> val s a < 2 ^ 64 -> atoi_from a s = Z.min (val s a) (2 ^ 63 - 1).
Proof.
  induction 1 as [|c s C H IH]; intros a A V; cbn [fold_left atoi_from] in *; [lia|]. rewrite (proj2 (dig_char c) C). unfold dig in C.
  pose proof (val_ge s H (a * 10 + (c - 48)) ltac:(lia)). destruct (Z.ltb_spec 18446744073709551615 (a * 10 + (c - 48))); [lia|]. apply IH; lia.
Qed.
Lemma from_excess p q : Forall dig p -> forall a, 0 <= a < 2 ^ 64 -> 2 ^ 64 <= val p a -> atoi_from a (p ++ q) = 2 ^ 63 - 1.
Proof.
  induction 1 as [|c s C H IH]; intros a A V; cbn [fold_left atoi_from app] in *; [lia|]. rewrite (proj2 (dig_char c) C). unfold dig in C.
  destruct (Z.ltb_spec 18446744073709551615 (a * 10 + (c - 48))); [lia|]. apply IH; lia.
Qed.
Lemma from_cases s : forall a, 0 <= a < 2 ^ 64 ->
  (Forall dig s /\ val s a < 2 ^ 64) \/ (exists p q, s = p ++ q /\ p <> [] /\ Forall dig p /\ 2 ^ 64 <= val p a) \/
  (~ Forall dig s /\ (forall p q, s = p ++ q -> Forall dig p -> val p a < 2 ^ 64) /\ atoi_from a s = 0).
Proof.
  induction s as [|c s IH]; intros a A; [left; split; [constructor|cbn [fold_left]; lia]|]. cbn [atoi_from fold_left].
  destruct (is_digit_char c) eqn:D.
  - apply dig_char in D. destruct (Z.ltb_spec 18446744073709551615 (a * 10 + (c - 48))) as [L|L].
    + right; left. exists [c], s. split; [reflexivity|]. split; [discriminate|]. split; [constructor; [exact D|constructor]|]. change (2 ^ 64) with 18446744073709551616. cbn [fold_left]. unfold dig in D. lia.
    + unfold dig in D. destruct (IH (a * 10 + (c - 48)) ltac:(lia)) as [(F & V)|[(p & q & -> & N & F & V)|(F & V & E)]].
      * left. split; [constructor; auto|auto].
      * right; left. exists (c :: p), q. split; [reflexivity|]. split; [discriminate|]. split; [constructor; auto|]. exact V.
      * right; right. split; [intros X; inversion X; auto|]. split; [|exact E]. intros [|y p] q X Y; [cbn [fold_left]; lia|]. injection X as <- X. inversion Y; subst. cbn [fold_left]. eapply V; eauto.
  - right; right. assert (N : ~ dig c) by (rewrite <- dig_char; congruence). split; [intros X; inversion X; auto|]. split; [|reflexivity].
    intros [|y p] q X Y; [cbn [fold_left]; lia|]. injection X as <- X. inversion Y; subst. contradiction.
Qed.
(** Reading characters without a sign *)
Definition plainly (s : bytes) : Z := match s with [] => 0 | _ => atoi_from 0 s end.
Lemma plainly_from s : s <> [] -> plainly s = atoi_from 0 s. Proof. destruct s; [congruence|reflexivity]. Qed.
Lemma amounts_reads s v : amounts s v -> plainly s = v.
Proof.
  intros [t n N L|t n N L|p q n N L|t N L].
  - apply numeral_val in N. destruct N as (A & B & ->). rewrite plainly_from, from_value by (auto; lia). lia.
  - pose proof N as N'. apply numeral_val in N. destruct N as (A & B & ->). rewrite plainly_from by auto. destruct (Z_lt_le_dec (val t 0) (2 ^ 64)).
    + rewrite from_value by (auto; lia). lia.
    + rewrite <- (app_nil_r t). apply from_excess; auto. lia.
  - apply numeral_val in N. destruct N as (A & B & ->). rewrite plainly_from by (destruct p; [congruence|discriminate]). apply from_excess; auto. lia.
  - destruct t as [|c t]; [reflexivity|]. rewrite plainly_from by discriminate. destruct (from_cases (c :: t) 0 ltac:(lia)) as [(F & V)|[(p & q & E & N' & F & V)|(_ & _ & E)]]; auto.
    + exfalso. apply (N (val (c :: t) 0)). apply numeral_val. split; [discriminate|auto].
    + exfalso. specialize (L p q (val p 0) E). assert (numeral p (val p 0)) by (apply numeral_val; auto). specialize (L H). lia.
Qed.
Lemma amounts_total s : amounts s (plainly s).
Proof.
  destruct s as [|c t].
  { apply am_none; [intros n N; apply numeral_val in N; destruct N; congruence|]. intros p q n E N. apply numeral_val in N. destruct p; [destruct N; congruence|discriminate]. }
  rewrite plainly_from by discriminate. destruct (from_cases (c :: t) 0 ltac:(lia)) as [(F & V)|[(p & q & E & N' & F & V)|(F & V & E)]].
  - assert (N : numeral (c :: t) (val (c :: t) 0)) by (apply numeral_val; split; [discriminate|auto]). rewrite from_value by (auto; lia).
    destruct (Z_lt_le_dec (val (c :: t) 0) (2 ^ 63)); [rewrite Z.min_l by lia; constructor 1; auto|rewrite Z.min_r by lia; econstructor 2; eauto].
  - rewrite E. rewrite from_excess by (auto; lia). econstructor 3; [apply numeral_val; split; [exact N'|]; split; [exact F|reflexivity]|exact V].
  - rewrite E. apply am_none; [intros n N; apply numeral_val in N; tauto|]. intros p q n X N. apply numeral_val in N. destruct N as (A & B & ->). eauto.
Qed.
Lemma atoi_plainly s : atoi s = plainly (match s with c :: t => if c =? 43 then t else s | [] => s end).
Proof. unfold atoi, plainly. destruct s as [|c t]; [reflexivity|]. destruct (c =? 43); [destruct t; reflexivity|reflexivity]. Qed.
Lemma read_as_atoi s v : read_as s v <-> atoi s = v.
Proof.
  rewrite atoi_plainly. split.
  - intros [(t & -> & A)|(N & A)]; [rewrite Z.eqb_refl; apply amounts_reads; auto|]. destruct s as [|c t]; [apply amounts_reads; auto|].
    destruct (Z.eqb_spec c 43) as [->|]; [exfalso; apply (N t); reflexivity|apply amounts_reads; auto].
  - intros <-. destruct s as [|c t]; [right; split; [discriminate|apply amounts_total]|]. destruct (Z.eqb_spec c 43) as [->|X]; [left; exists t; split; [reflexivity|apply amounts_total]|].
    right. split; [intros t' E; injection E as E _; contradiction|apply amounts_total].
Qed.

(** ** The usual way to write a number *)
Lemma numeral_chars ds : digits ds -> ds <> [] -> numeral (chars ds) (dval ds).
Proof.
  intros D N. apply numeral_val. split; [destruct ds; [congruence|discriminate]|]. split.
  - pose proof (chars_all_digits ds D) as A. eapply Forall_impl; [|exact A]. cbn beta. intros c. apply dig_char.
  - rewrite digits_value_chars by auto. lia.
Qed.
Lemma dig_chars s : Forall dig s -> exists ds, digits ds /\ s = chars ds.
Proof.
  induction 1 as [|c s C H (ds & D & ->)]; [exists []; split; [constructor|reflexivity]|]. exists (c - 48 :: ds). unfold dig in C. split; [constructor; auto; unfold is_digit; lia|].
  cbn [chars map]. replace (c - 48 + 48) with c by lia. reflexivity.
Qed.
Lemma usual_format n s : 0 <= n -> usual s n <-> s = format_uint n.
Proof.
  intros N. split.
  - intros (H & Z0). apply numeral_val in H. destruct H as (A & B & V). destruct (dig_chars s B) as (ds & D & ->). rewrite digits_value_chars in V by auto. unfold format_uint. f_equal.
    destruct ds as [|d t]; [destruct A; reflexivity|]. destruct (Z.eq_dec d 0) as [->|D0].
    + destruct Z0 as [Z0|Z0]; [|destruct Z0; reflexivity]. destruct t; [|discriminate]. change (dval [0]) with 0 in V. replace n with 0 by lia. reflexivity.
    + symmetry. apply dec_digits_unique; auto.
  - intros ->. destruct (dec_digits_spec n N) as (D & V & C). split.
    + rewrite <- V at 2. apply numeral_chars; auto. apply dec_digits_nonempty; auto.
    + unfold format_uint. destruct C as [(_ & ->)|(d & t & -> & X)]; [left; reflexivity|right]. cbn [chars map hd]. lia.
Qed.
Lemma usual_nonneg s n : usual s n -> 0 <= n.
Proof. intros (H & _). apply numeral_val in H. destruct H as (_ & B & ->). apply val_ge; auto; lia. Qed.
Lemma usual_same s n n' : usual s n -> usual s n' -> n = n'.
Proof. intros (A & _) (B & _). apply numeral_val in A. apply numeral_val in B. destruct A as (_ & _ & ->), B as (_ & _ & ->). reflexivity. Qed.

(** ** Taking names apart *)
Fixpoint join (sep : Z) (l : list bytes) : bytes := match l with [] => [] | [a] => a | a :: r => a ++ sep :: join sep r end.
Lemma split_nonempty sep s : split_on sep s <> [].
Proof. destruct s as [|c t]; cbn [split_on]; [discriminate|]. destruct (c =? sep); [discriminate|]. destruct (split_on sep t); discriminate. Qed.
Lemma split_join sep s : join sep (split_on sep s) = s /\ Forall (fun p => ~ In sep p) (split_on sep s).
Proof.
  induction s as [|c t (J & F)]; [split; [reflexivity|repeat constructor; intros []]|]. cbn [split_on]. pose proof (split_nonempty sep t) as N. destruct (Z.eqb_spec c sep) as [->|X].
  - split; [|constructor; [intros []|auto]]. destruct (split_on sep t) as [|h r] eqn:E; [congruence|]. cbn [join app] in *. f_equal. exact J.
  - destruct (split_on sep t) as [|h r] eqn:E; [congruence|]. split.
    + rewrite <- J. destruct r; reflexivity.
    + inversion F; subst. constructor; auto. intros [Y|Y]; [congruence|contradiction].
Qed.
Lemma in_free (sep : Z) (s : bytes) : ~ In sep s -> Forall (fun c => c <> sep) s.
Proof. intros H. apply Forall_forall. intros x X. cbn beta. intros ->. contradiction. Qed.
Lemma split3 s a b c : split_on dash s = [a; b; c] <-> s = a ++ [45] ++ b ++ [45] ++ c /\ ~ In 45 a /\ ~ In 45 b /\ ~ In 45 c.
Proof.
  split.
  - intros E. destruct (split_join dash s) as (J & F). rewrite E in J, F. inversion F as [|? ? A F1]; subst. inversion F1 as [|? ? B F2]; subst. inversion F2; subst. auto.
  - intros (-> & A & B & C). cbn [app]. change 45 with dash. rewrite !split_plain by (apply in_free; auto). rewrite split_last by (apply in_free; auto). reflexivity.
Qed.
(** The characters before the first dot *)
Lemma stem_spec s : exists r, s = hd [] (split_on dot s) ++ r /\ ~ In 46 (hd [] (split_on dot s)) /\ (r = [] \/ exists t, r = 46 :: t).
Proof.
  destruct (split_join dot s) as (J & F). pose proof (split_nonempty dot s) as N. destruct (split_on dot s) as [|h l]; [congruence|]. cbn [hd]. inversion F; subst.
  destruct l as [|x l]; cbn [join].
  - exists (@nil Z). rewrite app_nil_r. auto.
  - eexists. split; [reflexivity|]. eauto.
Qed.
Lemma ext_end s : exists p, s = p ++ ext s.
Proof.
  induction s as [|c t (p & E)]; [exists []; reflexivity|]. cbn [ext]. destruct (ext t) as [|x e] eqn:X.
  - destruct (c =? dot); [exists []; reflexivity|exists (c :: t); rewrite app_nil_r; reflexivity].
  - exists (c :: p). cbn [app]. f_equal. exact E.
Qed.
Lemma ext_part s : ext s = s_part <-> exists p, s = p ++ s_part.
Proof.
  split; [intros E; destruct (ext_end s) as (p & H); rewrite E in H; eauto|]. intros (p & ->). rewrite ext_app by (cbn; discriminate). reflexivity.
Qed.
Lemma part_end_part t : part_end t -> exists p, t = p ++ s_part.
Proof. intros [->|(mid & ->)]; [exists []; reflexivity|exists (46 :: mid); reflexivity]. Qed.
Lemma part_end_dot t : part_end t -> exists u, t = 46 :: u.
Proof. intros [->|(mid & ->)]; eauto. Qed.
Lemma part_end_of stem r p : ~ In 46 stem -> (r = [] \/ exists t, r = 46 :: t) -> stem ++ r = p ++ s_part -> part_end r.
Proof.
  intros N R E. apply app_eq_app in E. destruct E as (l & [(A & B)|(A & B)]).
  - destruct l as [|x l]; [left; symmetry; exact B|]. exfalso. apply N. unfold s_part in B. injection B as <- _. rewrite A. apply in_or_app. right. left. reflexivity.
  - destruct l as [|x l]; [left; exact B|]. right. destruct R as [->|(t & ->)]; [discriminate|]. cbn [app] in B. injection B as <- ->. exists l. reflexivity.
Qed.
Lemma stem_of s t : ~ In 46 s -> hd [] (split_on dot (s ++ 46 :: t)) = s.
Proof. intros H. change 46 with dot. rewrite split_plain by (apply in_free; exact H). reflexivity. Qed.

(** ** Which names count *)
Lemma part_seq_counts m name k : 0 <= mp_msgid m -> part_seq m name = Some k <-> counts m name k.
Proof.
  intros M. unfold part_seq, counts. split.
  - destruct (beq_spec (ext name) s_part) as [E|]; [|discriminate]. cbn [negb]. apply ext_part in E. destruct E as (p & E). destruct (stem_spec name) as (r & S1 & S2 & S3).
    set (stem := hd [] (split_on dot name)) in *. destruct (split_on dash stem) as [|a [|b [|c [|]]]] eqn:X; try discriminate. apply split3 in X. destruct X as (X & A & B & C).
    destruct (beq_spec a (format_uint (mp_msgid m))) as [U|]; [|discriminate]. cbn [negb]. destruct (Z.eqb_spec (u32 (atoi b)) (mp_tag m)) as [T|]; [|discriminate]. cbn [negb].
    intros K. injection K as <-. exists a, b, c, r, (atoi b), (atoi c). rewrite X in S1, S2.
    assert (D : ~ In 46 a /\ ~ In 46 b /\ ~ In 46 c). { repeat split; intros Y; apply S2; rewrite !in_app_iff; tauto. }
    unfold unmarked. destruct D as (DA & DB & DC). rewrite S1 at 1. rewrite <- !app_assoc. cbn [app]. split; [reflexivity|]. do 3 (split; [auto|]).
    split; [eapply part_end_of; [exact S2|exact S3|rewrite <- S1; exact E]|]. split; [apply usual_format; auto|]. split; [apply read_as_atoi; reflexivity|]. split; [exact T|].
    split; [apply read_as_atoi; reflexivity|reflexivity].
  - intros (a & b & c & t & x & y & -> & (A & A') & (B & B') & (C & C') & P & U & RX & T & RY & ->). apply read_as_atoi in RX. apply read_as_atoi in RY. subst x y. apply usual_format in U; auto.
    assert (E : ext (a ++ [45] ++ b ++ [45] ++ c ++ t) = s_part).
    { apply ext_part. destruct (part_end_part t P) as (p & ->). exists (a ++ [45] ++ b ++ [45] ++ c ++ p). rewrite <- !app_assoc. reflexivity. }
    rewrite E. rewrite beq_refl. cbn [negb]. destruct (part_end_dot t P) as (u & ->).
    replace (a ++ [45] ++ b ++ [45] ++ c ++ 46 :: u) with ((a ++ [45] ++ b ++ [45] ++ c) ++ 46 :: u) by (rewrite <- !app_assoc; reflexivity).
    rewrite stem_of.
    2:{ intros Y. rewrite !in_app_iff in Y. cbn [In] in Y. intuition discriminate. }
    rewrite (proj2 (split3 _ a b c) (conj eq_refl (conj A (conj B C)))). subst a. rewrite beq_refl. cbn [negb].
    unfold u32. change 4294967296 with (2 ^ 32). rewrite T, Z.eqb_refl. reflexivity.
Qed.
Lemma part_seq_none m name : 0 <= mp_msgid m -> part_seq m name = None -> forall k, ~ counts m name k.
Proof. intros M E k C. apply part_seq_counts in C; auto. congruence. Qed.
Lemma counts_one m name k k' : counts m name k -> counts m name k' -> k = k' /\ is_u16 k.
Proof.
  intros A B. assert (M : 0 <= mp_msgid m) by (destruct A as (? & ? & ? & ? & ? & ? & _ & _ & _ & _ & _ & U & _); eapply usual_nonneg; eauto).
  pose proof A as A'. apply part_seq_counts in A; auto. apply part_seq_counts in B; auto. split; [congruence|].
  destruct A' as (? & ? & ? & ? & ? & y & _ & _ & _ & _ & _ & _ & _ & _ & _ & ->). unfold is_u16. change (2 ^ 16) with 65536. lia.
Qed.

(** ** Directories *)
Lemma files_get f m d : files_of f (mp_icc m) d -> alist_get (fs_dirs f) (root_dir m) = Some d.
Proof.
  intros (N & name & U & I0). pose proof (usual_nonneg _ _ U) as P. apply usual_format in U; auto. subst name. apply alist_in_get; auto.
Qed.
Lemma walk_gathers f m d : 0 <= mp_msgid m -> files_of f (mp_icc m) d -> exists l, walk_parts f m = Ok l /\ gathers m d l.
Proof.
  intros M F. unfold walk_parts. rewrite (files_get f m d F). eexists. split; [reflexivity|]. clear F. induction d as [|(name, data) d IH]; cbn [map concat]; [constructor|]. cbn [fst snd].
  destruct (part_seq m name) as [k|] eqn:E; cbn [app].
  - constructor; auto. apply part_seq_counts; auto.
  - constructor; auto. apply part_seq_none; auto.
Qed.
Lemma gathers_in m d l : gathers m d l -> forall k data, In (k, data) l <-> exists name, In (name, data) d /\ counts m name k.
Proof.
  induction 1 as [|name data d k l C G IH|name data d l C G IH]; intros j x.
  - split; [intros []|intros (n & [] & _)].
  - split.
    + intros [E|E]; [injection E as <- <-; exists name; split; [left; reflexivity|auto]|]. apply IH in E. destruct E as (n & A & B). exists n. split; [right; auto|auto].
    + intros (n & [E|E] & B); [injection E as <- <-; left; f_equal; apply (counts_one m name); auto|]. right. apply IH. eauto.
  - split.
    + intros E. apply IH in E. destruct E as (n & A & B). exists n. split; [right; auto|auto].
    + intros (n & [E|E] & B); [injection E as <- <-; destruct (C _ B)|]. apply IH. eauto.
Qed.
Lemma struck l : forall s i, In i (fold_left (fun set (p : Z * bytes) => filter (fun i => negb (i =? fst p)) set) l s) <-> In i s /\ forall x, ~ In (i, x) l.
Proof.
  induction l as [|(k, x) l IH]; intros s i; cbn [fold_left]; [split; [intros H; split; [auto|intros ? []]|tauto]|]. rewrite IH, filter_In. cbn [fst]. split.
  - intros ((A & B) & C). split; auto. intros y [E|E]; [injection E as -> _; lia|apply (C y); auto].
  - intros (A & B). split; [split; [auto|]|intros y E; apply (B y); right; auto]. destruct (Z.eqb_spec i k) as [->|]; auto. destruct (B x). left. reflexivity.
Qed.
Lemma full_counts f m d : 0 <= mp_msgid m -> files_of f (mp_icc m) d ->
  exists b, is_full f m = Ok b /\ (b = true <-> forall i, 1 <= i <= mp_sum m -> exists name data, In (name, data) d /\ counts m name i).
Proof.
  intros M F. destruct (walk_gathers f m d M F) as (l & W & G). unfold is_full. rewrite W. cbn [bind]. eexists. split; [reflexivity|].
  assert (S0 : forall i, In i (seq_set (mp_sum m)) <-> 1 <= i <= mp_sum m).
  { intros i. unfold seq_set. rewrite in_map_iff. split; [intros (n & <- & H); apply in_seq in H; lia|]. intros H. exists (Z.to_nat i). split; [lia|]. apply in_seq. lia. }
  pose proof (struck l (seq_set (mp_sum m))) as X. set (r := fold_left _ l _) in *. split.
  - intros E i H. destruct r; [|discriminate]. assert (~ (forall x, ~ In (i, x) l)) as N. { intros Y. apply (X i). split; auto. apply S0; auto. }
    assert (exists x, In (i, x) l) as (x & Y).
    { clear - N. induction l as [|(k, x) l IH]; [exfalso; apply N; intros ? []|]. destruct (Z.eq_dec k i) as [->|D]; [exists x; left; reflexivity|].
      destruct IH as (y & Y); [|exists y; right; auto]. intros H. apply N. intros y [E|E]; [congruence|apply (H y E)]. }
    apply (gathers_in m d l G) in Y. destruct Y as (name & A & B). eauto.
  - intros H. destruct r as [|i r]; [reflexivity|exfalso]. destruct (proj1 (X i)) as (A & B); [left; reflexivity|]. apply S0 in A. destruct (H i A) as (name & data & C & D).
    apply (B data). apply (gathers_in m d l G). eauto.
Qed.

(** ** The names the package gives *)
Lemma write_counts f m s data f' : mpf_ok m -> is_u16 s -> NoDup (map fst (fs_dirs f)) -> mp_write f m s data = Ok f' ->
  exists d name, files_of f' (mp_icc m) d /\ In (name, data) d /\
    (forall m' k, 0 <= mp_msgid m' -> counts m' name k <-> mp_msgid m' = mp_msgid m /\ mp_tag m' = mp_tag m /\ k = s).
Proof.
  intros (MI & MM & MT & MS) S0 N. unfold mp_write. destruct (fs_priv f); [|discriminate]. cbn [negb]. intros E. injection E as <-.
  set (d := match alist_get (fs_dirs f) (root_dir m) with Some d => d | None => [] end). exists (alist_set d (part_name m s) data), (part_name m s). split; [|split].
  - split; [cbn [fs_dirs]; apply alist_set_nodup; auto|]. exists (root_dir m). split; [apply usual_format; [lia|reflexivity]|]. cbn [fs_dirs]. apply alist_get_in. rewrite alist_get_set, beq_refl. reflexivity.
  - apply alist_get_in. rewrite alist_get_set, beq_refl. reflexivity.
  - intros m' k M'. rewrite <- part_seq_counts by auto. unfold is_u16, is_u32 in *. rewrite part_seq_part by lia.
    destruct (Z.eqb_spec (mp_msgid m) (mp_msgid m')), (Z.eqb_spec (mp_tag m) (mp_tag m')); cbn [andb]; split; try discriminate; try (intros (? & ? & ?); congruence).
    intros H. injection H as <-. auto.
Qed.
