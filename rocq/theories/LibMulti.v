(** Names of part files and association lists. *)
From Verif Require Import Base LibBase Bcd LibBcd Multipart.

Lemma beq_spec a : forall b, reflect (a = b) (beq a b).
Proof.
  induction a as [|x a IH]; intros [|y b]; cbn [beq]; try (constructor; congruence).
  destruct (Z.eqb_spec x y); cbn [andb]; [|constructor; congruence]. destruct (IH b); constructor; congruence.
Qed.
Lemma beq_refl a : beq a a = true. Proof. destruct (beq_spec a a); congruence. Qed.

Lemma alist_get_set {A} (l : list (bytes * A)) k v k' : alist_get (alist_set l k v) k' = if beq k k' then Some v else alist_get l k'.
Proof.
  induction l as [|[a x] l IH]; cbn [alist_set alist_get]; [reflexivity|].
  destruct (beq_spec a k) as [->|N]; cbn [alist_get]; [destruct (beq k k'); reflexivity|]. rewrite IH.
  destruct (beq_spec a k') as [->|]; auto. destruct (beq_spec k k'); congruence.
Qed.
Lemma alist_set_in {A} (l : list (bytes * A)) k v a x : In (a, x) (alist_set l k v) -> (a, x) = (k, v) \/ In (a, x) l.
Proof. induction l as [|[b y] l IH]; cbn; [intuition|]. destruct (beq b k); cbn; intuition. Qed.
Lemma alist_set_keys {A} (l : list (bytes * A)) k v a : In a (map fst (alist_set l k v)) -> a = k \/ In a (map fst l).
Proof. induction l as [|[b y] l IH]; cbn; [intuition|]. destruct (beq b k); cbn; intuition. Qed.
Lemma alist_set_nodup {A} (l : list (bytes * A)) k v : NoDup (map fst l) -> NoDup (map fst (alist_set l k v)).
Proof.
  induction l as [|[b y] l IH]; cbn; intros N; [repeat constructor; auto|]. inversion N; subst. destruct (beq_spec b k) as [->|D]; cbn; [constructor; auto|].
  constructor; auto. intros H. apply alist_set_keys in H. destruct H; congruence.
Qed.
Lemma alist_get_in {A} (l : list (bytes * A)) k v : alist_get l k = Some v -> In (k, v) l.
Proof. induction l as [|[a x] l IH]; cbn; [discriminate|]. destruct (beq_spec a k) as [->|]; [intros H; injection H as ->; auto|auto]. Qed.
Lemma alist_in_get {A} (l : list (bytes * A)) k v : NoDup (map fst l) -> In (k, v) l -> alist_get l k = Some v.
Proof.
  induction l as [|[a x] l IH]; cbn; [tauto|]. intros N [H|H]; [injection H as -> ->; rewrite beq_refl; reflexivity|]. inversion N; subst.
  destruct (beq_spec a k) as [->|]; auto. exfalso. apply H2. change k with (fst (k, v)). apply in_map. auto.
Qed.

(** ** Names *)
Lemma format_digits n : 0 <= n -> Forall (fun c => is_digit_char c = true) (format_uint n).
Proof. intros. apply chars_all_digits. destruct (dec_digits_spec n); auto. Qed.
Definition plain (s : bytes) : Prop := Forall (fun c => c <> dot /\ c <> dash) s.
Lemma format_plain n : 0 <= n -> plain (format_uint n).
Proof. intros. eapply Forall_impl; [|apply format_digits; auto]. cbn beta. intros c. unfold is_digit_char, dot, dash. lia. Qed.
Lemma split_plain sep s t : Forall (fun c => c <> sep) s -> split_on sep (s ++ sep :: t) = s :: split_on sep t.
Proof.
  intros H. induction H as [|c s C H IH]; cbn [app split_on]; [rewrite Z.eqb_refl; reflexivity|].
  destruct (Z.eqb_spec c sep); [contradiction|]. rewrite IH. reflexivity.
Qed.
Lemma split_last sep s : Forall (fun c => c <> sep) s -> split_on sep s = [s].
Proof. intros H. induction H as [|c s C H IH]; cbn [split_on]; auto. destruct (Z.eqb_spec c sep); [contradiction|]. rewrite IH. reflexivity. Qed.
Lemma ext_app s t : ext t <> [] -> ext (s ++ t) = ext t.
Proof. intros H. induction s as [|c s IH]; cbn [app ext]; auto. rewrite IH. destruct (ext t); congruence. Qed.
Lemma no_dash s : plain s -> Forall (fun c => c <> dash) s. Proof. intros H. eapply Forall_impl; [|exact H]. cbn beta. tauto. Qed.
Lemma no_dot s : plain s -> Forall (fun c => c <> dot) s. Proof. intros H. eapply Forall_impl; [|exact H]. cbn beta. tauto. Qed.
Lemma digits_value_chars ds : digits ds -> forall a, fold_left (fun a c => a * 10 + (c - 48)) (chars ds) a = a * 10 ^ zlen ds + dval ds.
Proof.
  induction 1 as [|x l X H IH]; intros a; cbn [chars map fold_left]; [change (zlen (@nil Z)) with 0; cbn; lia|].
  fold (chars l). rewrite IH, dval_cons, zlen_cons. pose proof (zlen_nonneg l). rewrite Z.pow_add_r by lia. change (10 ^ 1) with 10. ring.
Qed.
Lemma atoi_from_digits : forall ds a, digits ds -> 0 <= a -> a * 10 ^ zlen ds + dval ds < 2 ^ 63 -> atoi_from a (chars ds) = a * 10 ^ zlen ds + dval ds.
Proof.
  induction ds as [|x l IH]; intros a D A R; cbn [chars map atoi_from].
  - change (zlen (@nil Z)) with 0 in *. change (dval []) with 0 in *. cbn [Z.pow] in *. change (10 ^ 0) with 1 in *. lia.
  - inversion D as [|? ? X H]; subst. fold (chars l). pose proof (zlen_nonneg l). pose proof (dval_bound l H) as V. unfold is_digit in X.
    rewrite dval_cons, zlen_cons in *. rewrite Z.pow_add_r in * by lia. change (10 ^ 1) with 10 in *. pose proof (Z.pow_pos_nonneg 10 (zlen l) ltac:(lia) ltac:(lia)) as P.
    replace (is_digit_char (x + 48)) with true by (unfold is_digit_char; lia). replace (x + 48 - 48) with x by lia.
    assert (a * 10 + x < 2 ^ 63) by nia. destruct (Z.ltb_spec 18446744073709551615 (a * 10 + x)); [lia|].
    rewrite IH by (auto; nia). nia.
Qed.
Lemma atoi_format n : 0 <= n < 2 ^ 63 -> atoi (format_uint n) = n.
Proof.
  intros R. destruct (dec_digits_spec n ltac:(lia)) as (D & V & _). unfold atoi.
  assert (F : atoi_from 0 (format_uint n) = n). { unfold format_uint. rewrite atoi_from_digits by (auto; lia). lia. }
  pose proof (format_digits n ltac:(lia)) as G.
  destruct (format_uint n) as [|c t] eqn:E; [exfalso; unfold format_uint in E; destruct (dec_digits n) eqn:E2; [exact (dec_digits_nonempty n ltac:(lia) E2)|discriminate]|].
  pose proof (Forall_inv G) as C. cbn beta in C. replace (c =? 43) with false by (unfold is_digit_char in C; lia). exact F.
Qed.
Lemma fa_app (P : Z -> Prop) a b : Forall P a -> Forall P b -> Forall P (a ++ b). Proof. intros. apply Forall_app. auto. Qed.
Lemma fa_dash : Forall (fun c => c <> dot) [dash]. Proof. repeat constructor. discriminate. Qed.
Lemma stem3 a b c : plain a -> plain b -> plain c -> forall e, hd [] (split_on dot ((a ++ [dash] ++ b ++ [dash] ++ c) ++ dot :: e)) = a ++ [dash] ++ b ++ [dash] ++ c.
Proof.
  intros A B C e. rewrite split_plain; auto. auto 10 using fa_app, fa_dash, no_dot.
Qed.
Lemma part_seq_part m m' s : 0 <= mp_msgid m -> 0 <= mp_msgid m' -> 0 <= mp_tag m' < 2 ^ 32 -> 0 <= s < 65536 ->
  part_seq m (part_name m' s) = if (mp_msgid m' =? mp_msgid m) && (mp_tag m' =? mp_tag m) then Some s else None.
Proof.
  intros I I' T S. unfold part_seq, part_name. set (a := format_uint (mp_msgid m')). set (b := format_uint (mp_tag m')). set (c := format_uint s).
  assert (PA : plain a) by (apply format_plain; lia). assert (PB : plain b) by (apply format_plain; lia). assert (PC : plain c) by (apply format_plain; lia).
  replace (a ++ [dash] ++ b ++ [dash] ++ c ++ s_part) with ((a ++ [dash] ++ b ++ [dash] ++ c) ++ s_part) by (rewrite <- !app_assoc; reflexivity).
  rewrite ext_app by (cbn; discriminate). change (beq (ext s_part) s_part) with true. cbn [negb].
  change s_part with (dot :: [112; 97; 114; 116]). rewrite stem3 by auto.
  cbn [app]. rewrite split_plain by (apply no_dash; auto). rewrite split_plain by (apply no_dash; auto). rewrite split_last by (apply no_dash; auto).
  destruct (beq_spec a (format_uint (mp_msgid m))) as [E|E]; cbn [negb].
  - apply format_uint_inj in E; auto. replace (mp_msgid m' =? mp_msgid m) with true by lia. cbn [andb]. unfold b, c. rewrite !atoi_format by lia.
    unfold u32, u16. rewrite !Z.mod_small by lia. destruct (mp_tag m' =? mp_tag m); reflexivity.
  - replace (mp_msgid m' =? mp_msgid m) with false; [reflexivity|]. symmetry. apply Z.eqb_neq. intros X. apply E. unfold a. rewrite X. reflexivity.
Qed.
Lemma part_seq_full m m' : 0 <= mp_msgid m' -> 0 <= mp_tag m' -> part_seq m (full_name m') = None.
Proof.
  intros I T. unfold part_seq, full_name. rewrite !app_assoc. rewrite ext_app by (cbn; discriminate). reflexivity.
Qed.
Lemma full_inj m m' : 0 <= mp_msgid m -> 0 <= mp_tag m -> 0 <= mp_msgid m' -> 0 <= mp_tag m' -> full_name m = full_name m' -> mp_msgid m = mp_msgid m' /\ mp_tag m = mp_tag m'.
Proof.
  intros A B C D E. apply (f_equal (fun s => split_on dash (hd [] (split_on dot s)))) in E. unfold full_name in E. revert E.
  assert (X : forall x y, 0 <= x -> 0 <= y -> split_on dash (hd [] (split_on dot (format_uint x ++ [dash] ++ format_uint y ++ s_full))) = [format_uint x; format_uint y]).
  { intros x y Hx Hy. pose proof (format_plain x Hx) as P. pose proof (format_plain y Hy) as Q.
    replace (format_uint x ++ [dash] ++ format_uint y ++ s_full) with ((format_uint x ++ [dash] ++ format_uint y) ++ dot :: [102; 117; 108; 108]) by (rewrite <- !app_assoc; reflexivity).
    rewrite split_plain; [|auto 10 using fa_app, fa_dash, no_dot]. cbn [hd app].
    rewrite split_plain by (apply no_dash; auto). rewrite split_last by (apply no_dash; auto). reflexivity. }
  rewrite !X by auto. intros E. injection E as E1 E2. apply format_uint_inj in E1; auto. apply format_uint_inj in E2; auto.
Qed.
