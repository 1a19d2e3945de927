(** Laws of the reader and writer primitives. *)
From Verif Require Import Base.
From Coq Require Export ZifyBool ZifyNat ZifyN.
Ltac Zify.zify_post_hook ::= Z.div_mod_to_equations.

(** ** Lists and lengths *)
Lemma zlen_nil {A} : zlen (@nil A) = 0. Proof. reflexivity. Qed.
Lemma zlen_cons {A} (x : A) l : zlen (x :: l) = 1 + zlen l.
Proof. unfold zlen. cbn [length]. lia. Qed.
Lemma zlen_app {A} (a b : list A) : zlen (a ++ b) = zlen a + zlen b.
Proof. unfold zlen. rewrite app_length. lia. Qed.
Lemma zlen_nonneg {A} (l : list A) : 0 <= zlen l. Proof. unfold zlen; lia. Qed.
Lemma zlen_repeat {A} (x : A) n : zlen (repeat x n) = Z.of_nat n.
Proof. unfold zlen. rewrite repeat_length. reflexivity. Qed.
Lemma zlen_map {A B} (f : A -> B) l : zlen (map f l) = zlen l.
Proof. unfold zlen. rewrite map_length. reflexivity. Qed.
Lemma zlen_rev {A} (l : list A) : zlen (rev l) = zlen l.
Proof. unfold zlen. rewrite rev_length. reflexivity. Qed.
Lemma zlen_to_nat {A} (l : list A) : Z.to_nat (zlen l) = length l.
Proof. unfold zlen. lia. Qed.
Lemma zlen_0 {A} (l : list A) : zlen l = 0 -> l = [].
Proof. destruct l; [auto|rewrite zlen_cons; pose proof (zlen_nonneg l); lia]. Qed.

(** Push [zlen] through constructors. *)
Ltac zl := repeat first
  [ progress (change (@zlen Z (@nil Z)) with 0)
  | match goal with |- context[@zlen ?A (@nil ?A)] => change (@zlen A (@nil A)) with 0 end
  | rewrite zlen_cons | rewrite zlen_app | rewrite zlen_repeat | rewrite zlen_map | rewrite zlen_rev].
Ltac zl_in H := repeat first
  [ match type of H with context[@zlen ?A (@nil ?A)] => change (@zlen A (@nil A)) with 0 in H end
  | rewrite zlen_cons in H | rewrite zlen_app in H | rewrite zlen_repeat in H
  | rewrite zlen_map in H | rewrite zlen_rev in H].

Lemma firstn_exact {A} (a b : list A) : firstn (length a) (a ++ b) = a.
Proof. induction a; cbn; [destruct b; auto|f_equal; auto]. Qed.
Lemma skipn_exact {A} (a b : list A) : skipn (length a) (a ++ b) = b.
Proof. induction a; cbn; auto. Qed.
Lemma firstn_exact' {A} n (a b : list A) : length a = n -> firstn n (a ++ b) = a.
Proof. intros <-. apply firstn_exact. Qed.
Lemma skipn_exact' {A} n (a b : list A) : length a = n -> skipn n (a ++ b) = b.
Proof. intros <-. apply skipn_exact. Qed.

(** ** Bytes *)
Lemma bytes_ok_app a b : bytes_ok (a ++ b) <-> bytes_ok a /\ bytes_ok b.
Proof. unfold bytes_ok. apply Forall_app. Qed.
Lemma bytes_ok_cons x l : bytes_ok (x :: l) <-> is_byte x /\ bytes_ok l.
Proof. unfold bytes_ok. split; [intros H; inversion H; auto|intros []; constructor; auto]. Qed.
Lemma bytes_ok_nil : bytes_ok []. Proof. constructor. Qed.
Lemma bytes_ok_firstn n l : bytes_ok l -> bytes_ok (firstn n l).
Proof. intros H. rewrite <- (firstn_skipn n l) in H. apply bytes_ok_app in H. tauto. Qed.
Lemma bytes_ok_skipn n l : bytes_ok l -> bytes_ok (skipn n l).
Proof. intros H. rewrite <- (firstn_skipn n l) in H. apply bytes_ok_app in H. tauto. Qed.
Lemma bytes_ok_repeat0 n : bytes_ok (repeat 0 n).
Proof. induction n; cbn; [constructor|]. constructor; [unfold is_byte; lia|auto]. Qed.
Lemma bytes_ok_concat ls : (forall l, In l ls -> bytes_ok l) -> bytes_ok (concat ls).
Proof.
  induction ls; cbn; intros; [constructor|]. apply bytes_ok_app. split; auto.
Qed.
Lemma bytes_ok_rev l : bytes_ok l -> bytes_ok (rev l).
Proof. unfold bytes_ok. intros. apply Forall_rev. auto. Qed.

Lemma is_byte_u8 n : is_byte (u8 n). Proof. unfold is_byte, u8. lia. Qed.
Lemma u8_id n : is_byte n -> u8 n = n. Proof. unfold is_byte, u8. lia. Qed.
Lemma u16_id n : is_u16 n -> u16 n = n. Proof. unfold is_u16, u16. lia. Qed.
Lemma u32_id n : is_u32 n -> u32 n = n. Proof. unfold is_u32, u32. lia. Qed.
Lemma bytes_ok_w_u16 n : bytes_ok (w_u16 n).
Proof. repeat constructor; unfold u8; lia. Qed.
Lemma bytes_ok_w_u32 n : bytes_ok (w_u32 n).
Proof. repeat constructor; unfold u8; lia. Qed.
Lemma bytes_ok_w_byte n : is_byte n -> bytes_ok (w_byte n).
Proof. repeat constructor; unfold is_byte in *; lia. Qed.
Lemma bytes_ok_w_fixed p n : bytes_ok p -> bytes_ok (w_fixed p n).
Proof.
  intros. unfold w_fixed. destruct (_ <=? _)%nat.
  - apply bytes_ok_firstn; auto.
  - apply bytes_ok_app; split; auto using bytes_ok_repeat0.
Qed.
Lemma w_fixed_length p n : length (w_fixed p n) = n.
Proof.
  unfold w_fixed. destruct (Nat.leb_spec n (length p)).
  - apply firstn_length_le; auto.
  - rewrite app_length, repeat_length. lia.
Qed.
Lemma zlen_w_fixed p n : zlen (w_fixed p n) = Z.of_nat n.
Proof. unfold zlen. rewrite w_fixed_length. reflexivity. Qed.
Lemma zlen_w_u16 n : zlen (w_u16 n) = 2. Proof. reflexivity. Qed.
Lemma zlen_w_u32 n : zlen (w_u32 n) = 4. Proof. reflexivity. Qed.
Lemma zlen_w_byte n : zlen (w_byte n) = 1. Proof. reflexivity. Qed.
Lemma w_fixed_pad p n : (length p <= n)%nat -> w_fixed p n = p ++ repeat 0 (n - length p).
Proof.
  intros. unfold w_fixed. destruct (Nat.leb_spec n (length p)); auto.
  assert (n = length p) by lia. subst. rewrite firstn_all, Nat.sub_diag. cbn. rewrite app_nil_r. auto.
Qed.

(** ** Text up to NUL *)
Definition no_nul (l : bytes) : Prop := Forall (fun b => b <> 0) l.
Lemma cstr_no_nul l r : no_nul l -> cstr (l ++ r) = l ++ cstr r.
Proof.
  induction 1; cbn; auto. destruct (Z.eqb_spec x 0); [contradiction|]. f_equal; auto.
Qed.
Lemma cstr_repeat0 n : cstr (repeat 0 n) = [].
Proof. destruct n; reflexivity. Qed.
Lemma cstr_pad l n : no_nul l -> cstr (l ++ repeat 0 n) = l.
Proof. intros. rewrite cstr_no_nul, cstr_repeat0, app_nil_r; auto. Qed.
Lemma cstr_id l : no_nul l -> cstr l = l.
Proof. intros. rewrite <- (app_nil_r l) at 1. rewrite cstr_no_nul; auto. apply app_nil_r. Qed.
Lemma cstr_w_fixed p n : no_nul p -> (length p <= n)%nat -> cstr (w_fixed p n) = p.
Proof. intros. rewrite w_fixed_pad by auto. apply cstr_pad; auto. Qed.
Lemma no_nul_cstr l : no_nul (cstr l).
Proof.
  induction l; cbn; [constructor|]. destruct (Z.eqb_spec a 0); constructor; auto.
Qed.
Lemma cstr_prefix l : exists r, l = cstr l ++ r.
Proof.
  induction l; cbn; [exists []; auto|]. destruct (a =? 0); [eexists; cbn; eauto|].
  destruct IHl as [r Hr]. exists r. cbn. f_equal; auto.
Qed.
Lemma bytes_ok_cstr l : bytes_ok l -> bytes_ok (cstr l).
Proof. intros H. destruct (cstr_prefix l) as [r Hr]. rewrite Hr in H. apply bytes_ok_app in H. tauto. Qed.
Lemma length_cstr l : (length (cstr l) <= length l)%nat.
Proof. induction l; cbn; auto. destruct (a =? 0); cbn; lia. Qed.

(** ** Reader laws *)
Lemma rbind_ok {A B} (p : R A) (k : A -> R B) l a l' :
  p l = Ok (a, l') -> rbind p k l = k a l'.
Proof. unfold rbind. intros ->. reflexivity. Qed.
Lemma r_byte_w b r : r_byte (w_byte b ++ r) = Ok (b, r).
Proof. reflexivity. Qed.
Lemma r_u16_w n r : is_u16 n -> r_u16 (w_u16 n ++ r) = Ok (n, r).
Proof. intros. cbn. unfold be16, u8, is_u16 in *. do 2 f_equal. lia. Qed.
Lemma r_u32_w n r : is_u32 n -> r_u32 (w_u32 n ++ r) = Ok (n, r).
Proof. intros. cbn. unfold be32, u8, is_u32 in *. do 2 f_equal. lia. Qed.
Lemma r_bytes_app n d r : zlen d = n -> r_bytes n (d ++ r) = Ok (d, r).
Proof.
  intros <-. unfold r_bytes. rewrite zlen_app. pose proof (zlen_nonneg d). pose proof (zlen_nonneg r).
  destruct (Z.ltb_spec (zlen d + zlen r) (zlen d)); [lia|].
  destruct (Z.ltb_spec (zlen d) 0); [lia|].
  rewrite zlen_to_nat, firstn_exact, skipn_exact. reflexivity.
Qed.
Lemma r_bytes_fixed k p n r : Z.of_nat n = k -> r_bytes k (w_fixed p n ++ r) = Ok (w_fixed p n, r).
Proof. intros <-. apply r_bytes_app, zlen_w_fixed. Qed.

Lemma r_list_w {A} (p : R A) (w : A -> bytes) (v : A -> A) (P : A -> Prop) (xs : list A) (r : bytes) :
  (forall x r, P x -> p (w x ++ r) = Ok (v x, r)) ->
  Forall P xs ->
  r_list (length xs) p (concat (map w xs) ++ r) = Ok (map v xs, r).
Proof.
  intros Hw. induction 1; cbn [length r_list map concat]; auto.
  rewrite <- app_assoc. erewrite rbind_ok by (apply Hw; auto).
  erewrite rbind_ok by eassumption. reflexivity.
Qed.

Lemma run_count_ok {A} (p : R A) data a : p data = Ok (a, []) -> run_count p data = Ok (a, zlen data).
Proof. unfold run_count. intros ->. do 2 f_equal. rewrite zlen_nil. lia. Qed.

Lemma mapM_ok {A B} (f : A -> res B) (xs : list A) (ys : list B) :
  Forall2 (fun x y => f x = Ok y) xs ys -> mapM f xs = Ok ys.
Proof. induction 1; cbn; auto. rewrite H. cbn. rewrite IHForall2. reflexivity. Qed.
Lemma mapM_inv {A B} (f : A -> res B) (xs : list A) (ys : list B) :
  mapM f xs = Ok ys -> Forall2 (fun x y => f x = Ok y) xs ys.
Proof.
  revert ys. induction xs; cbn; intros ys H.
  - inversion H. constructor.
  - destruct (f a) eqn:E; try discriminate. cbn in H. destruct (mapM f xs); try discriminate.
    inversion H. subst. constructor; auto.
Qed.
