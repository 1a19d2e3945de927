(** Fermat's little theorem and the inverse of the RSA power. *)
From Coq Require Import Znumtheory Zpow_facts Permutation.
From Verif Require Import Base LibBase SpecRsa.

Lemma product_app a b : product (a ++ b) = product a * product b.
Proof. induction a; cbn [app]; [unfold product; cbn [fold_right]; lia|]. unfold product in *. cbn [fold_right]. rewrite IHa. lia. Qed.
Lemma product_perm a b : Permutation a b -> product a = product b.
Proof. induction 1; unfold product in *; cbn [fold_right]; lia. Qed.
Lemma mod_div a b p : 0 < p -> (a mod p = b mod p <-> (p | a - b)).
Proof.
  intros P. split.
  - intros H. apply Z.mod_divide; [lia|]. rewrite Zminus_mod, H, Z.sub_diag. reflexivity.
  - intros H. apply Z.mod_divide in H; [|lia]. rewrite <- (Z.sub_add b a), Zplus_mod, H. cbn [Z.add]. apply Z.mod_mod. lia.
Qed.
(** the numbers 1..p-1 *)
Definition residues (p : Z) : list Z := map Z.of_nat (seq 1 (Z.to_nat (p - 1))).
Lemma in_residues p x : In x (residues p) <-> 1 <= x < p.
Proof.
  unfold residues. rewrite in_map_iff. split.
  - intros (n & <- & H). apply in_seq in H. lia.
  - intros H. exists (Z.to_nat x). split; [lia|]. apply in_seq. lia.
Qed.
Lemma residues_distinct p : NoDup (residues p).
Proof. unfold residues. apply FinFun.Injective_map_NoDup; [intros a b; lia|apply seq_NoDup]. Qed.
Lemma prime_not_divides_product p l : prime p -> (forall x, In x l -> ~ (p | x)) -> ~ (p | product l).
Proof.
  intros P. induction l as [|x l IH]; intros H D; unfold product in *; cbn [fold_right] in D.
  - destruct P as [P _]. apply Z.divide_1_r_nonneg in D; lia.
  - apply prime_mult in D; [|exact P]. destruct D as [D|D]; [exact (H x (or_introl eq_refl) D)|]. apply IH; [|exact D]. intros y Y. apply H. right. exact Y.
Qed.
Lemma product_scaled a p l : 0 < p -> (product (map (fun i => (a * i) mod p) l)) mod p = (a ^ zlen l * product l) mod p.
Proof.
  intros P. induction l as [|x l IH]; [reflexivity|]. cbn [map]. unfold product in *. cbn [fold_right]. rewrite zlen_cons, Z.add_comm, Z.pow_add_r by (pose proof (zlen_nonneg l); lia).
  rewrite Z.mul_mod, IH, <- Z.mul_mod, Z.mul_mod, Z.mod_mod, <- Z.mul_mod by lia. f_equal. ring.
Qed.
Lemma fermat a p : prime p -> ~ (p | a) -> (p | a ^ (p - 1) - 1).
Proof.
  intros P N. pose proof P as [P1 _].
  set (l := map (fun i => (a * i) mod p) (residues p)).
  assert (ND : NoDup l).
  { unfold l. pose proof (residues_distinct p) as D. assert (A : forall x, In x (residues p) -> 1 <= x < p) by (intros x; apply in_residues).
    induction (residues p) as [|x r IH]; cbn [map]; [constructor|]. inversion D as [|? ? D1 D2]; subst. constructor.
    - rewrite in_map_iff. intros (y & E & Y). apply D1. replace x with y; [exact Y|].
      apply mod_div in E; [|lia]. replace (a * y - a * x) with (a * (y - x)) in E by ring. apply prime_mult in E; [|exact P]. destruct E as [E|E]; [tauto|].
      pose proof (A x (or_introl eq_refl)). pose proof (A y (or_intror Y)). destruct E as [q E]. assert (q = 0) by nia. subst q. lia.
    - apply IH; [exact D2|]. intros y Y. apply A. right. exact Y. }
  assert (Pm : Permutation l (residues p)).
  { apply NoDup_Permutation_bis; [exact ND|unfold l; rewrite map_length; lia|].
    intros x X. unfold l in X. apply in_map_iff in X. destruct X as (i & <- & I). apply in_residues in I. apply in_residues.
    pose proof (Z.mod_pos_bound (a * i) p ltac:(lia)) as B. assert ((a * i) mod p <> 0); [|lia]. intros Z0. apply Z.mod_divide in Z0; [|lia].
    apply prime_mult in Z0; [|exact P]. destruct Z0 as [Z0|Z0]; [tauto|]. destruct Z0 as [q Z0]. assert (q = 0 \/ q >= 1 \/ q <= -1) as [?|[?|?]] by lia; nia. }
  pose proof (product_scaled a p (residues p) ltac:(lia)) as S. fold l in S. rewrite (product_perm _ _ Pm) in S.
  assert (L : zlen (residues p) = p - 1) by (unfold zlen, residues; rewrite map_length, seq_length; lia). rewrite L in S. symmetry in S. apply mod_div in S; [|lia].
  replace (a ^ (p - 1) * product (residues p) - product (residues p)) with ((a ^ (p - 1) - 1) * product (residues p)) in S by ring.
  apply prime_mult in S; [|exact P]. destruct S as [S|S]; [exact S|exfalso]. revert S. apply prime_not_divides_product; [exact P|].
  intros x X [q D]. apply in_residues in X. assert (q = 0 \/ q >= 1 \/ q <= -1) as [?|[?|?]] by lia; nia.
Qed.
(** an exponent one above a multiple of p-1 changes nothing *)
Lemma power_one a p f : prime p -> 0 < f -> (p - 1 | f - 1) -> (p | a ^ f - a).
Proof.
  intros P F [q D]. pose proof P as [P1 _]. destruct (Zdivide_dec p a) as [A|A].
  - apply Z.divide_sub_r; [|exact A]. replace f with (1 + (f - 1)) by lia. rewrite Z.pow_add_r by lia. apply Z.divide_mul_l. rewrite Z.pow_1_r. exact A.
  - assert (0 <= q) by nia. replace f with (1 + (p - 1) * q) by lia. rewrite Z.pow_add_r, Z.pow_mul_r, Z.pow_1_r by nia.
    replace (a * (a ^ (p - 1)) ^ q - a) with (a * ((a ^ (p - 1)) ^ q - 1)) by ring. apply Z.divide_mul_r.
    pose proof (fermat a p P A) as E. set (y := a ^ (p - 1)) in *. clearbody y.
    rewrite <- (Z.pow_1_l q) by lia. apply mod_div; [lia|]. apply mod_div in E; [|lia]. rewrite (Zpower_mod y), E, <- Zpower_mod by lia. reflexivity.
Qed.
Lemma product_divides x : forall ps, Forall prime ps -> NoDup ps -> (forall p, In p ps -> (p | x)) -> (product ps | x).
Proof.
  induction ps as [|p ps IH]; intros P N D; [apply Z.divide_1_l|]. inversion P as [|? ? P1 P2]; inversion N as [|? ? N1 N2]; subst.
  assert (R : rel_prime p (product ps)).
  { apply prime_rel_prime; [exact P1|]. apply prime_not_divides_product; [exact P1|]. intros q Q E. apply N1.
    replace p with q; [exact Q|]. rewrite Forall_forall in P2. symmetry. apply prime_div_prime; auto. }
  destruct (D p (or_introl eq_refl)) as [y Y]. subst x. unfold product. cbn [fold_right]. fold (product ps). rewrite Z.mul_comm. apply Z.mul_divide_mono_r.
  apply Gauss with p; [|apply rel_prime_sym, R]. rewrite Z.mul_comm. apply IH; auto. intros q Q. apply D. right. exact Q.
Qed.
Lemma rsa_inverse n e d ps x : rsa_numbers n e d ps -> 0 <= x < n -> ((x ^ e) ^ d) mod n = x.
Proof.
  intros [A B C I E F] X. rewrite <- Z.pow_mul_r by lia. rewrite <- (Z.mod_small x n) at 2 by lia. apply mod_div; [lia|]. rewrite C. apply product_divides; auto.
  intros p P. rewrite Forall_forall in A. apply power_one; auto. nia.
Qed.
