(** Which bodies are refused for their length. *)
From Verif Require Import Base LibBase Bits Bcd GoTime Decimal Env EntTerm EntPlat Registry SpecShort.

(** never refuses for the length *)
Definition nv {A} (p : R A) : Prop := forall d, p d <> Err PErrInvalidBody.
Definition nvr {A} (r : res A) : Prop := r <> Err PErrInvalidBody.
Lemma nv_ret {A} (a : A) : nv (rret a). Proof. intros d. discriminate. Qed.
Lemma nv_len : nv r_len. Proof. intros d. discriminate. Qed.
Lemma nv_all : nv r_all. Proof. intros d. discriminate. Qed.
Lemma nv_byte : nv r_byte. Proof. intros [|? ?]; discriminate. Qed.
Lemma nv_u16 : nv r_u16. Proof. intros [|? [|? ?]]; discriminate. Qed.
Lemma nv_u32 : nv r_u32. Proof. intros [|? [|? [|? [|? ?]]]]; discriminate. Qed.
Lemma nv_bytes n : nv (r_bytes n). Proof. intros d. unfold r_bytes. destruct (_ <? _); [discriminate|]. destruct (_ <? _); discriminate. Qed.
Lemma nv_bind {A B} (p : R A) (k : A -> R B) : nv p -> (forall a, nv (k a)) -> nv (rbind p k).
Proof. intros P K d. unfold rbind. specialize (P d). destruct (p d) as [[a d']|e|]; [apply K|congruence|discriminate]. Qed.
Lemma nv_lift {A} (r : res A) : nvr r -> nv (rlift r).
Proof. intros H d. unfold rlift, nvr in *. destruct r; congruence. Qed.
Lemma nvr_bind {A B} (r : res A) (k : A -> res B) : nvr r -> (forall a, nvr (k a)) -> nvr (bind r k).
Proof. intros H K. unfold bind, nvr in *. destruct r; [apply K|congruence|discriminate]. Qed.
Lemma nvr_ok {A} (a : A) : nvr (Ok a). Proof. discriminate. Qed.
Lemma nv_list {A} (p : R A) n : nv p -> nv (r_list n p).
Proof. intros P. induction n; cbn [r_list]; [apply nv_ret|]. apply nv_bind; [exact P|]. intros a. apply nv_bind; [exact IHn|]. intros. apply nv_ret. Qed.
Lemma nv_until {A} (p : R A) : nv p -> forall n, nv (r_until_empty n p).
Proof.
  intros P. induction n; intros [|x d]; cbn [r_until_empty]; try discriminate.
  assert (nv (rd x <- p; rd xs <- r_until_empty n p; rret (x :: xs))) as H; [|exact (H (x :: d))].
  apply nv_bind; [exact P|]. intros a. apply nv_bind; [exact IHn|]. intros. apply nv_ret.
Qed.
Lemma nv_28 {B} (k : bytes -> R B) : (forall b, zlen b = 28 -> nv (k b)) -> nv (rbind (r_bytes 28) k).
Proof.
  intros K d. unfold rbind, r_bytes. destruct (Z.ltb_spec (zlen d) 28); [discriminate|]. destruct (Z.ltb_spec 28 0); [lia|]. apply K.
  unfold zlen in *. rewrite firstn_length. lia.
Qed.
Lemma nv_geo a b c e : nvr (get_geo_point a b c e).
Proof.
  assert (D : forall x y, nvr (ddiv x y)) by (intros x y; unfold ddiv, nvr; cbv zeta; destruct (dcoef y =? 0); [discriminate|]; destruct (dlt _ _); [discriminate|]; destruct (_ <? 0); discriminate).
  unfold get_geo_point, geo_coord. repeat (apply nvr_bind; [|intros]); try apply nvr_ok; apply D.
Qed.
Lemma nv_parse z s : nvr (parse_datetime z s).
Proof. unfold parse_datetime. repeat match goal with |- nvr (if ?x then _ else _) => destruct x | |- nvr (match ?x with _ => _ end) => destruct x | |- nvr (let _ := _ in _) => cbv zeta end; discriminate. Qed.
Lemma nv_time env : nv (r_time env).
Proof. unfold r_time. apply nv_bind; [apply nv_bytes|]. intros b. apply nv_lift. unfold from_bcd_time. destruct (negb _); [discriminate|]. apply nv_parse. Qed.
Lemma nv_text env d : nvr (text_of env d).
Proof. unfold text_of. destruct (gb_dec env d) as [t []]; discriminate. Qed.
Lemma nv_str_n env n : nv (r_str_n env n). Proof. unfold r_str_n. apply nv_bind; [apply nv_bytes|]. intros. apply nv_lift, nv_text. Qed.
Lemma nv_str env : nv (r_str env). Proof. unfold r_str. apply nv_bind; [apply nv_all|]. intros. apply nv_lift, nv_text. Qed.
Lemma nv_str_opt env : nv (r_str_opt env).
Proof. unfold r_str_opt. apply nv_bind; [apply nv_len|]. intros n. destruct (0 <? n); [apply nv_str|apply nv_ret]. Qed.
Lemma nv_extra_decode t d : nvr (extra_decode t d).
Proof.
  unfold extra_decode. repeat match goal with |- nvr (if ?x then _ else _) => destruct x end; try discriminate;
    unfold dec_x32, dec_x16, dec_x8, dec_x11, dec_x12, dec_x13; repeat match goal with |- nvr (match ?x with _ => _ end) => destruct x | |- nvr (if ?x then _ else _) => destruct x end; discriminate.
Qed.
Lemma nv_extras n : forall d, nvr (dec_extras n d).
Proof.
  induction n; intros d; cbn [dec_extras]; [discriminate|]. destruct d as [|i [|l r]]; try discriminate. destruct (_ <? _); [discriminate|]. cbv zeta.
  pose proof (nv_extra_decode i (firstn (Z.to_nat l) r)) as N. destruct (extra_decode i _) as [[v c]|e|]; [..|discriminate].
  - destruct (negb _); [discriminate|]. apply nvr_bind; [apply IHn|]. intros. apply nvr_ok.
  - unfold nvr in N. destruct e; first [apply IHn|intros E; congruence].
Qed.
Lemma nv_can b : nvr (can_time b). Proof. unfold can_time. cbv zeta. destruct (negb _); discriminate. Qed.
Lemma nv_gz l : nvr (gz_loop l).
Proof. induction l as [|[c s] l IH]; cbn [gz_loop]; [discriminate|]. destruct s; try discriminate. apply nvr_bind; [exact IH|]. intros. apply nvr_ok. Qed.
Lemma nv_fixed env : nv (r_0200_fixed env).
Proof. unfold r_0200_fixed. repeat (apply nv_bind; [first [apply nv_u32|apply nv_u16|apply nv_time|apply nv_lift, nv_geo]|intros a; try destruct a]); apply nv_ret. Qed.
Lemma short_0200 env d : dec_0200 env d = Err PErrInvalidBody <-> zlen d < 28.
Proof.
  unfold dec_0200. destruct (Z.ltb_spec (zlen d) 28) as [L|L]; [tauto|]. split; [|lia]. intros H. exfalso. pose proof (nv_fixed env d) as F.
  destruct (r_0200_fixed env d) as [[e r]|e|]; [|congruence|discriminate]. revert H. apply nvr_bind; [apply nv_extras|]. intros. apply nvr_ok.
Qed.
Lemma nv_0200_of env b : zlen b = 28 -> nv (r_0200_of env b).
Proof. intros L. apply nv_lift. apply nvr_bind; [|intros [? ?]; apply nvr_ok]. intros H. apply short_0200 in H. lia. Qed.

Ltac nvs :=
  repeat first
    [ apply nv_ret | apply nv_len | apply nv_all | apply nv_byte | apply nv_u16 | apply nv_u32 | apply nv_time | apply nv_str_n | apply nv_str | apply nv_str_opt
    | apply nv_28; intros ? ? | apply nv_bytes | apply nv_0200_of; assumption
    | apply nv_bind; [|let a := fresh in intros a; try (is_var a; destruct a as [? ?])]
    | apply nv_list | apply nv_until | apply nv_lift | apply nv_geo | apply nv_parse | apply nv_can
    | match goal with
      | |- nv (if ?b then _ else _) => destruct b
      | |- nvr (match gz_dec ?e ?z with _ => _ end) => destruct (gz_dec e z); [apply nv_gz|discriminate]
      | |- nv ?p => let h := eval hnf in p in fail 1
      end ].
Lemma short_count {A} (p : R A) n d : nv p -> ((if zlen d <? n then Err PErrInvalidBody else run_count p d) = Err PErrInvalidBody <-> zlen d < n).
Proof. intros P. destruct (Z.ltb_spec (zlen d) n); [tauto|]. split; [|lia]. unfold run_count. specialize (P d). destruct (p d) as [[a r]|e|]; intros H'; [discriminate|congruence|discriminate]. Qed.
Lemma short_count_le {A} (p : R A) n d : nv p -> ((if zlen d <=? n then Err PErrInvalidBody else run_count p d) = Err PErrInvalidBody <-> zlen d < n + 1).
Proof. intros P. destruct (Z.leb_spec (zlen d) n); [split; [lia|reflexivity]|]. split; [|lia]. unfold run_count. specialize (P d). destruct (p d) as [[a r]|e|]; intros H'; [discriminate|congruence|discriminate]. Qed.
Lemma short_count_eq {A} (p : R A) d : nv p -> ((if zlen d =? 0 then Err PErrInvalidBody else run_count p d) = Err PErrInvalidBody <-> zlen d < 1).
Proof. intros P. pose proof (zlen_nonneg d). destruct (Z.eqb_spec (zlen d) 0); [split; [lia|reflexivity]|]. split; [|lia]. unfold run_count. specialize (P d). destruct (p d) as [[a r]|e|]; intros H'; [discriminate|congruence|discriminate]. Qed.
Lemma omap_inv {A} (f : A -> entity) r : omap f r = Err PErrInvalidBody <-> r = Err PErrInvalidBody.
Proof. unfold omap, bind. destruct r as [[a n]|e|]; split; intros H; congruence. Qed.
Lemma short_match {A} (d : bytes) (f : Z -> bytes -> res A) : (forall a t, nvr (f a t)) -> (match d with [] => Err PErrInvalidBody | a :: t => f a t end = Err PErrInvalidBody <-> zlen d < 1).
Proof. intros F. destruct d as [|a t]; [rewrite zlen_nil; split; [lia|reflexivity]|]. rewrite zlen_cons. pose proof (zlen_nonneg t). split; [intros E; exfalso; exact (F a t E)|lia]. Qed.

Lemma short_0201 env d : dec_0201 env d = Err PErrInvalidBody <-> zlen d < 30.
Proof.
  unfold dec_0201. destruct (Z.leb_spec (zlen d) 3); [split; [lia|reflexivity]|]. destruct d as [|a [|b d]]; try (cbn in *; lia).
  cbn [r_u16]. rewrite !zlen_cons. pose proof (short_0200 env d) as S. destruct (dec_0200 env d) as [[l n]|e|]; cbn [bind] in *; destruct S as [S1 S2]; split; intros E; try discriminate; try (specialize (S2 ltac:(lia)); discriminate).
  - injection E as ->. specialize (S1 eq_refl). lia.
  - specialize (S2 ltac:(lia)). injection S2 as ->. reflexivity.
Qed.
Lemma short_0801 env d : (do x <- dec_0801_packet env d ; Ok (E0801 x, zlen d)) = Err PErrInvalidBody <-> zlen d < 36.
Proof.
  unfold dec_0801_packet. assert (S : dec_0801 env d = Err PErrInvalidBody <-> zlen d < 36) by (apply short_count; unfold r_0800; nvs).
  destruct (dec_0801 env d) as [[e n]|e|]; cbn [bind].
  - destruct S as [S1 S2]. split; [destruct (_ || _); discriminate|]. intros L. discriminate (S2 L).
  - rewrite <- S. split; congruence.
  - destruct S as [S1 S2]. split; [discriminate|]. intros L. discriminate (S2 L).
Qed.
Lemma short_two {A} (d : bytes) (f : Z -> Z -> res A) : (forall a b, nvr (f a b)) -> (match d with a :: b :: _ => f a b | _ => Err PErrInvalidBody end = Err PErrInvalidBody <-> zlen d < 2).
Proof. intros F. destruct d as [|a [|b t]]; rewrite ?zlen_cons, ?zlen_nil; try (split; [lia|reflexivity]). pose proof (zlen_nonneg t). split; [intros E; exfalso; exact (F a b E)|lia]. Qed.
Lemma short_text env d : dec_text env d = Err PErrInvalidBody <-> zlen d < 1.
Proof.
  unfold dec_text. apply (short_match d (fun f body => match r_str_opt env body with Ok (s, rest) => Ok (TText f s, zlen d - zlen rest - 1) | Err e => Err e | Panic => Panic end)).
  intros a t. pose proof (nv_str_opt env t) as N. destruct (r_str_opt env t) as [[s r]|e|]; unfold nvr in *; congruence.
Qed.
Lemma short_ids d : dec_ids d = Err PErrInvalidBody <-> zlen d < 1.
Proof.
  unfold dec_ids. apply (short_match d (fun n body => match r_list (Z.to_nat n) r_u32 body with Ok (s, rest) => Ok (TIds s, zlen d - zlen rest - 1) | Err e => Err e | Panic => Panic end)).
  intros a t. pose proof (nv_list r_u32 (Z.to_nat a) nv_u32 t) as N. destruct (r_list _ _ t) as [[s r]|e|]; unfold nvr in *; congruence.
Qed.
Lemma short_data d : dec_data d = Err PErrInvalidBody <-> zlen d < 1.
Proof. unfold dec_data. apply (short_match d (fun a t => Ok (TData a t, zlen d))). intros. apply nvr_ok. Qed.
Lemma short_empty d : dec_empty d = Err PErrInvalidBody <-> zlen d < 0.
Proof. pose proof (zlen_nonneg d). split; [discriminate|lia]. Qed.

Lemma short_0108 d : dec_0108 d = Err PErrInvalidBody <-> zlen d < 2.
Proof. apply (short_two d (fun a b => Ok (T0108 a b, 2))). intros. apply nvr_ok. Qed.
Lemma short_0303 d : dec_0303 d = Err PErrInvalidBody <-> zlen d < 2.
Proof. apply (short_two d (fun a b => Ok (T0303 a b, 1))). intros. apply nvr_ok. Qed.
Lemma short_0301 d : dec_0301 d = Err PErrInvalidBody <-> zlen d < 1.
Proof. apply (short_match d (fun a _ => Ok (T0301 a, 1))). intros. apply nvr_ok. Qed.
Lemma short_8500 d : dec_8500 d = Err PErrInvalidBody <-> zlen d < 1.
Proof. apply (short_match d (fun a _ => Ok (T8500 a, 1))). intros. apply nvr_ok. Qed.
Ltac nvs2 := unfold r_limits_if, r_limits, r_two16, r_speed; nvs.
Lemma nv_limits env b : nv (r_limits_if env b). Proof. nvs2. Qed.
Lemma nv_two16 b : nv (r_two16 b). Proof. nvs2. Qed.
Lemma nv_speed b : nv (r_speed b). Proof. nvs2. Qed.
Lemma short_iff env typ d : In typ registered -> typ <> 0x0704 -> (decode env typ d = Err PErrInvalidBody <-> zlen d < fewest typ).
Proof.
  intros I N. unfold registered in I. repeat (destruct I as [<-|I]; [|]); try contradiction; try congruence; clear N; unfold decode; cbn [Z.eqb Pos.eqb fewest];
    rewrite ?omap_inv;
    first [ apply short_empty | apply short_0200 | apply short_0201 | apply short_0801 | apply short_text | apply short_ids | apply short_data | apply short_0108 | apply short_0303 | apply short_0301 | apply short_8500
          | apply short_count; nvs | apply (short_count_le _ 3); nvs | apply short_count_eq; nvs | idtac ];
    first [apply nv_limits|apply nv_two16|apply nv_speed].
Qed.
Lemma batch_first n d items : batch (S n) d items -> exists a b i d' r, d = a :: b :: i ++ d' /\ zlen i = a * 256 + b /\ items = i :: r /\ batch n d' r.
Proof. intros H. inversion H; subst. repeat eexists; eauto. Qed.
Lemma r_0704_step env d : r_0704_item env d =
  match d with
  | a :: b :: r => if zlen r <? a * 256 + b then Err ErrUnexpectedEOF else if a * 256 + b <? 0 then Panic else
      match dec_0200 env (firstn (Z.to_nat (a * 256 + b)) r) with Ok (e, _) => Ok (e, skipn (Z.to_nat (a * 256 + b)) r) | Err e => Err e | Panic => Panic end
  | _ => Err ErrUnexpectedEOF
  end.
Proof.
  unfold r_0704_item, rbind, r_u16, r_bytes, r_0200_of, rlift, be16. destruct d as [|a [|b r]]; try reflexivity. destruct (_ <? _); [reflexivity|]. destruct (_ <? 0); [reflexivity|].
  destruct (dec_0200 env _) as [[e n]|e|]; reflexivity.
Qed.
Lemma short_batch env n : forall d, r_list n (r_0704_item env) d = Err PErrInvalidBody <->
  exists items item, (length items < n)%nat /\ batch (S (length items)) d (items ++ [item]) /\ Forall (fun i => exists p k, dec_0200 env i = Ok (p, k)) items /\ zlen item < 28.
Proof.
  induction n as [|n IH]; intros d; cbn [r_list].
  - split; [discriminate|]. intros (items & item & L & _). lia.
  - unfold rbind at 1. rewrite r_0704_step. destruct d as [|a [|b r]].
    1,2: split; [discriminate|]; intros (items & item & _ & B & _); apply batch_first in B as (x & y & i & d' & t & E & _); discriminate E.
    set (k := a * 256 + b). destruct (Z.ltb_spec (zlen r) k) as [L|L].
    { split; [discriminate|]. intros (items & item & _ & B & _). apply batch_first in B as (x & y & i & d' & t & E & Z & _). injection E as -> -> ->. rewrite zlen_app in L. pose proof (zlen_nonneg d'). subst k. lia. }
    destruct (Z.ltb_spec k 0) as [L0|L0].
    { split; [discriminate|]. intros (items & item & _ & B & _). apply batch_first in B as (x & y & i & d' & t & E & Z & _). injection E as -> -> ->. pose proof (zlen_nonneg i). subst k. lia. }
    set (i := firstn (Z.to_nat k) r). set (d' := skipn (Z.to_nat k) r).
    assert (Er : r = i ++ d') by (symmetry; apply firstn_skipn). assert (Li : zlen i = a * 256 + b) by (unfold i, zlen in *; rewrite firstn_length; lia).
    assert (V : forall m items, batch (S m) (a :: b :: r) items <-> exists t, items = i :: t /\ batch m d' t).
    { intros m items. split.
      - intros B. apply batch_first in B as (x & y & i' & d2 & t & E & Z & -> & B). injection E as <- <- E. rewrite Er in E.
        assert (i = i') by (apply (f_equal (firstn (Z.to_nat (a * 256 + b)))) in E; unfold zlen in *; rewrite !firstn_app in E; replace (Z.to_nat (a * 256 + b)) with (length i) in E at 1 2 by lia;
          rewrite firstn_all, Nat.sub_diag, firstn_O, app_nil_r in E; replace (Z.to_nat (a * 256 + b)) with (length i') in E by lia; rewrite firstn_all, Nat.sub_diag, firstn_O, app_nil_r in E; exact E).
        subst i'. apply app_inv_head in E. subst d2. eauto.
      - intros (t & -> & B). rewrite Er. constructor; auto. }
    clearbody i d'. pose proof (short_0200 env i) as S0. destruct (dec_0200 env i) as [[p c]|e|] eqn:D.
    + assert (Lo : ~ zlen i < 28) by (intros X; apply S0 in X; discriminate). unfold rbind. specialize (IH d'). split.
      * intros H. assert (H' : r_list n (r_0704_item env) d' = Err PErrInvalidBody) by (destruct (r_list n (r_0704_item env) d') as [[xs r']|e|]; [discriminate|congruence|discriminate]).
        apply IH in H'. destruct H' as (items & item & Ln & B & F & Sh). exists (i :: items), item. cbn [length app]. split; [lia|]. split; [apply V; eauto|]. split; [constructor; eauto|exact Sh].
      * intros (items & item & Ln & B & F & Sh). apply V in B as (t & E & B). destruct items as [|i' items]; cbn [app length] in *; injection E as -> <-; [contradiction|].
        inversion F; subst. rewrite (proj2 IH); [reflexivity|]. exists items, item. split; [lia|]. auto.
    + split.
      * intros H. injection H as ->. exists [], i. cbn [length app]. split; [lia|]. split; [apply V; exists []; split; [reflexivity|constructor]|]. split; [constructor|]. apply S0. reflexivity.
      * intros (items & item & Ln & B & F & Sh). apply V in B as (t & E & B). destruct items as [|i' items]; cbn [app length] in *; injection E as -> <-.
        -- apply S0 in Sh. congruence.
        -- inversion F as [|? ? (p & c & D') _]; subst. congruence.
    + split; [discriminate|]. intros (items & item & Ln & B & F & Sh). apply V in B as (t & E & B). destruct items as [|i' items]; cbn [app length] in *; injection E as -> <-.
      * apply S0 in Sh. discriminate.
      * inversion F as [|? ? (p & c & D') _]; subst. congruence.
Qed.
Lemma short_0704 env d : decode env 0x0704 d = Err PErrInvalidBody <->
  zlen d < 3 \/ exists hi lo typ rest items item, d = hi :: lo :: typ :: rest /\ zlen items < hi * 256 + lo /\ batch (S (length items)) rest (items ++ [item]) /\
    Forall (fun i => exists p k, decode env 0x0200 i = Ok (p, k)) items /\ zlen item < 28.
Proof.
  assert (C : forall items, Forall (fun i => exists p k, decode env 0x0200 i = Ok (p, k)) items <-> Forall (fun i => exists p k, dec_0200 env i = Ok (p, k)) items).
  { intros items. rewrite !Forall_forall. split; intros H i I; destruct (H i I) as (p & k & E); unfold decode in *; cbn [Z.eqb Pos.eqb] in *.
    - destruct (dec_0200 env i) as [[q m]|e|]; [eauto|discriminate E|discriminate E].
    - rewrite E. cbn. eauto. }
  unfold decode. cbn [Z.eqb Pos.eqb]. rewrite omap_inv. unfold dec_0704. destruct (Z.ltb_spec (zlen d) 3) as [L|L]; [tauto|].
  destruct d as [|hi [|lo [|typ rest]]]; try (cbn in L; lia). unfold run_count, rbind at 1, r_u16. unfold rbind at 1, r_byte. unfold rbind at 1, be16.
  pose proof (short_batch env (Z.to_nat (hi * 256 + lo)) rest) as B. split.
  - intros H. right. assert (H' : r_list (Z.to_nat (hi * 256 + lo)) (r_0704_item env) rest = Err PErrInvalidBody) by (destruct (r_list _ _ rest) as [[xs r']|e|]; [discriminate|congruence|discriminate]).
    apply B in H'. destruct H' as (items & item & Ln & Bt & F & Sh). exists hi, lo, typ, rest, items, item. split; [reflexivity|]. split; [unfold zlen; lia|]. split; [exact Bt|]. split; [apply C, F|exact Sh].
  - intros [H|(h & l & t & r & items & item & E & Ln & Bt & F & Sh)]; [lia|]. injection E as <- <- <- <-. rewrite (proj2 B); [reflexivity|]. exists items, item. apply C in F. unfold zlen in Ln. repeat split; auto. lia.
Qed.
