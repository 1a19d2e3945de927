(** A message is encoded with one key that was there during the call. *)
From Verif Require Import Base LibBase Bits Env Message Codec PubKey SpecPubKey.

Lemma go_same s i p : k_at (k_go s i p) i = p.
Proof. cbn [k_go k_at]. rewrite Nat.eqb_refl. reflexivity. Qed.
Lemma go_other s i j p : j <> i -> k_at (k_go s i p) j = k_at s j.
Proof. intros N. cbn [k_go k_at]. destruct (Nat.eqb_spec j i); congruence. Qed.
Lemma other_keeps env s o i : (match o with KPut j _ | KSend j _ _ | KMove j => j end) <> i -> k_at (fst (kstep env s o)) i = k_at s i /\ silent i (snd (kstep env s o)).
Proof.
  assert (G : forall s j p, j <> i -> k_at (k_go s j p) i = k_at s i) by (intros; apply go_other; congruence).
  assert (Q : silent i []) by (intros m r []).
  assert (W : forall j m r, j <> i -> silent i [KWrote j m r]) by (intros j m r N m' r' [X|[]]; injection X; congruence).
  intros N. destruct o as [j pub|j m rnd|j]; cbn [kstep]; destruct (k_at s j) eqn:A; cbn [fst snd]; auto.
  - split; [cbn [k_at]; apply G; exact N|exact Q].
  - destruct (k_key s); [destruct (is_enable_encrypt _)|]; cbn [fst snd]; auto.
Qed.
Definition as_one (env : Env) (ops : list kop) (s : kstate) (m : message) (rnd : Z) (r : res bytes) : Prop :=
  exists ops1 ops2, ops = ops1 ++ ops2 /\ r = codec_send env (k_key (fst (krun env s ops1))) rnd None m.
Lemma as_one_cons env o ops s m rnd r : as_one env ops (fst (kstep env s o)) m rnd r -> as_one env (o :: ops) s m rnd r.
Proof.
  intros (o1 & o2 & -> & E). exists (o :: o1), o2. split; [reflexivity|]. rewrite E. cbn [krun]. destruct (kstep env s o) as [s1 e1]. cbn [fst]. destruct (krun env s1 o1). reflexivity.
Qed.
Lemma here env ops s m rnd r : r = codec_send env (k_key s) rnd None m -> as_one env ops s m rnd r.
Proof. intros E. exists [], ops. auto. Qed.
Lemma silent_app i a b : silent i (a ++ b) -> silent i a /\ silent i b.
Proof. intros H. split; intros m r I; apply (H m r), in_or_app; auto. Qed.
Lemma first_of {e1 e2 e : list kevent} {x} : e1 ++ e2 = e ++ [x] -> (exists e', e1 = e ++ [x] /\ e2 = e') \/ (exists e', e = e1 ++ e' /\ e2 = e' ++ [x]).
Proof.
  destruct e2 as [|y l _] using rev_ind.
  - rewrite app_nil_r. intros ->. left. eauto.
  - rewrite app_assoc. intros H. apply app_inj_tail in H as [<- ->]. right. eauto.
Qed.
Lemma in_send env i m rnd : forall ops s e r, (k_at s i = KTest m rnd \/ k_at s i = KUse m rnd /\ is_enable_encrypt (h_prop (m_hdr m)) = true) -> silent i e ->
  snd (krun env s ops) = e ++ [KWrote i m r] -> as_one env ops s m rnd r.
Proof.
  induction ops as [|o ops IH]; intros s e r A Si E; cbn [krun] in E; [cbn in E; destruct e; discriminate|].
  destruct (kstep env s o) as [s1 e1] eqn:K. destruct (krun env s1 ops) as [s2 e2] eqn:R. cbn [snd] in E.
  assert (S1 : s1 = fst (kstep env s o)) by (rewrite K; reflexivity). assert (E1 : e1 = snd (kstep env s o)) by (rewrite K; reflexivity).
  assert (G : (k_at s1 i = KTest m rnd \/ k_at s1 i = KUse m rnd /\ is_enable_encrypt (h_prop (m_hdr m)) = true) -> silent i e1 -> as_one env (o :: ops) s m rnd r).
  { intros A1 Q. apply as_one_cons. rewrite <- S1. destruct (first_of E) as [(e' & X & _)|(e' & -> & X)].
    - exfalso. apply (Q m r). rewrite X. apply in_or_app. right. left. reflexivity.
    - apply (IH s1 e' r A1); [apply (silent_app i e1 e' Si)|]. rewrite R. exact X. }
  destruct (Nat.eq_dec (match o with KPut j _ | KSend j _ _ | KMove j => j end) i) as [O|O].
  - destruct o as [j pub|j m' rnd'|j]; cbn in O; subst j; cbn [kstep] in K.
    + destruct A as [A|[A B]]; rewrite A in K; injection K as <- <-; (apply G; [auto|intros ? ? []]).
    + destruct A as [A|[A B]]; rewrite A in K; injection K as <- <-; (apply G; [auto|intros ? ? []]).
    + assert (D : forall x, e1 = [KWrote i m x] -> r = x).
      { intros x ->. destruct (first_of E) as [(e' & X & _)|(e' & -> & _)].
        - destruct e as [|y e]; [injection X; auto|destruct e; discriminate].
        - exfalso. apply (Si m x). left. reflexivity. }
      destruct A as [A|[A B]]; rewrite A in K.
      * destruct (k_key s) as [k|] eqn:Kk; [destruct (is_enable_encrypt (h_prop (m_hdr m))) eqn:B|].
        -- injection K as <- <-. apply G; [right; split; [apply go_same|reflexivity]|intros ? ? []].
        -- injection K as <- <-. apply here. rewrite (D _ eq_refl), Kk. unfold codec_send. rewrite B. destruct (msg_encode env None rnd m) as [[? ?]| |]; reflexivity.
        -- injection K as <- <-. apply here. rewrite (D _ eq_refl), Kk. unfold codec_send. destruct (msg_encode env None rnd m) as [[? ?]| |]; reflexivity.
      * injection K as <- <-. apply here. rewrite (D _ eq_refl). unfold codec_send. rewrite B. destruct (k_key s); destruct (msg_encode env _ rnd m) as [[? ?]| |]; reflexivity.
  - destruct (other_keeps env s o i O) as [P Q]. rewrite <- S1 in P. rewrite <- E1 in Q. apply G; [rewrite P; exact A|exact Q].
Qed.
Lemma one_key env s i m rnd ops e r : k_at s i = KIdle -> silent i e -> snd (krun env s (KSend i m rnd :: ops)) = e ++ [KWrote i m r] ->
  exists ops1 ops2, ops = ops1 ++ ops2 /\ r = codec_send env (k_key (fst (krun env s (KSend i m rnd :: ops1)))) rnd None m.
Proof.
  intros A Si E. cbn [krun kstep] in *. rewrite A in *. destruct (krun env (k_go s i (KTest m rnd)) ops) as [s2 e2] eqn:R. cbn [snd app] in E.
  destruct (in_send env i m rnd ops (k_go s i (KTest m rnd)) e r) as (o1 & o2 & -> & Q); [left; apply go_same|exact Si|rewrite R; exact E|].
  exists o1, o2. split; [reflexivity|]. destruct (krun env (k_go s i (KTest m rnd)) o1). exact Q.
Qed.
