(** Messages of Session.Send: the key does not matter. *)
From Verif Require Import Base LibBase Bits Env Registry Message Codec Session PubKey SpecPubKey ProofPubKey ProofSession4.

Definition plain (m : message) : Prop := exists se e, m = fst (session_send se e).
Definition calm (s : kstate) : Prop := forall i, match k_at s i with KTest m _ => plain m | KUse _ _ => False | _ => True end.
Lemma plain_bit m : plain m -> is_enable_encrypt (h_prop (m_hdr m)) = false.
Proof. intros (se & e & ->). reflexivity. Qed.
Lemma plain_sent env m rnd : plain m -> (do (data, _) <- msg_encode env None rnd m ; Ok data) = codec_send env None 0 None m.
Proof.
  intros P. destruct P as (se & e & ->). rewrite <- (send_plain env None rnd None se e). unfold codec_send. destruct (msg_encode env None rnd _) as [[? ?]| |]; reflexivity.
Qed.
Lemma calm_go s i p : calm s -> match p with KTest m _ => plain m | KUse _ _ => False | _ => True end -> calm (k_go s i p).
Proof. intros C P j. destruct (Nat.eq_dec j i) as [->|N]; [rewrite go_same; exact P|rewrite (go_other s i j p N); apply C]. Qed.
Lemma calm_step env s o : calm s -> (forall j m rnd, o = KSend j m rnd -> plain m) -> calm (fst (kstep env s o)) /\ forall i m r, In (KWrote i m r) (snd (kstep env s o)) -> r = codec_send env None 0 None m.
Proof.
  intros C P. destruct o as [j pub|j m rnd|j]; cbn [kstep].
  - destruct (k_at s j); cbn [fst snd]; (split; [first [exact C|apply calm_go; [exact C|exact I]]|intros ? ? ? []]).
  - destruct (k_at s j); cbn [fst snd]; (split; [first [exact C|apply calm_go; [exact C|exact (P j m rnd eq_refl)]]|intros ? ? ? []]).
  - pose proof (C j) as Cj. destruct (k_at s j) as [|pub|m rnd|m rnd]; [split; [exact C|intros ? ? ? []]| | |destruct Cj].
    + split; [intros i; exact (calm_go s j KIdle C I i)|intros ? ? ? []].
    + rewrite (plain_bit m Cj). assert (G : calm (k_go s j KIdle)) by (apply calm_go; [exact C|exact I]).
      destruct (k_key s); cbn [fst snd]; (split; [exact G|]); intros i' m' r' [X|[]]; injection X as <- <- <-; apply plain_sent; exact Cj.
Qed.
Lemma calm_run env : forall ops s, calm s -> (forall j m rnd, In (KSend j m rnd) ops -> plain m) -> calm (fst (krun env s ops)) /\ forall i m r, In (KWrote i m r) (snd (krun env s ops)) -> r = codec_send env None 0 None m.
Proof.
  induction ops as [|o ops IH]; intros s C P; cbn [krun]; [split; [exact C|intros ? ? ? []]|].
  destruct (calm_step env s o C) as [C1 W1]; [intros j m rnd ->; apply (P j m rnd); left; reflexivity|]. destruct (kstep env s o) as [s1 e1].
  destruct (IH s1 C1) as [C2 W2]; [intros j m rnd J; apply (P j m rnd); right; exact J|]. destruct (krun env s1 ops) as [s2 e2]. split; [exact C2|].
  intros i m r J. cbn [snd] in J. apply in_app_or in J as [J|J]; [exact (W1 i m r J)|exact (W2 i m r J)].
Qed.
Lemma calm_init : calm kinit.
Proof. intros i. exact I. Qed.
Lemma session_key env ops s evs i m r : krun env kinit ops = (s, evs) -> (forall j m rnd, In (KSend j m rnd) ops -> exists se e, m = fst (session_send se e)) ->
  In (KWrote i m r) evs -> r = codec_send env None 0 None m.
Proof. intros R P J. destruct (calm_run env ops kinit calm_init P) as [_ W]. rewrite R in W. exact (W i m r J). Qed.
Lemma session_no_load env ops s evs i : krun env kinit ops = (s, evs) -> (forall j m rnd, In (KSend j m rnd) ops -> exists se e, m = fst (session_send se e)) -> ~ loads env s i.
Proof.
  intros R P (k & k' & D). destruct (calm_run env ops kinit calm_init P) as [C _]. rewrite R in C. cbn [fst] in C. specialize (C i). cbn [kstep k_at k_key] in D.
  destruct (k_at s i) as [|pub|m rnd|m rnd] eqn:A; [| | |destruct C].
  - cbn [fst snd k_at] in D. destruct D as [D|D]; apply D; reflexivity.
  - cbn [fst snd k_at k_go] in D. destruct D as [D|D]; apply D; reflexivity.
  - rewrite (plain_bit m C) in D. destruct k, k'; cbn [fst snd k_at k_go] in D; destruct D as [D|D]; apply D; reflexivity.
Qed.
