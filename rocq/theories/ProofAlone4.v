(** A connection notices nothing of the others. *)
From Verif Require Import Base LibBase LibBits Bits Bcd Env EntTerm EntPlat Registry Message Codec Timer Session Multipart Server Host.
From Verif Require Import SpecGeo SpecEntity SpecMsg SpecStream SpecSession SpecMulti SpecTimer SpecServer SpecHost SpecAlone.
From Verif Require Import LibBcd LibMulti ProofTimer ProofTimer2 ProofServer ProofHost ProofHost6 ProofHost7 ProofAlone ProofAlone2 ProofAlone3.

Lemma start_sim id P o prior sv : starts o prior sv -> sim id P (opt_auto o) sv sv.
Proof.
  intros (f & outs & _ & _ & N). unfold new_server in N.
  assert (E : exists ka, sv = Server (opt_auto o) [] (timer_new ka) f [] []).
  { destruct (opt_key o); [destruct (negb _); [discriminate|]|]; injection N as <-; eauto. }
  destruct E as (ka & ->). constructor; cbn; auto.
  eexists _, _, _. repeat (split; [first [apply tight_new|apply view_new|reflexivity]|]). reflexivity.
Qed.
Lemma taken_number env key o prior ops h tr id now m : hruns env key o prior ops h tr -> In (ODeliver id now m) (ops_of (inner tr)) -> 0 <= h_icc (m_hdr m).
Proof.
  intros R I. destruct (refinement _ _ _ _ _ _ _ R) as (_ & (sv & sv' & _ & L & _) & _). apply in_split in I. destruct I as (a & b & E). pose proof (L _ _ _ E) as (_ & X).
  unfold SpecServer.received in X. cbn in X. lia.
Qed.
Lemma alone_same env key o prior ops h tr id : hruns env key o prior ops h tr -> (opt_auto o = true -> different_numbers id tr) ->
  exists h' tr', hruns env key o prior (alone id ops) h' tr' /\ experience id tr' = experience id tr.
Proof.
  intros R SEP. pose proof R as (sv & ST & KO & L & E).
  set (P := fun r : bytes => exists icc, uploads_as tr id icc /\ r = format_uint icc).
  assert (OK : forall x, In x tr -> okops id P (opt_auto o) (snd x)).
  { intros x X op evs HI. destruct op as [| |i now m| | | | | | | |]; try exact I. pose proof (inner_in x _ tr X (served_in _ _ _ HI)) as IN.
    intros (AU & PK & (e & BE)). rewrite is_enable_packet_bit in PK.
    assert (U : uploads_as tr i (h_icc (m_hdr m))) by (exists now, m, e; auto).
    destruct (Z.eqb_spec i id) as [->|NE]; [exists (h_icc (m_hdr m)); auto|]. intros (icc & V & F). apply format_uint_inj in F.
    - apply (SEP AU i icc NE V). rewrite <- F. exact U.
    - eapply taken_number; eauto.
    - destruct V as (now' & m' & e' & I' & _ & _ & <-). eapply taken_number; eauto. }
  assert (HS : hsim id P (opt_auto o) (Host sv []) (Host sv [])) by (split; [eapply start_sim; eauto|split; auto]).
  destruct (run_sim id P (opt_auto o) env key ops _ _ _ _ HS OK E) as (k & tr' & A & B). exists k, tr'. split; auto. exists sv. split; auto. split; auto. split; auto. apply alone_legal; auto.
Qed.
Lemma starts_same o prior sv sv' : starts o prior sv -> starts o prior sv' -> sv = sv'.
Proof. intros (f & outs & _ & A & B) (f' & outs' & _ & A' & B'). congruence. Qed.
Lemma undisturbed env key o prior ops1 h1 tr1 ops2 h2 tr2 id : hruns env key o prior ops1 h1 tr1 -> hruns env key o prior ops2 h2 tr2 ->
  (opt_auto o = true -> different_numbers id tr1 /\ different_numbers id tr2) -> alone id ops1 = alone id ops2 -> experience id tr1 = experience id tr2.
Proof.
  intros R1 R2 SEP E. destruct (alone_same _ _ _ _ _ _ _ id R1 (fun a => proj1 (SEP a))) as (k1 & t1 & A1 & <-). destruct (alone_same _ _ _ _ _ _ _ id R2 (fun a => proj2 (SEP a))) as (k2 & t2 & A2 & <-).
  destruct A1 as (s1 & S1 & _ & _ & X1), A2 as (s2 & S2 & _ & _ & X2). rewrite (starts_same _ _ _ _ S1 S2), E in X1. assert (t1 = t2) as -> by congruence. reflexivity.
Qed.
