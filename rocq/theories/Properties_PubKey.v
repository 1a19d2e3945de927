(** The public key of a connection: C178, C179. *)
From Verif Require Import Base LibBase Bits Env EntTerm EntPlat Registry Message Codec Session PubKey SpecPubKey ProofPubKey ProofPubKey2 Demo DemoLocks.

(** C178 does not hold: the key can be stored and loaded at the same time. *)
Theorem C178_guarded_refuted : exists env ops s evs i j, krun env kinit ops = (s, evs) /\ i <> j /\ stores env s i /\ loads env s j.
Proof. exact raced. Qed.
Print Assumptions C178_guarded_refuted.

(** C179. Nevertheless a message is encoded with one key, which was there at some moment of the call, ... *)
Theorem C179_one_key env s i m rnd ops e r : k_at s i = KIdle -> silent i e -> snd (krun env s (KSend i m rnd :: ops)) = e ++ [KWrote i m r] ->
  exists ops1 ops2, ops = ops1 ++ ops2 /\ r = codec_send env (k_key (fst (krun env s (KSend i m rnd :: ops1)))) rnd None m.
Proof. exact (one_key env s i m rnd ops e r). Qed.
Print Assumptions C179_one_key.
(** ... and a message of Session.Send the same way whatever is stored meanwhile, nor does its goroutine ever depend on the key. *)
Theorem C179_session env ops s evs i m r : krun env kinit ops = (s, evs) -> (forall j m rnd, In (KSend j m rnd) ops -> exists se e, m = fst (session_send se e)) ->
  In (KWrote i m r) evs -> r = codec_send env None 0 None m.
Proof. exact (session_key env ops s evs i m r). Qed.
Print Assumptions C179_session.
Theorem C179_no_load env ops s evs i : krun env kinit ops = (s, evs) -> (forall j m rnd, In (KSend j m rnd) ops -> exists se e, m = fst (session_send se e)) -> ~ loads env s i.
Proof. exact (session_no_load env ops s evs i). Qed.
Print Assumptions C179_no_load.
Example C179_case : snd (krun demo_env (Kst (Some 5) (fun _ => KIdle)) (KSend 0 asking 7 :: [KMove 0; KPut 1 None; KMove 1; KMove 0])) = [KWrote 0 asking (codec_send demo_env None 7 None asking)] /\
  codec_send demo_env None 7 None asking <> codec_send demo_env (Some 5) 7 None asking.
Proof. exact switch_out. Qed.
Example C179_case_session : snd (krun demo_env kinit [KPut 1 (Some 5); KMove 1; KSend 0 (fst (session_send (Session 255 1 []) (E0001 (T0001 125 512 0)))) 7; KPut 1 (Some 6); KMove 0]) =
  [KWrote 0 (fst (session_send (Session 255 1 []) (E0001 (T0001 125 512 0)))) (Ok [126; 0; 1; 0; 5; 0; 0; 0; 0; 0; 1; 0; 1; 0; 125; 1; 2; 0; 0; 123; 126])].
Proof. vm_compute. reflexivity. Qed.
