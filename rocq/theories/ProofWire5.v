(** Frames consist of bytes. *)
From Verif Require Import Base LibBase Bits Bcd LibBcd Env EntTerm EntPlat Registry Message SpecFrame SpecGeo SpecEntity SpecMsg ProofFrame ProofHeader ProofMsg ProofMsg2 ProofStream2.

Lemma escaped_bytes p w : escaped p w -> bytes_ok p -> bytes_ok w.
Proof.
  induction 1; intros B; [constructor|..]; apply bytes_ok_cons in B as [B1 B2]; repeat (apply bytes_ok_cons; split); auto; unfold is_byte; lia.
Qed.
Lemma frame_bytes env key rnd m e data m' : m_body m = BEnt e -> wf env e -> 0 <= h_icc (m_hdr m) -> (forall pub, key = Some pub -> exists priv, rsa_pair env pub priv) ->
  msg_encode env key rnd m = Ok (data, m') -> bytes_ok data.
Proof.
  intros Hb W F K E. apply msg_encode_inv in E. destruct E as (bdy & h0 & b' & id & prop & hb & h2 & E1 & E2 & E3 & E4 & -> & Fr).
  unfold enc_body in E1. rewrite Hb in E1. destruct (encode env e) as [raw|x|] eqn:Er; [|discriminate E1|discriminate E1]. cbn [bind] in E1.
  pose proof (encode_bytes env e raw W Er) as Br.
  assert (Bb : bytes_ok bdy /\ h_icc h0 = h_icc (m_hdr m)).
  { destruct key as [pub|].
    - destruct (K pub eq_refl) as (priv & P). destruct (encryption env pub priv rnd raw P Br) as (ct & C1 & C2 & _). rewrite C1 in E1. cbn [bind] in E1. injection E1 as <- <- <-. split; [exact C2|reflexivity].
    - injection E1 as <- <- <-. auto. }
  destruct Bb as [Bb Hi]. destruct (hdr_encode_bytes _ _ _ E4) as [_ ->].
  assert (Bh : bytes_ok (w_u16 (h_id (set_prop (set_id h0 id) prop)) ++ w_u16 (h_prop h2) ++ string_to_bcd_n (format_uint (h_icc (set_prop (set_id h0 id) prop))) 6 ++ w_u16 (h_serial (set_prop (set_id h0 id) prop)) ++
       match h_packet (set_prop (set_id h0 id) prop) with Some (a, b) => w_u16 a ++ w_u16 b | None => [] end)).
  { repeat (apply bytes_ok_app; split); try apply bytes_ok_w_u16.
    - apply icc_bytes. cbn [set_prop set_id h_icc]. rewrite Hi. lia.
    - destruct (h_packet _) as [[a b]|]; [|constructor]. apply bytes_ok_app. split; apply bytes_ok_w_u16. }
  destruct Fr as (w & v & Ew & Ev & ->). assert (Bp : bytes_ok ((w_u16 (h_id (set_prop (set_id h0 id) prop)) ++ w_u16 (h_prop h2) ++ string_to_bcd_n (format_uint (h_icc (set_prop (set_id h0 id) prop))) 6 ++ w_u16 (h_serial (set_prop (set_id h0 id) prop)) ++
       match h_packet (set_prop (set_id h0 id) prop) with Some (a, b) => w_u16 a ++ w_u16 b | None => [] end) ++ bdy)) by (apply bytes_ok_app; split; assumption).
  pose proof (escaped_bytes _ _ Ew Bp) as Bw. pose proof (escaped_bytes _ _ Ev) as Bv. specialize (Bv ltac:(apply bytes_ok_cons; split; [apply xor_byte, Bp|constructor])).
  repeat (apply bytes_ok_app; split); auto; repeat constructor; unfold is_byte; lia.
Qed.
