(** Properties of the flag methods of status and attribute words. *)
From Verif Require Import Base Bits Flags SpecFlags ProofFlags.

(** C137. After any sequence of setter calls every bit of a word is what the last
    call for its flag said, or as before if there was none, and every getter returns
    the bit its flag has in the protocol. *)
Theorem C137_flags w calls v : 0 <= v < 2 ^ bits_of w ->
  exists v', set_all w v calls = Ok v' /\ 0 <= v' < 2 ^ bits_of w /\ (forall i, 0 <= i -> Z.testbit v' i = said w i calls (Z.testbit v i)) /\
    forall f g, getter w f = Some g -> exists i, bit_no w f = Some i /\ g v' = Ok (said w i calls (Z.testbit v i)).
Proof. exact (flags_spec w calls v). Qed.
Print Assumptions C137_flags.
(** Which flags have a setter and a getter *)
Theorem C137_methods w f v : 0 <= v < 2 ^ bits_of w -> (setter w f <> None <-> settable w f = true) /\ (getter w f <> None <-> gettable w f = true).
Proof. exact (methods w f v). Qed.
Print Assumptions C137_methods.
Example C137_case : 0 <= 0xA5 < 2 ^ bits_of WArea /\ set_all WArea 0xA5 [(FSouth, true); (FExit, false); (FEnter, true); (FSouth, false); (FSouth, true); (FLock, true)] = Ok 0xCD /\
  area_south 0xCD = Ok true /\ area_west 0xCD = Ok true /\ said WArea 5 [(FSouth, true); (FExit, false)] true = false.
Proof. split; [cbn; lia|]. vm_compute. auto. Qed.
