(** Examples for the memory model. *)
From Verif Require Import Base Bits Env EntTerm EntPlat Registry Message Codec Memory SpecMemory Demo.

Definition answer_frame : bytes := [126; 0; 1; 0; 5; 0; 0; 0; 0; 0; 1; 0; 1; 0; 125; 1; 2; 0; 0; 123; 126].
(** Three frames arrive in pieces; the array is used in place, grows, and is shifted; the first message's bytes are overwritten in between. *)
Definition pieces : list mop :=
  [MReceive [(RData (firstn 10 answer_frame), Some 30%nat); (RData (skipn 10 answer_frame ++ firstn 5 answer_frame), None)];
   MWrite 0 2 77; MWrite 0 5 66; MWrite 0 99 1; MWrite 4 0 1;
   MReceive [(RData (skipn 5 answer_frame), None)];
   MReceive [(RData answer_frame, None)];
   MReceive [(RData (answer_frame ++ answer_frame), Some 0%nat)];
   MWrite 1 0 3;
   MReceive []; MReceive [(RFail ErrEOF, None)]].
Definition arrived : mconn := fst (mrun demo_env None minit pieces).
Definition in_hand : list bytes := map (fun p => view (mc_mem arrived) (snd p)) (mc_got arrived).
Lemma pieces_fit : reads_fit pieces.
Proof.
  assert (H : forallb (fun o => match o with MReceive evs => forallb (fun p => match fst p with RData d => (length d <=? 128)%nat | _ => true end) evs | _ => true end) pieces = true) by (vm_compute; reflexivity).
  intros evs d g I J. rewrite forallb_forall in H. specialize (H _ I). cbn in H. rewrite forallb_forall in H. specialize (H _ J). cbn [fst] in H. apply Nat.leb_le in H. exact H.
Qed.
Lemma in_hand_out : in_hand = [[0; 125; 77; 0; 0]; [3; 125; 2; 0; 0]; [0; 125; 2; 0; 0]; [0; 125; 2; 0; 0]; [0; 125; 2; 0; 0]].
Proof. vm_compute. reflexivity. Qed.
Definition answered : message := Message (Header 1 5 1 1 None) (BEnt (E0001 (T0001 125 512 0))).
Lemma pieces_out : snd (mrun demo_env None minit pieces) = repeat (GotMsg answered) 5 ++ [GotErr ErrEOF].
Proof. vm_compute. reflexivity. Qed.
