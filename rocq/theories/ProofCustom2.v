(** Registered types: what goes wrong. *)
From Verif Require Import Base LibBase Env EntTerm EntPlat Registry Message Custom SpecCustom Demo DemoCustom.

(** 0x0001 from terminal 13800138000 *)
Definition answer_frame : bytes := match am_encode (C := own_types) demo_env None 0 (AMessage (own_hdr 1) (Some (AEnt (E0001 (T0001 7 2 0))))) with Ok (d, _) => d | _ => [] end.
(** 0x0F00 from the same *)
Definition own_frame : bytes := match am_encode (C := own_types) demo_env None 0 (AMessage (own_hdr 1) (Some (ACus (C := own_types) (true, [1; 126])))) with Ok (d, _) => d | _ => [] end.
Ltac lits := vm_compute; repeat (apply Forall_cons; [cbv; intuition congruence|]); apply Forall_nil.
Ltac calls1 := let I := fresh in let J := fresh in intros ? ? ? I; destruct I as [I|[]]; injection I as <- <-.
Lemma answer_refuted : exists (C : customs) env (calls : list (registration C)) data m, never_panics calls /\ makes_pointers calls /\ bytes_ok data /\
  am_decode env calls None data = Ok m /\ inspect m = Panic.
Proof.
  exists own_types, demo_env, calls_answer, answer_frame, (AMessage (Header 1 5 13800138000 7 None) (Some (ACus (C := own_types) (true, [0; 7; 0; 2; 0])))).
  split; [calls1; discriminate|]. split; [intros id f d v [X|[]]; injection X as <- <-; intros Y; injection Y as <-; reflexivity|].
  split; [lits|]. split; [vm_compute; reflexivity|vm_compute; reflexivity].
Qed.
Lemma value_refuted : exists (C : customs) env (calls : list (registration C)) data m, never_panics calls /\ leaves_answers calls /\ bytes_ok data /\
  am_decode env calls None data = Ok m /\ inspect m = Panic.
Proof.
  exists own_types, demo_env, calls_value, own_frame, (AMessage (Header 3840 2 13800138000 7 None) (Some (ACus (C := own_types) (false, [1; 126])))).
  split; [calls1; discriminate|]. split; [intros id H; unfold unregistered, answer_types in *; cbn [In map fst calls_value] in *; intuition lia|].
  split; [lits|]. split; [vm_compute; reflexivity|vm_compute; reflexivity].
Qed.
Lemma send_refuted : exists (C : customs) env h (v : cu C) raw, cu_enc C v = Ok raw /\ am_encode env None 0 (AMessage h (Some (ACus v))) = Panic.
Proof. exists own_types, demo_env, (own_hdr 0), (false, []), []. split; [reflexivity|vm_compute; reflexivity]. Qed.
