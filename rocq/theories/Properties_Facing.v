(** What is read of a body that several send loops encode at the same moment: C201. *)
From Verif Require Import Base Decimal Env EntTerm EntPlat Registry Message Race.
From Verif Require Import SpecFrame SpecGeo SpecEntity SpecMsg SpecWire SpecRace SpecFacing ProofFacing Demo DemoRace.

(** C201. Whatever other send loops do meanwhile, what Encode returns is read in full as the same body, but for the
    hemispheres: there are words of C157, and every coordinate is as far from zero as it was, on the side its word says. *)
Theorem C201_read env e n sch i r : wf env e -> boundary e = false -> needs e <> [] ->
  returned env e (rrun (rstart e n) sch) i = Some r ->
  exists d ws, r = Ok d /\ Forall2 SpecRace.shows (needs e) ws /\ decode env (type_number e) d = Ok (sent env (facing e ws), counted e d).
Proof. exact (race_read env e n sch i r). Qed.
Print Assumptions C201_read.
(** So is the whole frame. *)
Theorem C201_frame env e n sch i h hd d data key : wf env e -> boundary e = false -> needs e <> [] ->
  returned env e (rrun (rstart e n) sch) i = Some (Ok d) ->
  hdr_fits h -> Z.testbit (h_prop h) 10 = false -> zlen d <= 1023 ->
  on_wire (header_layout (type_number e) (wire_prop (h_prop h) (zlen d) (has (h_packet h))) (h_icc h) (h_serial h) (h_packet h)) hd ->
  frame (hd ++ d) (xor_all (hd ++ d)) data ->
  exists ws, Forall2 SpecRace.shows (needs e) ws /\
    msg_decode env key data = Ok (Message (hdr_arrives h (type_number e) (zlen d)) (BEnt (sent env (facing e ws)))).
Proof. exact (race_frame env e n sch i h hd d data key). Qed.
Print Assumptions C201_frame.
(** Buenos Aires and Lima; the second send loop loads the word before the first marks both points, and stores after it: both are read in the east *)
Example C201_case : let e := polygon 0 [v_sw; Vertex (Dec (-12046374) (-6)) (Dec (-77042793) (-6))] in wf demo_env e /\ boundary e = false /\ needs e <> [] /\
  (exists d, got demo_env e 2 [1; 0; 0; 0; 0; 0; 0; 0; 0; 1; 0; 0]%nat 0 = Some (Ok d) /\ zlen d <= 1023 /\ decode demo_env 34308 d = Ok (sent demo_env (facing e [64]), zlen d)) /\
  facing e [64] = polygon 64 [Vertex (Dec (-34603722) (-6)) (Dec 58381592 (-6)); Vertex (Dec (-12046374) (-6)) (Dec 77042793 (-6))] /\
  facing e [128] = polygon 128 [Vertex (Dec 34603722 (-6)) (Dec (-58381592) (-6)); Vertex (Dec 12046374 (-6)) (Dec (-77042793) (-6))] /\
  hdr_fits (Header 0 0 13800138000 126 None).
Proof.
  cbv zeta. split; [|split; [reflexivity|split; [discriminate|]]].
  - split; [cbv; intuition congruence|]. split; [cbv; intuition congruence|]. split; [intros H; discriminate H|]. split; [cbv; intuition congruence|].
    constructor; [|constructor; [|constructor]]; repeat split; cbv; intuition congruence.
  - split; [eexists; split; [vm_compute; reflexivity|split; [vm_compute; congruence|vm_compute; reflexivity]]|]. split; [reflexivity|]. split; [reflexivity|]. cbv. intuition congruence.
Qed.
