(** Properties of several send loops that encode one body at the same moment (session.go:71-80,
    protocol.go:60-98, protocol/bit.go:28-37, 46-55 and the encoders that call it). *)
From Verif Require Import Base Decimal Env EntTerm EntPlat Registry Race SpecRace ProofRace3 ProofRace4 Demo DemoRace.

(** C155. Whatever other send loops do meanwhile, Encode returns the encoding of the body: refuted.  Of a
    polygon in the south-west one session can be written the western hemisphere bit missing. *)
Theorem C155_lost_refuted : exists e, ~ reads_dry e /\ forall env, exists sch r,
  returned env e (rrun (rstart e 2) sch) 0 = Some r /\ r <> encode env e.
Proof. exact lost_refuted. Qed.
Print Assumptions C155_lost_refuted.
(** Nor does the body have all its bits when every Encode has returned. *)
Theorem C155_body_refuted : exists e sch, ~ reads_dry e /\ let s := rrun (rstart e 2) sch in
  all_returned s /\ stored e (rc_mem s) <> encoded e.
Proof. exact kept_refuted. Qed.
Print Assumptions C155_body_refuted.
(** The terminal that was written these bytes takes the point to be at 58.38 degrees east. *)
Example C155_case : got demo_env (polygon 0 [v_sw]) 2 sch_lost 0 =
    Some (Ok [0; 0; 0; 9; 0; 64; 0; 1; 2; 16; 2; 202; 3; 122; 213; 24]) /\
  encode demo_env (polygon 0 [v_sw]) = Ok [0; 0; 0; 9; 0; 192; 0; 1; 2; 16; 2; 202; 3; 122; 213; 24] /\
  decode demo_env 34308 [0; 0; 0; 9; 0; 64; 0; 1; 2; 16; 2; 202; 3; 122; 213; 24] =
    Ok (polygon 64 [Vertex (Dec (-34603722) (-6)) (Dec 58381592 (-6))], 16).
Proof. split; [vm_compute; reflexivity|]. split; vm_compute; reflexivity. Qed.

(** C156. Alone, the accesses make the encoding and leave the body as in the rest of the model. *)
Theorem C156_alone env e sch r : ~ reads_dry e -> returned env e (rrun (rstart e 1) sch) 0 = Some r ->
  r = encode env e /\ stored e (rc_mem (rrun (rstart e 1) sch)) = encoded e.
Proof. exact (race_alone_any env e sch r). Qed.
Print Assumptions C156_alone.
(** Any number of send loops in any order return the encoding exactly if every bit a word still needs, but
    for the first, was set by the caller. *)
Theorem C156_exact env e : settled e <->
  (forall n sch i r, returned env e (rrun (rstart e n) sch) i = Some r -> r = encode env e).
Proof. exact (race_exact env e). Qed.
Print Assumptions C156_exact.
(** Then the body, once one of them has returned, is what one Encode leaves. *)
Theorem C156_body e n sch i rg vs : ~ reads_dry e -> settled e ->
  nth_error (rc_enc (rrun (rstart e n) sch)) i = Some (Encoder [] rg vs) ->
  stored e (rc_mem (rrun (rstart e n) sch)) = encoded e.
Proof. exact (race_settled_body e n sch i rg vs). Qed.
Print Assumptions C156_body.
(** The same polygon with the western bit already set by the caller; two send loops in turns. *)
Example C156_case : let e := polygon 128 [v_sw] in ~ reads_dry e /\ settled e /\
  got demo_env e 2 sch_turns 0 = Some (encode demo_env e) /\ got demo_env e 2 sch_turns 1 = Some (encode demo_env e) /\
  encode demo_env e = Ok [0; 0; 0; 9; 0; 192; 0; 1; 2; 16; 2; 202; 3; 122; 213; 24] /\
  encoded e = polygon 192 [v_sw] /\ got demo_env e 1 [0; 0; 0; 0; 0; 0]%nat 0 = Some (encode demo_env e).
Proof.
  cbv zeta. split; [intros [x H]; discriminate|]. split.
  - constructor; [|constructor]. intros b [<-|[<-|[]]]; [left; reflexivity|right; reflexivity].
  - split; [vm_compute; reflexivity|]. split; [vm_compute; reflexivity|]. split; [vm_compute; reflexivity|].
    split; vm_compute; reflexivity.
Qed.

(** C157. In every case a hemisphere word that is written has all bits of the caller, has the first bit its
    coordinates ask for, and has no bit that neither the caller set nor a coordinate asks for. *)
Theorem C157_shows env e n sch i r : needs e <> [] -> returned env e (rrun (rstart e n) sch) i = Some r ->
  exists vs, r = output env e vs /\ Forall2 (fun v c => shows (nth c (needs e) (0, [])) v) vs (loads e).
Proof. exact (race_shows env e n sch i r). Qed.
Print Assumptions C157_shows.
(** Whatever the send loops have left, a later Encode that is not disturbed returns the encoding of the
    original body, and repairs it. *)
Theorem C157_repaired env e n sch : ~ reads_dry e ->
  let b := stored e (rc_mem (rrun (rstart e n) sch)) in encode env b = encode env e /\ encoded b = encoded e.
Proof. exact (race_recover env e n sch). Qed.
Print Assumptions C157_repaired.
(** After the schedule that leaves the polygon without its western bit *)
Example C157_case : let e := polygon 0 [v_sw; v_se] in let s := rrun (rstart e 2) sch_kept in
  needs e = [(0, [6; 7; 6])] /\ loads e = [0; 0]%nat /\ rc_mem s = [64] /\ got demo_env e 2 sch_kept 0 <> Some (encode demo_env e) /\
  got demo_env e 2 sch_kept 1 = Some (encode demo_env e) /\ encode demo_env (stored e [64]) = encode demo_env e.
Proof.
  cbv zeta. split; [reflexivity|]. split; [reflexivity|]. split; [vm_compute; reflexivity|].
  split; [vm_compute; discriminate|]. split; vm_compute; reflexivity.
Qed.
