(** C186. The tests of the repository pass, at any moment and whatever the tables of GB18030 are. *)
From Verif Require Import Base LibBase GoTime Env EntTerm Registry Multipart SpecEntity Gb SpecGb Demo DemoGb Tests SpecTests SpecMulti ProofTests.

(** The tests that compare: what is decoded is the value as Encode left it. *)
Theorem C186_compared env T now : table_ok T -> clock_time env now -> gzip_ok env (repeat 0 768) /\ zlen (gz_enc env (repeat 0 768)) < 4294967296 ->
  Forall (passes (gb_env env T)) (compared (gb_env env T) now).
Proof. exact (compared_pass env T now). Qed.
Print Assumptions C186_compared.
(** The test of the driver's identification, which compares all but the expiry date. *)
Theorem C186_driver env T now : table_ok T -> clock_time env now ->
  exists d n x, encode (gb_env env T) (E0702 (test_driver now)) = Ok d /\ decode (gb_env env T) 0x0702 d = Ok (E0702 x, n) /\ with_expiry x now = test_driver now.
Proof. exact (driver_pass env T now). Qed.
Print Assumptions C186_driver.
(** The tests that do not compare run without errors; four of them (0x0200, 0x0201, 0x0500, 0x0801) would fail if they did, two would pass. *)
Theorem C186_not_compared env T now : clock_time env now ->
  Forall (runs (gb_env env T)) (not_compared (gb_env env T) now).
Proof. exact (not_compared_run env T now). Qed.
Print Assumptions C186_not_compared.
Theorem C186_would_fail env T now e : clock_time env now ->
  In e (firstn 4 (not_compared (gb_env env T) now)) -> ~ passes (gb_env env T) e.
Proof. exact (fun N => cannot_pass env T now N e). Qed.
Print Assumptions C186_would_fail.
Theorem C186_would_pass env T now e : clock_time env now ->
  In e (skipn 4 (not_compared (gb_env env T) now)) -> passes (gb_env env T) e.
Proof. exact (fun N => could_pass env T now N e). Qed.
Print Assumptions C186_would_pass.
(** The test of uploads, whatever calls came before it: the upload is complete and Merge succeeds; the first time it gives the parts in order. *)
Theorem C186_upload before f outs : Forall mop_ok before -> mrun empty_fs [] (before ++ test_calls) = Ok (f, outs) ->
  is_full f test_upload = Ok true /\ exists c f', mp_merge f test_upload = Ok (c, f').
Proof. exact (upload_pass before f outs). Qed.
Print Assumptions C186_upload.
Theorem C186_upload_first : exists f f', mrun empty_fs [] test_calls = Ok (f, []) /\ mp_merge f test_upload = Ok ([1; 2; 3; 4; 5; 6], f').
Proof. exact upload_fresh. Qed.
Print Assumptions C186_upload_first.
Example C186_case : table_ok demo_tab /\ clock_time demo_env (GoTime 1700000000 0 28800) /\
  gzip_ok demo_env (repeat 0 768) /\ zlen (gz_enc demo_env (repeat 0 768)) < 4294967296 /\ length (compared gb_demo (GoTime 1700000000 0 28800)) = 58%nat.
Proof.
  split; [exact demo_tab_ok|]. split; [vm_compute; repeat split; discriminate|]. split.
  - split; [apply Forall_cons; [vm_compute; split; congruence|apply Forall_forall; intros x I; apply repeat_spec in I; subst; vm_compute; split; congruence]|].
    exists [], (repeat 0 768). split; reflexivity.
  - split; vm_compute; reflexivity.
Qed.
