(** The course of a call of Run. *)
From Verif Require Import Base LibBase Life SpecLife ProofLife.

Definition coursed (i : nat) (r : option runner) (evs : list levent) : Prop :=
  match r with
  | None | Some (RListen _) => evs = []
  | Some (RAssign l) => exists p, evs = [VListening i l p]
  | Some RServe => exists l p, evs = [VListening i l p]
  | Some (RAccept l') => exists l p, evs = [VListening i l p; VServing i l']
  | Some (RBack BRefused) => evs = [VBack i BRefused]
  | Some (RBack BListen) => evs = [VBack i BListen]
  | Some (RBack BServe) => exists l p l', evs = [VListening i l p; VServing i l'; VBack i BServe]
  end.
Definition about (i : nat) (evs : list levent) : list levent := filter (of_run i) evs.
Lemma about_app i a b : about i (a ++ b) = about i a ++ about i b.
Proof. apply filter_app. Qed.
Lemma set_get {A} (l : list A) n v k x : nth_error l n = Some x -> nth_error (set_at l n v) k = if Nat.eqb k n then Some v else nth_error l k.
Proof. intros N. destruct (Nat.eqb_spec k n) as [->|D]; [eapply set_at_same; eauto|apply set_at_other; auto]. Qed.
Lemma snoc_get {A} (l : list A) v k : nth_error (l ++ [v]) k = if Nat.eqb k (length l) then Some v else nth_error l k.
Proof.
  destruct (Nat.eqb_spec k (length l)) as [->|D]; [rewrite nth_error_app2, Nat.sub_diag by auto; reflexivity|]. destruct (Nat.lt_ge_cases k (length l)); [apply nth_error_app1; auto|].
  rewrite (proj2 (nth_error_None l k)) by lia. apply nth_error_None. rewrite app_length. cbn. lia.
Qed.
Lemma course_step s evs o s' e i : coursed i (nth_error (lf_runs s) i) (about i evs) -> lstep s o = Ok (s', e) -> coursed i (nth_error (lf_runs s') i) (about i (evs ++ e)).
Proof.
  intros C E. rewrite about_app. destruct o as [port|k|k|k| |j]; cbn [lstep] in E.
  - assert (NN : nth_error (lf_runs s) (length (lf_runs s)) = None) by (apply nth_error_None; auto).
    destruct (lf_field s); injection E as <- <-; cbn [lf_runs]; rewrite snoc_get; destruct (Nat.eqb_spec i (length (lf_runs s))) as [->|D]; cbn [about filter of_run]; rewrite ?Nat.eqb_refl, ?app_nil_r; auto.
    + rewrite NN in C. cbn in C |- *. rewrite C. reflexivity.
    + replace (Nat.eqb (length (lf_runs s)) i) with false by (symmetry; apply Nat.eqb_neq; auto). rewrite app_nil_r. auto.
    + rewrite NN in C. exact C.
  - destruct (nth_error (lf_runs s) k) as [[port|l| |l|r]|] eqn:N; [destruct (taken _ _)| |destruct (lf_field s); [|discriminate]|destruct (listening _ _)| |];
      injection E as <- <-; unfold at_run; cbn [lf_runs]; rewrite ?app_nil_r; auto; rewrite (set_get _ _ _ _ _ N), ?(Nat.eqb_sym i k); cbn [about filter of_run]; rewrite ?app_nil_r; destruct (Nat.eqb_spec k i) as [->|D];
      rewrite ?app_nil_r; auto; rewrite N in C; cbn [coursed] in *.
    + rewrite C. reflexivity.
    + rewrite C. eexists. reflexivity.
    + destruct C as (p & ->). eauto.
    + destruct C as (l & p & ->). do 2 eexists. reflexivity.
    + destruct C as (l0 & p & ->). do 3 eexists. reflexivity.
  - destruct (nth_error (lf_runs s) k) as [[port|l| |l|r]|] eqn:N; injection E as <- <-; unfold at_run; cbn [lf_runs]; rewrite ?app_nil_r; auto.
    rewrite (set_get _ _ _ _ _ N), ?(Nat.eqb_sym i k); cbn [about filter of_run]; destruct (Nat.eqb_spec k i) as [->|D]; rewrite ?app_nil_r; auto; rewrite N in C; cbn [coursed] in *. rewrite C. reflexivity.
  - destruct (nth_error (lf_runs s) k) as [[port|l| |l|r]|] eqn:N; injection E as <- <-; unfold at_run; cbn [lf_runs]; rewrite ?app_nil_r; auto.
    rewrite (set_get _ _ _ _ _ N), ?(Nat.eqb_sym i k); cbn [about filter of_run]; destruct (Nat.eqb_spec k i) as [->|D]; rewrite ?app_nil_r; auto; rewrite N in C; cbn [coursed] in *. destruct C as (l0 & p & ->). do 3 eexists. reflexivity.
  - destruct (lf_field s); injection E as <- <-; cbn [lf_runs about filter of_run]; rewrite ?app_nil_r; auto.
  - destruct (nth_error (lf_stops s) j) as [[| |]|]; [destruct (lf_field s); [|discriminate]| | |]; injection E as <- <-; cbn [lf_runs about filter of_run]; rewrite ?app_nil_r; auto.
Qed.
Lemma course_run i os : forall s evs s' e, coursed i (nth_error (lf_runs s) i) (about i evs) -> lrun s os = Ok (s', e) -> coursed i (nth_error (lf_runs s') i) (about i (evs ++ e)).
Proof.
  induction os as [|o t IH]; intros s evs s' e C E; cbn in E; [injection E as <- <-; rewrite app_nil_r; auto|]. destruct (lstep s o) as [[s1 e1]| |] eqn:L; cbn in E; try discriminate.
  destruct (lrun s1 t) as [[s2 e2]| |] eqn:R; cbn in E; try discriminate. injection E as <- <-. rewrite app_assoc. eapply IH; eauto. eapply course_step; eauto.
Qed.
Lemma run_courses os s evs i : lrun life_new os = Ok (s, evs) -> run_course i (filter (of_run i) evs).
Proof.
  intros R. assert (C0 : coursed i (nth_error (lf_runs life_new) i) (about i [])) by (destruct i; reflexivity). pose proof (course_run i os _ _ _ _ C0 R) as C. cbn [app] in C. change (about i evs) with (filter (of_run i) evs) in C.
  unfold run_course. destruct (nth_error (lf_runs s) i) as [[port|l| |l|[| |]]|]; cbn [coursed] in C; auto; repeat (destruct C as (? & C)); rewrite C; auto; do 3 right; do 3 eexists; eauto.
  Unshelve. all: exact O.
Qed.
