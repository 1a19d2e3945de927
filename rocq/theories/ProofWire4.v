(** What is encoded consists of bytes. *)
From Verif Require Import Base LibBase GoTime Decimal Env EntTerm EntPlat Registry Message SpecFrame SpecGeo SpecEntity SpecMsg SpecWire.

Definition fld_ok (f : fld) : Prop := match f with Raw b | Pad _ b => bytes_ok b | Dig ds => Forall (fun d => 0 <= d <= 9) ds | _ => True end.
Lemma pairs_bytes : forall n ds, (length ds <= n)%nat -> Forall (fun d => 0 <= d <= 9) ds -> bytes_ok (pairs ds).
Proof.
  induction n as [|n IH]; intros [|h [|l t]] L F; try (cbn in L; lia); cbn [pairs]; try apply bytes_ok_nil.
  inversion F as [|? ? F1 F2]; subst. inversion F2 as [|? ? F3 F4]; subst. apply bytes_ok_cons. split; [unfold is_byte; lia|]. apply IH; [cbn in L; lia|exact F4].
Qed.
Lemma digits_dig n : forall v, Forall (fun d => 0 <= d <= 9) (digits_of n v).
Proof. induction n as [|n IH]; intros v; cbn [digits_of]; [constructor|]. apply Forall_app. split; [apply IH|]. constructor; [|constructor]. pose proof (Z.mod_pos_bound v 10 ltac:(lia)). lia. Qed.
Lemma shows_bytes f b : shows f b -> fld_ok f -> bytes_ok b.
Proof.
  intros S F. destruct S; cbn [fld_ok] in F; auto.
  - apply bytes_ok_app. split; [exact F|apply bytes_ok_repeat0].
  - apply (pairs_bytes (length ds)); auto.
  - eapply pairs_bytes; [apply Nat.le_refl|]. repeat match goal with |- Forall _ (digits_of _ _) => apply digits_dig | |- Forall _ (_ ++ _) => apply Forall_app; split end.
  - eapply pairs_bytes; [apply Nat.le_refl|]. repeat match goal with |- Forall _ (digits_of _ _) => apply digits_dig | |- Forall _ (_ ++ _) => apply Forall_app; split end.
Qed.
Lemma wire_bytes fs d : on_wire fs d -> Forall fld_ok fs -> bytes_ok d.
Proof. induction 1; intros F; [constructor|]. inversion F; subst. apply bytes_ok_app. split; [eapply shows_bytes; eauto|auto]. Qed.
Lemma text_bytes env s : text_ok env s -> bytes_ok (gb env s).
Proof. intros (d & E & B & _). unfold gb. rewrite E. exact B. Qed.
Lemma in_bytes env s n : text_in env s n -> bytes_ok (gb env s).
Proof. intros [T _]. exact (text_bytes env s T). Qed.
Lemma ok_counted_text env w s n : text_in env s n -> Forall fld_ok (counted_text env w s).
Proof. intros T. repeat constructor. exact (in_bytes env s n T). Qed.
Lemma ok_last_text env s : text_opt env s -> Forall fld_ok (last_text env s).
Proof. intros [-> |T]; [constructor|]. destruct s; [constructor|]. repeat constructor. apply text_bytes, T. Qed.
Lemma ok_concat {A} (f : A -> list fld) (P : A -> Prop) l : (forall x, P x -> Forall fld_ok (f x)) -> Forall P l -> Forall fld_ok (concat (map f l)).
Proof. intros H F. induction F; cbn; [constructor|]. apply Forall_app. auto. Qed.
Lemma ok_counted_list {A} w (f : A -> list fld) (P : A -> Prop) l : (forall x, P x -> Forall fld_ok (f x)) -> Forall P l -> Forall fld_ok (counted_list w f l).
Proof. intros H F. constructor; [exact I|]. exact (ok_concat f P l H F). Qed.
Lemma ok_all_list {A} w (f : A -> list fld) l : (forall x, Forall fld_ok (f x)) -> Forall fld_ok (counted_list w f l).
Proof. intros H. apply (ok_counted_list w f (fun _ => True)); [auto|apply Forall_forall; auto]. Qed.
Lemma ok_extra v : Forall fld_ok (extra_layout v).
Proof. destruct v; cbn [extra_layout]; repeat match goal with |- context [match ?o with _ => _ end] => destruct o end; repeat constructor. Qed.
Lemma ok_loc env p : Forall fld_ok (loc_layout env p).
Proof. unfold loc_layout. apply Forall_app. split; [repeat constructor|]. apply (ok_concat _ (fun _ => True)); [|apply Forall_forall; auto]. intros [x|] _; [apply ok_extra|constructor]. Qed.
Lemma ok_param p : wf_param p -> Forall fld_ok (param_layout p).
Proof. destruct p as [p|]; cbn; [|contradiction]. intros (_ & B & _). repeat constructor. exact B. Qed.
Lemma ok_limits env a l : Forall fld_ok (limits_layout env a l).
Proof. unfold limits_layout. destruct (Z.testbit a 0); repeat constructor. Qed.
Lemma ok_key k : Forall fld_ok (key_layout k).
Proof. unfold key_layout. destruct (a0a00_key k) as [[? [?|]]|]; repeat constructor. Qed.
Lemma ok_point p : Forall fld_ok (point_layout p).
Proof. unfold point_layout. repeat (apply Forall_app; split); [repeat constructor|destruct (pt_long p), (pt_short p); repeat constructor|destruct (pt_speed p), (pt_over p); repeat constructor]. Qed.
Lemma ok_labelled env x : wf_labelled env x -> Forall fld_ok (labelled_layout env x).
Proof. intros [_ T]. constructor; [exact I|]. exact (ok_counted_text env 1 _ _ T). Qed.
Lemma ok_cons f l : fld_ok f -> Forall fld_ok l -> Forall fld_ok (f :: l).
Proof. constructor; auto. Qed.
Lemma ok_app a b : Forall fld_ok a -> Forall fld_ok b -> Forall fld_ok (a ++ b).
Proof. intros. apply Forall_app. auto. Qed.
Lemma ok_raw b : bytes_ok b -> fld_ok (Raw b). Proof. auto. Qed.
Lemma ok_sim s : Forall (fun c => 48 <= c <= 57) s -> Forall (fun d => 0 <= d <= 9) (sim_digits s).
Proof. intros F. unfold sim_digits. apply Forall_app. split; [apply Forall_forall; intros x H; apply repeat_spec in H; lia|]. apply Forall_map. eapply Forall_impl; [|exact F]. cbn. lia. Qed.
Ltac fields :=
  repeat match goal with
  | H : _ /\ _ |- _ => destruct H
  | |- Forall fld_ok (_ ++ _) => apply ok_app
  | |- Forall fld_ok (_ :: _) => apply ok_cons
  | |- Forall fld_ok [] => constructor
  | |- fld_ok (Num _ _) => exact I
  | |- fld_ok (Stamp _) => exact I
  | |- fld_ok (Day _) => exact I
  | |- fld_ok (stamp _ _) => exact I
  | |- fld_ok (coord _) => exact I
  | |- Forall fld_ok (counted_text _ _ _) => eapply ok_counted_text; eassumption
  | |- Forall fld_ok (last_text _ _) => apply ok_last_text; assumption
  | |- Forall fld_ok (loc_layout _ _) => apply ok_loc
  | |- Forall fld_ok (limits_layout _ _ _) => apply ok_limits
  | |- Forall fld_ok (key_layout _) => apply ok_key
  | |- fld_ok (Pad _ ?b) => match goal with H : fixed_ok b _ |- _ => exact (proj1 H) | H : text_in _ _ _ |- _ => exact (in_bytes _ _ _ H) end
  | |- fld_ok (Raw ?b) => first [assumption | match goal with H : fixed_ok b _ |- _ => exact (proj1 H) end]
  end.
Lemma layout_ok env e : wf env e -> Forall fld_ok (layout env e).
Proof.
  destruct e; cbn [wf layout]; unfold media_layout, search_layout, wf_params; intros W; fields.
  all: try (eapply ok_counted_list; [exact ok_param|eassumption]).
  all: try (apply ok_all_list; intros; fields; fail).
  - apply ok_sim. assumption.
  - apply (ok_concat _ (fun _ => True)); [intros; fields|apply Forall_forall; auto].
  - cbn [fld_ok]. unfold day_clock. repeat match goal with |- Forall _ (digits_of _ _) => apply digits_dig | |- Forall _ (_ ++ _) => apply Forall_app; split end.
  - apply (ok_concat _ wf_can); [intros c (A & _ & B & _); fields|assumption].
  - destruct (a0801_packet e) as [r|]; fields.
  - match goal with H : gzip_ok _ _ |- _ => exact (proj1 H) end.
  - apply (ok_counted_list _ _ (wf_labelled env)); [apply ok_labelled|assumption].
  - apply (ok_concat _ (wf_labelled env)); [apply ok_labelled|assumption].
  - apply (ok_counted_list _ _ (fun s => text_in env s 65535)); [intros; fields|assumption].
  - apply text_bytes. assumption.
  - apply (ok_counted_list _ _ (wf_contact env)); [intros c (_ & A & B); fields|assumption].
  - apply ok_all_list. intros. unfold circle_layout. fields.
  - apply ok_all_list. intros. unfold rect_layout. fields.
  - apply ok_all_list, ok_point.
  - destruct (a8800_ids e); [constructor|]. apply ok_all_list. intros. fields.
Qed.
