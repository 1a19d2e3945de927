(** Every body decodes to what was sent. *)
From Verif Require Import Base LibBase Bits LibBits Bcd LibBcd GoTime LibCalendar LibTime Decimal Env SpecGeo LibDec
  EntTerm EntPlat Registry SpecEntity LibEntity ProofHeader.

Ltac fin := first [reflexivity | cbn; reflexivity].
(** a reader program that ends with nothing left *)
Ltac rc := apply run_count_ok.

Lemma rt_0001 e : is_u16 (a0001_serial e) /\ is_u16 (a0001_msgid e) /\ is_byte (a0001_result e) ->
  dec_0001 (enc_0001 e) = Ok (e, zlen (enc_0001 e)).
Proof.
  intros (? & ? & ?). unfold dec_0001, enc_0001. chk. rc. flat. do 3 rstep. destruct e; fin.
Qed.
Lemma rt_8001 e : is_u16 (a8001_serial e) /\ is_u16 (a8001_msgid e) /\ is_byte (a8001_result e) ->
  dec_8001 (enc_8001 e) = Ok (e, zlen (enc_8001 e)).
Proof.
  intros (? & ? & ?). unfold dec_8001, enc_8001. chk. rc. flat. do 3 rstep. destruct e; fin.
Qed.
Lemma fixed_cstr p n : fixed_ok p (Z.of_nat n) -> cstr (w_fixed p n) = p.
Proof. intros (_ & H & L). apply cstr_w_fixed; auto. unfold zlen in L. lia. Qed.
Lemma rt_0100 env e : wf env (E0100 e) ->
  exists d, enc_0100 env e = Ok d /\ dec_0100 env d = Ok (e, zlen d).
Proof.
  intros (? & ? & Hm & Hmo & Ht & ? & Hl). destruct (text_opt_w env _ Hl) as (d & E & Hb & Hr & _).
  unfold enc_0100. rewrite E. cbn [bind]. eexists. split; [reflexivity|].
  unfold dec_0100. chk. rc. flat. do 6 rstep. rewrite app_nil_r. erewrite rbind_ok by exact Hr.
  rewrite (fixed_cstr _ 5), (fixed_cstr _ 20), (fixed_cstr _ 7) by auto. destruct e; fin.
Qed.
Lemma nonempty_len {A} (l : list A) : empty l = false -> 1 <= zlen l.
Proof. destruct l; [discriminate|]. intros _. rewrite zlen_cons. pose proof (zlen_nonneg l). lia. Qed.
Lemma rt_0102 env e : wf env (E0102 e) -> boundary (E0102 e) = false ->
  exists d, enc_0102 env e = Ok d /\ dec_0102 env d = Ok (e, zlen d).
Proof.
  intros H Hb0. destruct e as [k]. cbn [wf boundary a0102_key] in *.
  assert (Hne : k <> []) by (intros ->; discriminate).
  destruct (text_opt_w env k H) as (d & E & Hb & Hr & Hz). unfold enc_0102. cbn [a0102_key]. rewrite E.
  exists d. split; auto. unfold dec_0102. destruct d as [|x d]; [tauto|].
  rewrite zlen_cons. pose proof (zlen_nonneg d). replace (1 + zlen d =? 0) with false by lia. rewrite <- zlen_cons with (x := x).
  rc. unfold r_str_opt, r_len in Hr. unfold rbind at 1 in Hr. rewrite zlen_cons in Hr.
  replace (0 <? 1 + zlen d) with true in Hr by lia. erewrite rbind_ok by exact Hr. reflexivity.
Qed.

(** ** Parameters *)
Definition wr_param (p : option param) : bytes :=
  match p with Some p => w_u32 (pr_id p) ++ w_byte (zlen (pr_val p)) ++ pr_val p | None => [] end.
Lemma enc_param_wr p : wf_param p -> enc_param p = Ok (wr_param p).
Proof. destruct p as [p|]; intros H; [|destruct H]. destruct H as (? & ? & ?). cbn. rewrite (u8_len _ 255) by lia. auto. Qed.
Lemma mapM_wr {A B} (f : A -> res B) (w : A -> B) (P : A -> Prop) l :
  (forall x, P x -> f x = Ok (w x)) -> Forall P l -> mapM f l = Ok (map w l).
Proof. intros H. induction 1; cbn; auto. rewrite H by auto. cbn. rewrite IHForall. auto. Qed.
Lemma r_param_wr p r : wf_param p -> r_param (wr_param p ++ r) = Ok (p, r).
Proof.
  destruct p as [p|]; intros H; [|destruct H]. destruct H as (? & ? & ?). unfold r_param, wr_param.
  rewrite <- !app_assoc. do 2 rstep. erewrite rbind_ok by (apply r_bytes_app; auto). destruct p; fin.
Qed.
Lemma wr_param_len p : wf_param p -> 5 <= zlen (wr_param p).
Proof. destruct p as [p|]; intros H; [|destruct H]. unfold wr_param. sizes. lia. Qed.
Lemma concat_len {A} (w : A -> bytes) (P : A -> Prop) k l : 0 <= k -> (forall x, P x -> k <= zlen (w x)) -> Forall P l ->
  k * zlen l <= zlen (concat (map w l)).
Proof. intros Hk H. induction 1; cbn [map concat]; zl; [lia|]. specialize (H _ H0). lia. Qed.
Lemma rt_0104 e : wf_params (a0104_params e) -> is_u16 (a0104_serial e) -> empty (a0104_params e) = false ->
  exists d, enc_0104 e = Ok d /\ dec_0104 d = Ok (e, zlen d).
Proof.
  intros (Hp & Hn) Hs Hne. apply nonempty_len in Hne. unfold enc_0104. rewrite (mapM_wr _ wr_param wf_param) by auto using enc_param_wr.
  cbn [bind]. eexists. split; [reflexivity|].
  pose proof (concat_len wr_param wf_param 5 _ ltac:(lia) wr_param_len Hp).
  unfold dec_0104. cbn [concat]. chk. rc. rewrite (u8_len _ 255) by lia.
  do 2 rstep. erewrite rbind_ok by (apply (r_list_ids _ wr_param wf_param); auto using r_param_wr). destruct e; fin.
Qed.
Lemma rt_8103 e : wf_params (a8103_params e) -> empty (a8103_params e) = false ->
  exists d, enc_8103 e = Ok d /\ dec_8103 d = Ok (e, zlen d).
Proof.
  intros (Hp & Hn) Hne. apply nonempty_len in Hne. unfold enc_8103. rewrite (mapM_wr _ wr_param wf_param) by auto using enc_param_wr.
  cbn [bind]. eexists. split; [reflexivity|].
  pose proof (concat_len wr_param wf_param 5 _ ltac:(lia) wr_param_len Hp).
  unfold dec_8103. cbn [concat]. chk. rc. rewrite (u8_len _ 255) by lia.
  rstep. erewrite rbind_ok by (apply (r_list_ids _ wr_param wf_param); auto using r_param_wr). destruct e; fin.
Qed.
Lemma bcd20 s : Forall (fun c => 48 <= c <= 57) s /\ zlen s <= 20 /\ (forall t, s <> 48 :: t) ->
  bcd_to_string (string_to_bcd_n s 10) = s.
Proof. intros (H1 & H2 & H3). apply bcd_text_exact; auto. unfold zlen in H2. lia. Qed.
Lemma cstr_fixed p n : fixed_ok p n -> cstr p = p.
Proof. intros (_ & H & _). apply cstr_id; auto. Qed.
Lemma rt_0107 env e : wf env (E0107 e) -> dec_0107 (enc_0107 e) = Ok (e, zlen (enc_0107 e)).
Proof.
  intros (? & Hm & Hmo & Ht & Hs & Hh & Hw & ? & ?). unfold dec_0107, enc_0107.
  assert (Hl : zlen (string_to_bcd_n (a0107_sim e) 10) = 10) by (unfold zlen; rewrite string_to_bcd_n_length; auto).
  replace (zlen _ <? 48) with false by (symmetry; apply Z.ltb_ge; cbn [concat]; sizes; lia). rc.
  pose proof Hh as (_ & _ & Hh2). pose proof Hw as (_ & _ & Hw2).
  rewrite !(u8_len _ 255) by lia. cbn [concat]. do 11 (first [rstep|erewrite rbind_ok by (apply r_bytes_app; auto)]).
  rewrite (fixed_cstr _ 5), (fixed_cstr _ 20), (fixed_cstr _ 7) by auto. rewrite bcd20 by auto.
  rewrite !(cstr_fixed _ 255) by auto. destruct e; fin.
Qed.
Lemma rt_0108 e : dec_0108 (enc_0108 e) = Ok (e, zlen (enc_0108 e)).
Proof. destruct e; fin. Qed.
Lemma rt_0301 e : dec_0301 (enc_0301 e) = Ok (e, zlen (enc_0301 e)).
Proof. destruct e; fin. Qed.
Lemma rt_0303 e : dec_0303 (enc_0303 e) = Ok (e, 1).
Proof. destruct e; fin. Qed.
Lemma rt_8500 e : dec_8500 (enc_8500 e) = Ok (e, zlen (enc_8500 e)).
Proof. destruct e; fin. Qed.
Lemma rt_0302 e : is_u16 (a0302_serial e) -> dec_0302 (enc_0302 e) = Ok (e, zlen (enc_0302 e)).
Proof. intros. unfold dec_0302, enc_0302. chk. rc. flat. do 2 rstep. destruct e; fin. Qed.
Lemma rt_0700 e : is_u16 (a0700_serial e) -> dec_0700 (enc_0700 e) = Ok (e, zlen (enc_0700 e)).
Proof. intros. unfold dec_0700, enc_0700. cbn [concat]. chk. rc. do 3 rstep. destruct e; fin. Qed.
Lemma rt_0701 e : is_u32 (a0701_size e) -> dec_0701 (enc_0701 e) = Ok (e, zlen (enc_0701 e)).
Proof. intros. unfold dec_0701, enc_0701. cbn [concat]. chk. rc. do 2 rstep. destruct e; fin. Qed.
Lemma rt_data e : dec_data (enc_data e) = Ok (e, zlen (enc_data e)).
Proof. destruct e as [t d]. unfold enc_data. cbn [concat td_type td_data]. rewrite app_nil_r. fin. Qed.
Lemma rt_0800_r e r : wf_0800 e -> r_0800 (enc_0800 e ++ r) = Ok (e, r).
Proof. intros (? & ? & ? & ? & ?). unfold r_0800, enc_0800. flat. do 5 rstep. destruct e; fin. Qed.
Lemma rt_0800 e : wf_0800 e -> dec_0800 (enc_0800 e) = Ok (e, zlen (enc_0800 e)).
Proof.
  intros. unfold dec_0800. replace (zlen (enc_0800 e) <? 8) with false by (unfold enc_0800; cbn [concat]; sizes; lia).
  rc. rewrite <- (app_nil_r (enc_0800 e)). apply rt_0800_r; auto.
Qed.
Lemma rt_0805 env e : wf env (E0805 e) -> dec_0805 (enc_0805 e) = Ok (e, zlen (enc_0805 e)).
Proof.
  intros (? & ? & Hi & Hn). unfold dec_0805, enc_0805. cbn [concat]. chk. rc.
  rewrite (u16_len _ 65535) by lia. pose proof (u16_len_ok _ 65535 ltac:(lia) Hn).
  do 3 rstep. erewrite rbind_ok by (apply (r_list_ids _ _ is_u32); auto using r_u32_w). destruct e; fin.
Qed.
Lemma rt_8003 env e : wf env (E8003 e) -> dec_8003 (enc_8003 e) = Ok (e, zlen (enc_8003 e)).
Proof.
  intros (? & Hi & Hn). unfold dec_8003, enc_8003. cbn [concat]. chk. rc.
  rewrite (u8_len _ 255) by lia.
  do 2 rstep. erewrite rbind_ok by (apply (r_list_ids _ _ is_u16); auto using r_u16_w). destruct e; fin.
Qed.
Lemma rt_ids e : wf_ids is_u32 (ti_ids e) 255 -> dec_ids (enc_ids e) = Ok (e, zlen (enc_ids e) - 1).
Proof.
  intros (Hi & Hn). unfold dec_ids, enc_ids. cbn [concat app w_byte]. rewrite (u8_len _ 255) by lia.
  rewrite (r_list_ids _ _ is_u32) by auto using r_u32_w. destruct e. do 2 f_equal; zl; lia.
Qed.
Lemma rt_8607 e : wf_ids is_u32 (ti_ids e) 255 -> dec_8607 (enc_ids e) = Ok (e, zlen (enc_ids e)).
Proof.
  intros (Hi & Hn). unfold dec_8607, enc_ids. cbn [concat]. chk. rc. rewrite (u8_len _ 255) by lia.
  rstep. erewrite rbind_ok by (apply (r_list_ids _ _ is_u32); auto using r_u32_w). destruct e; fin.
Qed.
Lemma rt_8100 env e : wf env (E8100 e) -> exists d, enc_8100 env e = Ok d /\ dec_8100 env d = Ok (e, zlen d).
Proof.
  intros (? & ? & Hl). destruct (text_opt_w env _ Hl) as (d & E & Hb & Hr & _).
  unfold enc_8100. rewrite E. cbn [bind]. eexists. split; [reflexivity|].
  unfold dec_8100. cbn [concat]. chk. rc. do 2 rstep. rewrite app_nil_r. erewrite rbind_ok by exact Hr. destruct e; fin.
Qed.
Lemma rt_text env e : text_opt env (tt_text e) -> exists d, enc_text env e = Ok d /\ dec_text env d = Ok (e, zlen d - 1).
Proof.
  intros Hl. destruct (text_opt_w env _ Hl) as (d & E & Hb & Hr & _).
  unfold enc_text. rewrite E. cbn [bind]. eexists. split; [reflexivity|].
  unfold dec_text. cbn [concat app w_byte]. rewrite app_nil_r, Hr. destruct e. do 2 f_equal; zl; lia.
Qed.
Lemma rt_8108 env e : wf env (E8108 e) -> exists d, enc_8108 env e = Ok d /\ dec_8108 env d = Ok (e, zlen d).
Proof.
  intros (? & Hm & Hv & ? & ?). destruct (text_in_w env _ _ Hv) as (d & E & Hn & Hb & _ & Hr & _).
  unfold enc_8108. rewrite E. cbn [bind]. eexists. split; [reflexivity|].
  unfold dec_8108. cbn [concat]. chk. rc. rewrite (u8_len _ 255) by lia. do 6 rstep.
  rewrite (fixed_cstr _ 5) by auto. destruct e; fin.
Qed.
Lemma rt_8202 e : is_u16 (a8202_a e) -> is_u32 (a8202_b e) -> dec_8202 (enc_8202 e) = Ok (e, zlen (enc_8202 e)).
Proof. intros. unfold dec_8202, enc_8202. cbn [concat]. chk. rc. do 2 rstep. destruct e; fin. Qed.

(** ** Labelled texts, contacts, menus *)
Definition wr_labelled (env : Env) (x : labelled) : bytes :=
  match w_str env (lb_text x) with Ok d => w_byte (lb_id x) ++ w_byte (zlen d) ++ d | _ => [] end.
Lemma enc_labelled_wr env x : wf_labelled env x -> enc_labelled env x = Ok (wr_labelled env x).
Proof.
  intros (_ & H). destruct (text_in_w env _ _ H) as (d & E & Hn & _). unfold enc_labelled, wr_labelled. rewrite E. cbn [bind].
  rewrite (u8_len _ 255) by lia. auto.
Qed.
Lemma r_labelled_wr env x r : wf_labelled env x -> r_labelled env (wr_labelled env x ++ r) = Ok (x, r).
Proof.
  intros (_ & H). destruct (text_in_w env _ _ H) as (d & E & Hn & _ & _ & Hr & _). unfold r_labelled, wr_labelled. rewrite E.
  rewrite <- !app_assoc. do 3 rstep. destruct x; fin.
Qed.
Lemma wr_labelled_len env x : wf_labelled env x -> 2 <= zlen (wr_labelled env x).
Proof.
  intros (_ & H). destruct (text_in_w env _ _ H) as (d & E & _). unfold wr_labelled. rewrite E. sizes. lia.
Qed.
Lemma rt_8301 env e : wf env (E8301 e) -> exists d, enc_8301 env e = Ok d /\ dec_8301 env d = Ok (e, zlen d).
Proof.
  intros (? & Hn & Hl). unfold enc_8301. rewrite (mapM_wr _ (wr_labelled env) (wf_labelled env)) by auto using enc_labelled_wr.
  cbn [bind]. eexists. split; [reflexivity|]. unfold dec_8301. cbn [concat]. chk. rc. rewrite (u8_len _ 255) by lia.
  do 2 rstep. erewrite rbind_ok by (apply (r_list_ids _ (wr_labelled env) (wf_labelled env)); auto using r_labelled_wr).
  destruct e; fin.
Qed.
Lemma r_until_wr {A} (p : R A) (w : A -> bytes) (P : A -> Prop) xs : (forall x r, P x -> p (w x ++ r) = Ok (x, r)) ->
  (forall x, P x -> 1 <= zlen (w x)) -> Forall P xs -> forall f, (length xs <= f)%nat ->
  r_until_empty f p (concat (map w xs)) = Ok (xs, []).
Proof.
  intros Hp Hw. induction 1 as [|x xs Hx Hxs IH]; intros f Hf; [destruct f; reflexivity|].
  destruct f as [|f]; [cbn in Hf; lia|]. cbn [map concat length] in *.
  pose proof (Hw _ Hx). pose proof (Hp x (concat (map w xs)) Hx) as E.
  destruct (w x) as [|b t] eqn:Ew; [change (zlen (@nil Z)) with 0 in H; lia|].
  cbn [app] in E |- *. cbn [r_until_empty]. erewrite rbind_ok by exact E.
  erewrite rbind_ok by (apply IH; lia). reflexivity.
Qed.
Lemma rt_8302 env e : wf env (E8302 e) -> exists d, enc_8302 env e = Ok d /\ dec_8302 env d = Ok (e, zlen d).
Proof.
  intros (? & Hq & Hl). destruct (text_in_w env _ _ Hq) as (q & E & Hn & _ & _ & Hr & _).
  unfold enc_8302. rewrite E. cbn [bind]. rewrite (mapM_wr _ (wr_labelled env) (wf_labelled env)) by auto using enc_labelled_wr.
  cbn [bind]. eexists. split; [reflexivity|]. unfold dec_8302. cbn [concat]. chk. rc. rewrite (u8_len _ 255) by lia.
  do 3 rstep. rewrite app_nil_r.
  pose proof (concat_len (wr_labelled env) _ 2 _ ltac:(lia) (wr_labelled_len env) Hl).
  erewrite rbind_ok.
  2:{ apply (r_until_wr _ (wr_labelled env) (wf_labelled env)); auto using r_labelled_wr.
      - intros. pose proof (wr_labelled_len env x H1). lia.
      - rewrite !app_length. unfold zlen in *. lia. }
  destruct e; fin.
Qed.
Definition wr_menu (env : Env) (s : bytes) : bytes :=
  match w_str env s with Ok d => w_u16 (zlen d) ++ d | _ => [] end.
Lemma rt_8303 env e : wf env (E8303 e) -> exists d, enc_8303 env e = Ok d /\ dec_8303 env d = Ok (e, zlen d).
Proof.
  intros (? & Hn & Hl). unfold enc_8303. rewrite (mapM_wr _ (wr_menu env) (fun s => text_in env s 65535)); auto.
  2:{ intros s Hs. destruct (text_in_w env _ _ Hs) as (d & E & Hd & _). unfold enc_8303_item, wr_menu. rewrite E. cbn [bind].
      rewrite (u16_len _ 65535) by lia. auto. }
  cbn [bind]. eexists. split; [reflexivity|]. unfold dec_8303. cbn [concat]. chk. rc. rewrite (u8_len _ 255) by lia.
  do 2 rstep. erewrite rbind_ok.
  2:{ apply (r_list_ids _ (wr_menu env) (fun s => text_in env s 65535)); auto.
      intros s r Hs. destruct (text_in_w env _ _ Hs) as (d & E & Hd & _ & _ & Hr & _). unfold r_8303_item, wr_menu. rewrite E.
      pose proof (u16_len_ok _ 65535 ltac:(lia) Hd). rewrite <- app_assoc. rstep. apply Hr. }
  destruct e; fin.
Qed.
Lemma rt_8304 env e : wf env (E8304 e) -> exists d, enc_8304 env e = Ok d /\ dec_8304 env d = Ok (e, zlen d).
Proof.
  intros (? & Hv). destruct (text_in_w env _ _ Hv) as (d & E & Hn & Hb & _ & Hr & _).
  unfold enc_8304. rewrite E. cbn [bind]. eexists. split; [reflexivity|].
  pose proof (u16_len_ok _ 65535 ltac:(lia) Hn).
  unfold dec_8304. cbn [concat]. chk. rc. rewrite (u16_len _ 65535) by lia. do 3 rstep. destruct e; fin.
Qed.
Lemma rt_8400 env e : text_ok env (a8400_number e) -> dec_8400 env (enc_8400 env e) = Ok (e, zlen (enc_8400 env e)).
Proof.
  intros Hv. destruct (text_ok_w env _ Hv) as (d & E & Hn & Hb & _ & _ & Hr & _).
  unfold dec_8400, enc_8400. rewrite E. cbn [concat]. chk. rc. rstep. rewrite app_nil_r. erewrite rbind_ok by exact Hr. destruct e; fin.
Qed.
Definition wr_contact (env : Env) (c : contact) : bytes :=
  match w_str env (ct_number c), w_str env (ct_name c) with
  | Ok n, Ok m => w_byte (ct_flag c) ++ w_byte (zlen n) ++ n ++ w_byte (zlen m) ++ m
  | _, _ => [] end.
Lemma rt_8401 env e : wf env (E8401 e) -> exists d, enc_8401 env e = Ok d /\ dec_8401 env d = Ok (e, zlen d).
Proof.
  intros (? & Hn & Hl). unfold enc_8401. rewrite (mapM_wr _ (wr_contact env) (wf_contact env)); auto.
  2:{ intros c (_ & H1 & H2). destruct (text_in_w env _ _ H1) as (d1 & E1 & L1 & _). destruct (text_in_w env _ _ H2) as (d2 & E2 & L2 & _).
      unfold enc_contact, wr_contact. rewrite E1, E2. cbn [bind]. rewrite !(u8_len _ 255) by lia. auto. }
  cbn [bind]. eexists. split; [reflexivity|]. unfold dec_8401. cbn [concat]. chk. rc. rewrite (u8_len _ 255) by lia.
  do 2 rstep. erewrite rbind_ok.
  2:{ apply (r_list_ids _ (wr_contact env) (wf_contact env)); auto.
      intros c r (_ & H1 & H2). destruct (text_in_w env _ _ H1) as (d1 & E1 & L1 & _ & _ & Hr1 & _).
      destruct (text_in_w env _ _ H2) as (d2 & E2 & L2 & _ & _ & Hr2 & _).
      unfold r_contact, wr_contact. rewrite E1, E2. rewrite <- !app_assoc. do 2 rstep. erewrite rbind_ok by apply Hr1.
      rstep. erewrite rbind_ok by apply Hr2. destruct c; fin. }
  destruct e; fin.
Qed.
Lemma rt_8800 env e : wf env (E8800 e) -> dec_8800 (enc_8800 e) = Ok (e, zlen (enc_8800 e)).
Proof.
  intros (? & Hi & Hn). unfold dec_8800, enc_8800. cbn [concat]. chk. rc.
  rstep. destruct e as [m ids]. cbn [a8800_media a8800_ids] in *. unfold r_len. unfold rbind at 1.
  destruct (Z.eqb_spec (zlen ids) 0) as [Z0|Z0].
  - apply zlen_0 in Z0. subst. fin.
  - rewrite <- app_assoc. replace (zlen _ =? 0) with false; [|symmetry; apply Z.eqb_neq; sizes; lia].
    rewrite (u8_len _ 255) by lia. rstep.
    erewrite rbind_ok by (apply (r_list_ids _ _ is_u16); auto using r_u16_w). fin.
Qed.
Lemma rt_8801 env e : wf env (E8801 e) -> dec_8801 (enc_8801 e) = Ok (e, zlen (enc_8801 e)).
Proof.
  intros (? & ? & ? & ? & ? & ? & ? & ? & ? & ?). unfold dec_8801, enc_8801. cbn [concat]. chk. rc. do 10 rstep. destruct e; fin.
Qed.
Lemma rt_8804 env e : wf env (E8804 e) -> dec_8804 (enc_8804 e) = Ok (e, zlen (enc_8804 e)).
Proof. intros (? & ? & ? & ?). unfold dec_8804, enc_8804. cbn [concat]. chk. rc. do 4 rstep. destruct e; fin. Qed.
Lemma rt_8805 env e : wf env (E8805 e) -> dec_8805 (enc_8805 e) = Ok (e, zlen (enc_8805 e)).
Proof. intros (? & ?). unfold dec_8805, enc_8805. cbn [concat]. chk. rc. do 2 rstep. destruct e; fin. Qed.
Lemma rt_8802_r env e r : wf_8802 env e -> r_8802 env (enc_8802 env e ++ r) = Ok (sent_8802 env e, r).
Proof. intros (? & ? & ? & ? & ?). unfold r_8802, enc_8802. flat. do 5 rstep. fin. Qed.
Lemma len_8802 env e : zlen (enc_8802 env e) = 15.
Proof. unfold enc_8802. cbn [concat]. sizes. lia. Qed.
Lemma rt_8802 env e : wf_8802 env e -> dec_8802 env (enc_8802 env e) = Ok (sent_8802 env e, zlen (enc_8802 env e)).
Proof.
  intros. unfold dec_8802. rewrite len_8802. change (15 <? 15) with false. cbv iota. rewrite <- (len_8802 env e).
  rc. rewrite <- (app_nil_r (enc_8802 env e)). apply rt_8802_r; auto.
Qed.
Lemma rt_8803 env e : wf_8802 env (a8803_q e) ->
  dec_8803 env (enc_8803 env e) = Ok (T8803 (sent_8802 env (a8803_q e)) (a8803_remove e), zlen (enc_8803 env e)).
Proof.
  intros. unfold dec_8803, enc_8803. cbn [concat].
  replace (zlen _ <? 16) with false by (symmetry; apply Z.ltb_ge; zl; rewrite len_8802; sizes; lia).
  rc. erewrite rbind_ok by (apply rt_8802_r; auto). rstep. fin.
Qed.
