(** What the outcomes of a server whose calls may fail say. *)
From Coq Require Import Sorted Permutation.
From Verif Require Import Base LibBase Bcd Multipart Overlap Faults LibMulti SpecMulti ProofMulti SpecFaults ProofFaults.

Lemma io_run_own h f os m : Forall attempt_ok h -> io_run empty_fs h = Ok (f, os) ->
  length os = length h /\ exists u, upload_run new_upload (own m h) = Some (u, own_outcomes m h os).
Proof.
  intros O R. pose proof (io_run_uploads h O _ _ finv_init) as Q. rewrite R in Q. destruct Q as (L & U & _ & Q). split; auto. exists (U m). apply Q.
Qed.
Lemma io_run_same h h' f f' os os' m : Forall attempt_ok h -> Forall attempt_ok h' -> own m h = own m h' ->
  io_run empty_fs h = Ok (f, os) -> io_run empty_fs h' = Ok (f', os') -> own_outcomes m h os = own_outcomes m h' os'.
Proof.
  intros O O' E R R'. destruct (io_run_own _ _ _ m O R) as (_ & u & A). destruct (io_run_own _ _ _ m O' R') as (_ & u' & B). rewrite E in A. congruence.
Qed.

(** ** Answers *)
Lemma packet_answer f p x f' o : fs_priv f = true -> packet_io f p x = Ok (f', o) -> fs_priv f' = true /\ (o = OFail <-> io_write x <> WDone).
Proof.
  intros P. unfold packet_io, write_io. rewrite P. cbn [negb]. destruct (io_write x) as [| | |k]; cbn [negb].
  2,3,4: intros E; injection E as <- <-; (split; [auto|split; [discriminate|auto]]).
  destruct (_ =? _); cbn [negb]; [|intros E; injection E as <- <-; (split; [auto|split; [discriminate|congruence]])].
  destruct (is_full_io _ _ _) as [[]| |]; cbn [bind negb]; try discriminate; [|intros E; injection E as <- <-; (split; [auto|split; [discriminate|congruence]])].
  unfold merge_io. destruct (walk_io _ _ _) as [l| |]; cbn [bind]; try discriminate. cbn [fs_priv].
  destruct (io_merge x); cbn [bind]; intros E; inversion E; subst; cbn [fs_priv]; (split; [auto|split; [discriminate|congruence]]).
Qed.
Lemma io_run_answers h : forall f f' os, fs_priv f = true -> io_run f h = Ok (f', os) -> Forall2 (fun (a : attempt) o => o = OFail <-> io_write (snd a) <> WDone) h os.
Proof.
  induction h as [|[p x] h IH]; cbn [io_run]; intros f f' os P E; [injection E as _ <-; constructor|].
  destruct (packet_io f p x) as [[f1 o]| |] eqn:Q; cbn [bind] in E; try discriminate. apply packet_answer in Q; auto. destruct Q as (P1 & A).
  destruct (io_run f1 h) as [[f2 os2]| |] eqn:R; cbn [bind] in E; try discriminate. injection E as _ <-. constructor; auto. eapply IH; eauto.
Qed.

(** ** Pieces and what files hold *)
Lemma upload_run_app h1 h2 u : upload_run u (h1 ++ h2) =
  match upload_run u h1 with None => None | Some (u1, o1) => match upload_run u1 h2 with None => None | Some (u2, o2) => Some (u2, o1 ++ o2) end end.
Proof.
  revert u. induction h1 as [|a h1 IH]; intros u; cbn [app upload_run]; [destruct (upload_run u h2) as [[]|]; reflexivity|].
  destruct (upload_step u a) as [[u1 o]|]; auto. rewrite IH. destruct (upload_run u1 h1) as [[u2 os]|]; auto. destruct (upload_run u2 h2) as [[]|]; reflexivity.
Qed.
Lemma own_app m h1 h2 : own m (h1 ++ h2) = own m h1 ++ own m h2.
Proof. apply filter_app. Qed.
Lemma held_snoc h a m s : held (h ++ [a]) m s =
  if of_upload m a && (pk_seq (fst a) =? s) then match leaves (pk_data (fst a)) (io_write (snd a)) with Some c => Some c | None => held h m s end else held h m s.
Proof. unfold held. rewrite fold_left_app. reflexivity. Qed.
Lemma merging_pieces x u u' o : merging x u = Some (u', o) -> ul_pieces u' = ul_pieces u.
Proof. unfold merging. destruct x as [[]| | | |]; intros E; inversion E; reflexivity. Qed.
Lemma step_pieces u a u' o : upload_step u a = Some (u', o) ->
  ul_pieces u' = match leaves (pk_data (fst a)) (io_write (snd a)) with Some c => put_piece (pk_seq (fst a)) c (ul_pieces u) | None => ul_pieces u end.
Proof.
  destruct a as [p x]. unfold upload_step. cbn [fst snd]. destruct (io_write x) as [| | |k]; cbn [leaves]; intros E; try (inversion E; reflexivity).
  destruct (negb _); [inversion E; reflexivity|]. destruct (io_full x); try discriminate.
  - destruct (complete _ _); [|inversion E; reflexivity]. apply merging_pieces in E. exact E.
  - destruct (_ =? 0); [|inversion E; reflexivity]. apply merging_pieces in E. exact E.
Qed.
Lemma step_full u a u' o : upload_step u a = Some (u', o) -> (io_write (snd a) = WDone /\ pk_seq (fst a) = mp_sum (pk_up (fst a))) \/ ul_full u' = ul_full u.
Proof.
  destruct a as [p x]. unfold upload_step. cbn [fst snd]. destruct (io_write x) as [| | |k]; cbn [leaves]; intros E; try (inversion E; auto; fail).
  destruct (Z.eqb_spec (pk_seq p) (mp_sum (pk_up p))); auto. inversion E; auto.
Qed.
Lemma run_pieces h m u os : Forall attempt_ok h -> upload_run new_upload (own m h) = Some (u, os) ->
  ul_ok u /\ (forall s, piece s (ul_pieces u) = held h m s) /\ ((forall a, In a h -> ~ may_merge m a) -> ul_full u = None).
Proof.
  revert u os. induction h as [|a h IH] using rev_ind; intros u os O R; [injection R as <- <-; repeat split; constructor|].
  apply Forall_app in O. destruct O as (O & Oa). pose proof (Forall_inv Oa) as A. rewrite own_app, upload_run_app in R. destruct (upload_run new_upload (own m h)) as [[u1 o1]|]; [|discriminate].
  destruct (IH _ _ O eq_refl) as ((SS & RG) & PC & FU). unfold own in R. cbn [filter] in R. destruct (of_upload m a) eqn:E; cbn [upload_run] in R.
  2:{ injection R as <- <-. split; [split; auto|]. split; [intros s; rewrite held_snoc, E; cbn [andb]; auto|].
      intros N. apply FU. intros b B. apply N, in_or_app. auto. }
  destruct (upload_step u1 a) as [[u2 o]|] eqn:T; [|discriminate]. injection R as <- <-. pose proof (step_pieces _ _ _ _ T) as SP. split; [|split].
  - split; rewrite SP; destruct (leaves _ _); auto; [apply put_sorted; auto|]. rewrite Forall_forall in *. intros q Q. apply put_in in Q. destruct Q as [->|Q]; auto. apply A.
  - intros s. rewrite held_snoc, E, SP. cbn [andb]. destruct (leaves _ _) as [c|]; [rewrite put_piece_get, PC by auto; destruct (_ =? s); auto|rewrite PC; destruct (_ =? s); auto].
  - intros N. destruct (step_full _ _ _ _ T) as [X| ->]; [|apply FU; intros b B; apply N, in_or_app; auto]. exfalso. apply (N a); [apply in_or_app; right; left; auto|]. split; auto.
Qed.
Lemma own_out_snoc m h a os o : length os = length h -> own_outcomes m (h ++ [a]) (os ++ [o]) = own_outcomes m h os ++ (if of_upload m a then [o] else []).
Proof.
  intros L. unfold own_outcomes. revert os L. induction h as [|b h IH]; intros [|o' os] L; try discriminate; [cbn [app combine filter map fst snd]; destruct (of_upload m a); reflexivity|].
  cbn [app combine filter fst]. injection L as L. specialize (IH os L). destruct (of_upload m b); cbn [map app snd]; rewrite IH; reflexivity.
Qed.
Lemma run_snoc m h a f os o : Forall attempt_ok (h ++ [a]) -> length os = length h -> of_upload m a = true -> io_run empty_fs (h ++ [a]) = Ok (f, os ++ [o]) ->
  exists u u', upload_run new_upload (own m h) = Some (u, own_outcomes m h os) /\ upload_step u a = Some (u', o).
Proof.
  intros O L E R. destruct (io_run_own _ _ _ m O R) as (_ & u' & Q). rewrite own_app, upload_run_app, own_out_snoc in Q by auto. rewrite E in Q.
  destruct (upload_run new_upload (own m h)) as [[u o1]|]; [|discriminate]. unfold own in Q. cbn [filter] in Q. rewrite E in Q. cbn [upload_run] in Q.
  destruct (upload_step u a) as [[u2 o2]|] eqn:T; [|discriminate]. injection Q as X Y. subst. apply app_inj_tail in Y. destruct Y as (-> & ->). eauto.
Qed.

(** ** The message that is handed over *)
Lemma whole_pieces h p x f os c : Forall attempt_ok (h ++ [(p, x)]) -> length os = length h -> io_run empty_fs (h ++ [(p, x)]) = Ok (f, os ++ [OWhole c]) ->
  io_full x = KDone -> io_merge x = MWalk KDone ->
  (forall i, 1 <= i <= mp_sum (pk_up p) -> held (h ++ [(p, x)]) (pk_up p) i <> None) /\
  exists l rest, held_in_order (h ++ [(p, x)]) (pk_up p) l /\ c = concat (map snd l) ++ rest /\
    ((forall a, In a h -> ~ may_merge (pk_up p) a) -> rest = []).
Proof.
  intros O L R KF KM. assert (E : of_upload (pk_up p) (p, x) = true) by apply same_refl. destruct (run_snoc _ _ _ _ _ _ O L E R) as (u & u' & Q & T).
  assert (OH : Forall attempt_ok h) by (apply Forall_app in O; tauto). assert (OP : packet_ok p) by (rewrite Forall_forall in O; apply (O (p, x)), in_or_app; right; left; auto).
  pose proof (run_pieces _ _ _ _ OH Q) as (K & PC & FU).
  assert (Q2 : exists os2, upload_run new_upload (own (pk_up p) (h ++ [(p, x)])) = Some (u', os2)).
  { rewrite own_app, upload_run_app, Q. unfold own. cbn [filter]. rewrite E. cbn [upload_run]. rewrite T. eauto. }
  destruct Q2 as (os2 & Q2). pose proof (run_pieces _ _ _ _ O Q2) as ((SS & RG) & PC2 & _). pose proof OP as ((_ & _ & _ & SU) & _). unfold is_u16 in SU.
  unfold upload_step in T. destruct (io_write x) as [| | |k] eqn:W; cbn [leaves] in T; try discriminate.
  destruct (negb _); [discriminate|]. rewrite KF, KM in T. destruct (complete _ _) eqn:CO; [|discriminate]. cbn [merging ul_pieces ul_full] in T, CO.
  injection T as <- <-. cbn [ul_pieces] in *. split.
  - intros i I. rewrite <- PC2. eapply complete_iff in CO; [exact CO|lia|exact SS|exact I].
  - eexists _, _. split; [|split; [reflexivity|]].
    + split; [exact SS|]. intros s b. rewrite piece_in by exact SS. rewrite PC2. split; [|tauto]. intros H. split; auto. rewrite Forall_forall in RG.
      apply (RG (s, b)). apply piece_in; [exact SS|]. rewrite PC2. auto.
    + intros N. rewrite (FU N). apply skipn_nil.
Qed.
Lemma held_done h m s c : (forall a k, In a h -> of_upload m a = true -> io_write (snd a) <> WShort k) -> held h m s = Some c ->
  exists p x, In (p, x) h /\ of_upload m (p, x) = true /\ io_write x = WDone /\ pk_seq p = s /\ pk_data p = c.
Proof.
  induction h as [|[p x] h IH] using rev_ind; intros N H; [discriminate|]. rewrite held_snoc in H. cbn [fst snd] in H.
  assert (R : held h m s = Some c -> exists p0 x0, In (p0, x0) (h ++ [(p, x)]) /\ of_upload m (p0, x0) = true /\ io_write x0 = WDone /\ pk_seq p0 = s /\ pk_data p0 = c).
  { intros G. destruct IH as (p' & x' & I & J); auto; [intros a k A; apply N, in_or_app; auto|]. exists p', x'. split; auto. apply in_or_app. auto. }
  destruct (of_upload m (p, x)) eqn:E; cbn [andb] in H; auto. destruct (Z.eqb_spec (pk_seq p) s) as [Es|]; auto.
  destruct (io_write x) as [| | |k] eqn:W; cbn [leaves] in H; auto.
  - injection H as <-. exists p, x. repeat split; auto. apply in_or_app. right. left. auto.
  - exfalso. apply (N (p, x) k); auto. apply in_or_app. right. left. auto.
Qed.

(** ** Crashes *)
Lemma step_none u a : upload_step u a = None -> losing a.
Proof.
  destruct a as [p x]. unfold upload_step, losing. cbn [fst snd]. destruct (io_write x) as [| | |k]; cbn [leaves]; try discriminate.
  destruct (Z.eqb_spec (pk_seq p) (mp_sum (pk_up p))); cbn [negb]; try discriminate. unfold merging.
  destruct (io_full x); auto; [destruct (complete _ _)|destruct (_ =? 0)]; try discriminate; destruct (io_merge x) as [[]| | | |]; try discriminate; intros _; repeat split; auto; right; split; auto; discriminate.
Qed.
Lemma run_none h : forall u, upload_run u h = None -> exists a, In a h /\ losing a.
Proof.
  induction h as [|a h IH]; intros u E; cbn [upload_run] in E; [discriminate|]. destruct (upload_step u a) as [[u1 o]|] eqn:T.
  - destruct (upload_run u1 h) as [[]|] eqn:R; [discriminate|]. destruct (IH _ R) as (b & B & L). exists b. split; [right; auto|auto].
  - exists a. split; [left; auto|]. eapply step_none; eauto.
Qed.
Lemma io_run_total h : Forall attempt_ok h -> (exists f os, io_run empty_fs h = Ok (f, os)) \/ (io_run empty_fs h = Panic /\ exists a, In a h /\ losing a).
Proof.
  intros O. pose proof (io_run_uploads h O _ _ finv_init) as Q. destruct (io_run empty_fs h) as [[f os]|e|]; [left; eauto|tauto|]. right. split; auto.
  destruct Q as (m & _ & Q). destruct (run_none _ _ Q) as (a & A & L). exists a. split; auto. unfold own in A. apply filter_In in A. tauto.
Qed.
Lemma io_run_dies h p x : Forall attempt_ok h -> In (p, x) h -> io_write x = WDone -> pk_seq p = mp_sum (pk_up p) -> io_full x = KGone -> io_run empty_fs h = Panic.
Proof.
  intros O I W S F. pose proof (io_run_uploads h O _ _ finv_init) as Q. destruct (io_run empty_fs h) as [[f os]|e|]; [|tauto|auto]. exfalso.
  destruct Q as (_ & U & _ & Q). specialize (Q (pk_up p)). assert (J : In (p, x) (own (pk_up p) h)) by (apply filter_In; split; auto; apply same_refl).
  revert Q J. generalize (own_outcomes (pk_up p) h os) (U (pk_up p)). generalize new_upload. induction (own (pk_up p) h) as [|a t IH]; intros u os2 u2 Q J; [destruct J|].
  cbn [upload_run] in Q. destruct J as [->|J].
  - unfold upload_step in Q. rewrite W in Q. cbn [leaves] in Q. rewrite S, Z.eqb_refl in Q. cbn [negb] in Q. rewrite F in Q. discriminate.
  - destruct (upload_step u a) as [[u1 o]|]; [|discriminate]. destruct (upload_run u1 t) as [[u3 os3]|] eqn:R; [|discriminate]. eapply IH; eauto.
Qed.

(** ** No faults *)
Lemma no_faults_step f p : packet_io f p no_faults =
  match mp_write f (pk_up p) (pk_seq p) (pk_data p) with
  | Ok f1 => if negb (pk_seq p =? mp_sum (pk_up p)) then Ok (f1, OKept)
             else do full <- is_full f1 (pk_up p) ;
                  if full then (do (c, f2) <- mp_merge f1 (pk_up p) ; Ok (f2, OWhole c)) else Ok (f1, OKept)
  | _ => Ok (f, OFail)
  end.
Proof.
  unfold packet_io, write_io, mp_write, is_full, is_full_io, mp_merge, merge_io, no_faults. cbn [io_write io_full io_merge walk_io]. fold (dir_of f (pk_up p)).
  destruct (fs_priv f); cbn [negb]; [|reflexivity]. destruct (negb _); [reflexivity|]. set (f1 := Fs true _). destruct (walk_parts f1 (pk_up p)) as [l| |] eqn:W; cbn [bind]; try reflexivity.
  destruct (fold_left _ _ _); cbn [negb]; [|reflexivity]. unfold walk_parts in W. unfold dir_of at 1 2 3. destruct (alist_get (fs_dirs f1) _); [|discriminate]. reflexivity.
Qed.
