(** Merged contents without files. *)
From Coq Require Import Sorted Permutation.
From Verif Require Import Base LibBase Multipart LibMulti SpecMulti ProofMulti ProofMulti2.

Definition no_merge (m : mpf) (h : list mop) : Prop := Forall (fun o => match o with MMerge m' => same_upload m' m = false | _ => True end) h.
Definition last_ok (ops : list mop) (m : mpf) (old : option bytes) : Prop :=
  match old with
  | None => no_merge m ops
  | Some c => exists h m' h2, ops = h ++ MMerge m' :: h2 /\ same_upload m' m = true /\ no_merge m h2 /\ merged h m c
  end.
Lemma over_nil x : over x [] = x. Proof. unfold over. rewrite skipn_nil. apply app_nil_r. Qed.
Lemma merged_of_last ops m old l : last_ok ops m old -> parts_in_order ops m l -> merged ops m (over (concat (map snd l)) (match old with Some c => c | None => [] end)).
Proof.
  intros L P. destruct old as [c|]; [|rewrite over_nil; apply merged_first; auto]. destruct L as (h & m' & h2 & -> & S & N & M). eapply merged_again; eauto.
Qed.
Lemma same_upload_eq a b : same_upload a b = true -> forall x, same_upload x a = same_upload x b.
Proof. destruct (same_upload_spec a b) as [(A & B & C)|]; [|discriminate]. intros _ x. unfold same_upload. rewrite A, B, C. reflexivity. Qed.
Lemma written_same a b ops s : same_upload a b = true -> written ops a s = written ops b s.
Proof.
  intros E. induction ops as [|o ops IH] using rev_ind; auto. rewrite !written_snoc, IH. destruct o; auto. rewrite (same_upload_eq a b E). reflexivity.
Qed.
Lemma parts_same a b ops l : same_upload a b = true -> parts_in_order ops a l -> parts_in_order ops b l.
Proof. intros E (S & P). split; auto. intros s c. rewrite P, (written_same a b) by auto. tauto. Qed.
Lemma last_same a b outs : same_upload a b = true -> last_merge outs a = last_merge outs b.
Proof. intros E. induction outs as [|[m c] outs IH]; cbn [last_merge]; auto. rewrite (same_upload_eq a b E), IH. reflexivity. Qed.

Lemma last_run ops : Forall mop_ok ops -> forall f outs, mrun empty_fs [] ops = Ok (f, outs) -> forall m, last_ok ops m (last_merge outs m).
Proof.
  induction ops as [|o ops IH] using rev_ind; intros O f outs R m.
  - injection R as <- <-. constructor.
  - apply Forall_app in O. destruct O as (O & Oo). apply Forall_inv in Oo. rewrite mrun_app in R. destruct (mrun empty_fs [] ops) as [[g outs0]| |] eqn:E; cbn [bind] in R; try discriminate.
    specialize (IH O _ _ eq_refl). assert (KEEP : match o with MMerge m' => same_upload m' m = false | _ => True end -> last_ok (ops ++ [o]) m (last_merge outs0 m)).
    { intros K. specialize (IH m). destruct (last_merge outs0 m) as [c|]; cbn [last_ok] in *.
      - destruct IH as (h & m' & h2 & -> & S & N & M). exists h, m', (h2 ++ [o]). rewrite <- app_assoc. split; auto. split; auto. split; auto. apply Forall_app. split; auto.
      - apply Forall_app. split; auto. }
    destruct o as [m' s d|m']; cbn [mrun] in R.
    + destruct (mp_write g m' s d); cbn [bind] in R; try discriminate. injection R as _ <-. auto.
    + destruct (mp_merge g m') as [[c g']| |] eqn:Mg; cbn [bind] in R; try discriminate. injection R as _ <-. cbn [last_merge]. destruct (same_upload m' m) eqn:S; [|auto].
      exists ops, m', []. split; auto. split; auto. split; [constructor|]. assert (T : touched ops (mp_icc m')).
      { destruct (touched_dec ops (mp_icc m')) as [T|T]; auto. destruct (query_missing _ _ _ _ (minv_of _ _ _ O E) Oo T) as (_ & X). congruence. }
      destruct (merge_exact _ _ _ _ O Oo T E) as (l & g2 & P & X). rewrite Mg in X. injection X as -> _. rewrite (last_same m' m) by auto.
      apply merged_of_last; auto. eapply parts_same; eauto.
Qed.
Lemma merge_merged ops f outs m : Forall mop_ok ops -> mpf_ok m -> touched ops (mp_icc m) -> mrun empty_fs [] ops = Ok (f, outs) ->
  exists c f', mp_merge f m = Ok (c, f') /\ merged ops m c.
Proof.
  intros O M T R. destruct (merge_exact _ _ _ _ O M T R) as (l & f' & P & E). do 2 eexists. split; [exact E|]. apply merged_of_last; auto. apply (last_run ops O f); auto.
Qed.
Lemma last_split m m' m1 h2 h3 : same_upload m' m = true -> same_upload m1 m = true -> no_merge m h2 -> no_merge m h3 ->
  forall h h0, h ++ MMerge m' :: h2 = h0 ++ MMerge m1 :: h3 -> h = h0 /\ m' = m1 /\ h2 = h3.
Proof.
  intros S S0 N N0. induction h as [|z h IH]; intros [|w h0] E; cbn in E.
  - injection E as -> ->. auto.
  - injection E as <- ->. exfalso. apply Forall_app in N. destruct N as (_ & N). apply Forall_inv in N. congruence.
  - injection E as -> <-. exfalso. apply Forall_app in N0. destruct N0 as (_ & N0). apply Forall_inv in N0. congruence.
  - injection E as -> E. destruct (IH _ E) as (-> & -> & ->). auto.
Qed.
(** [merged] determines the content. *)
Lemma merged_unique ops m c : merged ops m c -> forall c', merged ops m c' -> c = c'.
Proof.
  induction 1 as [h m l N P|h m' h2 m l old S N M IH P]; intros c' X.
  - inversion X as [h0 m0 l0 N0 P0|h0 m1 h2 m0 l0 old S N0 M P0]; subst; [rewrite (parts_unique _ _ _ _ P P0); reflexivity|].
    apply Forall_app in N. destruct N as (_ & N). apply Forall_inv in N. congruence.
  - remember (h ++ MMerge m' :: h2) as hh eqn:E. destruct X as [h0 m l0 N0 P0|h0 m1 h3 m l0 old0 S0 N0 M0 P0].
    + subst h0. apply Forall_app in N0. destruct N0 as (_ & N0). apply Forall_inv in N0. congruence.
    + symmetry in E. destruct (last_split m m' m1 h2 h3 S S0 N N0 _ _ E) as (<- & _ & _). rewrite (parts_unique _ _ _ _ P P0), (IH _ M0). reflexivity.
Qed.
