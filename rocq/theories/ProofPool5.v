(** The type of a shared body never changes. *)
From Verif Require Import Base LibBase Env Registry EntTerm EntPlat Message Session Pool SpecPool ProofPool ProofPool2 ProofPool3.

Lemma id_encoded e : entity_id (encoded e) = entity_id e.
Proof. destruct e; reflexivity. Qed.
Lemma kind_kept env ops pl evs : pool_runs env ops pl evs -> forall p e, In (VNew p e) evs -> exists v, nth_error (pl_heap pl) p = Some v /\ entity_id v = entity_id e.
Proof.
  revert ops pl evs. apply (pool_ind env (fun pl evs => forall p e, In (VNew p e) evs -> exists v, nth_error (pl_heap pl) p = Some v /\ entity_id v = entity_id e)); [intros p e []|].
  intros pl evs op pl' es IH S p e I.
  assert (K : In (VNew p e) evs \/ In (VNew p e) es) by (apply in_app_or; exact I). destruct op; step S; cbn [pl_heap set_line];
    (destruct K as [K|K]; [destruct (IH p e K) as (v & Hv & Ev)|cbn [In] in K; repeat destruct K as [K|K]; try discriminate; try contradiction]); eauto.
  1: exists v; split; [rewrite nth_error_app1; [exact Hv|apply nth_error_Some; congruence]|exact Ev].
  1: { injection K as <- ->. exists e. split; [rewrite nth_error_app2, Nat.sub_diag by lia; reflexivity|reflexivity]. }
  all: rewrite put_nth_get; match goal with |- context [Nat.eqb ?x ?k] => destruct (Nat.eqb_spec x k) as [->|N] end; [|eauto]; rewrite Hv; eexists; (split; [reflexivity|]);
    match goal with
    | H : nth_error (pl_heap _) _ = Some ?o |- _ => assert (o = v) by congruence; subst o
    end; rewrite ?id_encoded; try assumption; try (apply Z.eqb_eq in Heqb; congruence).
  all: try (match goal with H : (entity_id _ =? entity_id _) = true |- _ => apply Z.eqb_eq in H; congruence end).
Qed.
Lemma kind_made env ops pl evs : pool_runs env ops pl evs -> forall g s h p e, In (VMake g s h p e) evs -> exists v, nth_error (pl_heap pl) p = Some v /\ entity_id v = h_id h.
Proof.
  revert ops pl evs. apply (pool_ind env (fun pl evs => forall g s h p e, In (VMake g s h p e) evs -> exists v, nth_error (pl_heap pl) p = Some v /\ entity_id v = h_id h)); [intros g s h p e []|].
  intros pl evs op pl' es IH S g s h p e I.
  assert (K : In (VMake g s h p e) evs \/ In (VMake g s h p e) es) by (apply in_app_or; exact I). destruct op; step S; cbn [pl_heap set_line];
    (destruct K as [K|K]; [destruct (IH g s h p e K) as (v & Hv & Ev)|cbn [In] in K; repeat destruct K as [K|K]; try discriminate; try contradiction]); eauto.
  1: exists v; split; [rewrite nth_error_app1; [exact Hv|apply nth_error_Some; congruence]|exact Ev].
  all: try (injection K as <- <- <- <- <-; eexists; split; [eassumption|reflexivity]).
  all: rewrite put_nth_get; match goal with |- context [Nat.eqb ?x ?k] => destruct (Nat.eqb_spec x k) as [->|N] end; [|eauto]; rewrite Hv; eexists; (split; [reflexivity|]);
    match goal with
    | H : nth_error (pl_heap _) _ = Some ?o |- _ => assert (o = v) by congruence; subst o
    end; rewrite ?id_encoded; try assumption.
  all: try (match goal with H : (entity_id _ =? entity_id _) = true |- _ => apply Z.eqb_eq in H; congruence end).
Qed.
Lemma written_kind env ops pl evs a s rnd m d b : pool_runs env ops pl evs -> evs = a ++ VWire s rnd m d :: b ->
  exists v, value (po_ptr m) a = Some v /\ entity_id v = h_id (po_hdr m).
Proof.
  intros R E. destruct (pool_moment env ops pl evs a _ b R E) as (ops1 & op & pl1 & pl2 & R1 & S).
  assert (M : In m (made s a)).
  { assert (R2 : pool_runs env (ops1 ++ [op]) pl2 (a ++ [VWire s rnd m d])).
    { unfold pool_runs in *. rewrite pool_run_app, R1. cbn [bind pool_run]. rewrite S. cbn [bind]. rewrite app_nil_r. reflexivity. }
    destruct (dealt_made env _ _ _ s R2) as (rest & P). rewrite made_app, dealt_app in P. cbn [made dealt flat_map app] in P. rewrite Nat.eqb_refl, app_nil_r in P.
    eapply Permutation.Permutation_in; [symmetry; exact P|]. apply in_or_app. left. apply in_or_app. right. left. reflexivity. }
  unfold made in M. apply in_flat_map in M as (x & I & M). destruct x as [| |g s' h p e| | | |]; cbn [In] in M; try contradiction.
  destruct (Nat.eqb s' s); cbn [In] in M; [|contradiction]. destruct M as [<-|[]].
  destruct (kind_made env _ _ _ R1 g s' h p e I) as (v & Hv & Ev). exists v. cbn [po_ptr po_hdr]. rewrite <- (heap_value env _ _ _ R1). auto.
Qed.
Lemma value_kind env ops pl evs p e v : pool_runs env ops pl evs -> In (VNew p e) evs -> value p evs = Some v -> entity_id v = entity_id e.
Proof. intros R I V. destruct (kind_kept env ops pl evs R p e I) as (w & Hw & Ew). rewrite (heap_value env _ _ _ R) in Hw. congruence. Qed.
