(** Two heartbeats in three reads. *)
From Verif Require Import Base LibBase Env Registry Message Codec Cost SpecCost SpecStream Demo.

Fixpoint within (f r : Z) (l : bytes) : bool :=
  (r <? f) && match l with [] => true | b :: t => if b =? 126 then within f 0 t else within f (r + 1) t end.
Lemma within_delimited f l : forall r, 0 <= r -> within f r l = true -> delimited f l /\ (forall g c, l = g ++ c -> ~ In 126 g -> r + zlen g < f).
Proof.
  induction l as [|b t IH]; intros r R H; cbn [within] in H; apply andb_prop in H as [H1 H2].
  - split; [intros a g c E _; symmetry in E; apply app_eq_nil in E as [_ E]; apply app_eq_nil in E as [-> _]|intros g c E _; symmetry in E; apply app_eq_nil in E as [-> _]]; change (zlen (@nil Z)) with 0; lia.
  - assert (G : delimited f t /\ forall g c, b :: t = g ++ c -> ~ In 126 g -> r + zlen g < f).
    { destruct (Z.eqb_spec b 126) as [->|N].
      - destruct (IH 0 (Z.le_refl 0) H2) as [D _]. split; [exact D|]. intros [|x g] c E I0; [change (zlen (@nil Z)) with 0; lia|]. injection E as <- _. exfalso. apply I0. left. reflexivity.
      - destruct (IH (r + 1) ltac:(lia) H2) as [D P]. split; [exact D|]. intros [|x g] c E I0; [change (zlen (@nil Z)) with 0; lia|]. injection E as -> E. rewrite zlen_cons. specialize (P g c E). cbn [In] in I0. assert (~ In 126 g) by tauto. specialize (P H). lia. }
    destruct G as [D P]. split; [|exact P]. intros [|x a] g c E I0; [specialize (P g c E I0); lia|injection E as _ E; exact (D a g c E I0)].
Qed.
Definition beat : bytes := [126; 0; 2; 0; 0; 1; 35; 69; 103; 137; 1; 0; 5; 143; 126].
Definition beats : list read_event := [RData (firstn 7 beat); RData (skipn 7 beat ++ firstn 3 beat); RData (skipn 3 beat)].
Lemma beats_case : events_ok beats /\ delimited 14 ([] ++ arrived beats) /\ reads_of beats = 3 /\ zlen (arrived beats) = 30 /\
  exists m, receive_all_c 3 demo_env None [] beats 0 = ([m; m], Waiting, 40).
Proof.
  split; [repeat constructor; vm_compute; discriminate|]. split; [apply (within_delimited 14 ([] ++ arrived beats) 0 (Z.le_refl 0)); vm_compute; reflexivity|]. split; [reflexivity|]. split; [reflexivity|].
  eexists. vm_compute. reflexivity.
Qed.
