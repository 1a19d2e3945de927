(** Flags: any sequence of setters, then any getter. *)
From Verif Require Import Base LibBase Bits LibBits ProofBits Flags SpecFlags.

Lemma setter_spec w f v b : 0 <= v < 2 ^ bits_of w ->
  match setter w f with
  | None => settable w f = false
  | Some s => settable w f = true /\ exists i v', bit_no w f = Some i /\ s v b = Ok v' /\ 0 <= v' < 2 ^ bits_of w /\ forall j, 0 <= j -> Z.testbit v' j = if j =? i then b else Z.testbit v j
  end.
Proof.
  intros V. destruct w, f; cbn [setter settable bit_no bits_of] in *; try reflexivity; (split; [reflexivity|]);
    match goal with |- exists i v', Some ?n = Some i /\ _ => exists n end;
    match goal with |- exists v', _ /\ ?s v b = _ /\ 0 <= _ < 2 ^ ?w /\ _ =>
      match eval unfold s in s with
      | context [set_bit _ _ ?o] => destruct (set_bit_spec w v o b ltac:(auto) V ltac:(lia)) as (v' & E & R & B)
      | _ => unfold s; match goal with |- exists v', _ /\ set_bit _ _ ?o _ = _ /\ _ => destruct (set_bit_spec w v o b ltac:(auto) V ltac:(lia)) as (v' & E & R & B) end
      end
    end; exists v'; (split; [reflexivity|]; split; [exact E|]; split; [exact R|]); intros j J; rewrite B by auto; rewrite andb_true_r; reflexivity.
Qed.
Lemma getter_spec w f v : 0 <= v < 2 ^ bits_of w ->
  match getter w f with
  | None => gettable w f = false
  | Some g => gettable w f = true /\ exists i, bit_no w f = Some i /\ g v = Ok (Z.testbit v i)
  end.
Proof.
  intros V. destruct w, f; cbn [getter gettable bit_no bits_of] in *; try reflexivity; (split; [reflexivity|]); eexists; (split; [reflexivity|]);
    unfold status_acc, status_positioning, status_south, status_west, area_south, area_west, section_timed, section_limited, section_south, section_west;
    rewrite get_bit_spec by (auto; lia); cbn [bind]; f_equal; try reflexivity; destruct (Z.testbit _ _); reflexivity.
Qed.
Lemma set_all_spec w calls : forall v, 0 <= v < 2 ^ bits_of w ->
  exists v', set_all w v calls = Ok v' /\ 0 <= v' < 2 ^ bits_of w /\ forall i, 0 <= i -> Z.testbit v' i = said w i calls (Z.testbit v i).
Proof.
  induction calls as [|[f b] calls IH]; intros v V; cbn [set_all]; [exists v; auto|].
  pose proof (setter_spec w f v b V) as S. destruct (setter w f) as [s|].
  - destruct S as (T & i & v1 & N & -> & V1 & B). cbn [bind]. destruct (IH v1 V1) as (v' & E & R & Q). exists v'. split; auto. split; auto.
    intros j J. rewrite Q by auto. unfold said. cbn [fold_left fst snd]. rewrite T, N, B by auto. cbn [andb]. rewrite (Z.eqb_sym i j). reflexivity.
  - destruct (IH v V) as (v' & E & R & Q). exists v'. split; auto. split; auto. intros j J. rewrite Q by auto. unfold said. cbn [fold_left fst snd]. rewrite S. reflexivity.
Qed.
Lemma flags_spec w calls v : 0 <= v < 2 ^ bits_of w ->
  exists v', set_all w v calls = Ok v' /\ 0 <= v' < 2 ^ bits_of w /\ (forall i, 0 <= i -> Z.testbit v' i = said w i calls (Z.testbit v i)) /\
    forall f g, getter w f = Some g -> exists i, bit_no w f = Some i /\ g v' = Ok (said w i calls (Z.testbit v i)).
Proof.
  intros V. destruct (set_all_spec w calls v V) as (v' & E & R & Q). exists v'. split; auto. split; auto. split; auto. intros f g G.
  pose proof (getter_spec w f v' R) as S. rewrite G in S. destruct S as (_ & i & N & ->). exists i. split; auto. rewrite Q; auto. destruct w, f; cbn in N; inversion N; lia.
Qed.
Lemma methods w f v : 0 <= v < 2 ^ bits_of w -> (setter w f <> None <-> settable w f = true) /\ (getter w f <> None <-> gettable w f = true).
Proof. intros V. destruct w, f; cbn; split; split; congruence. Qed.
