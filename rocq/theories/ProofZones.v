(** Local clocks: what time.Date makes of a reading. *)
From Coq Require Import Sorted.
From Verif Require Import Base LibBase Bcd GoTime Zones SpecZones.

Notation later := (fun a b : Z * Z => fst a < fst b).
Lemma sorted_app_inv pre c post : StronglySorted later (pre ++ c :: post) -> (forall x, In x pre -> fst x < fst c) /\ (forall x, In x post -> fst c < fst x).
Proof.
  induction pre as [|p pre IH]; cbn [app]; intros S; apply StronglySorted_inv in S; destruct S as (S & F); rewrite Forall_forall in F; [split; [intros x []|auto]|].
  destruct (IH S) as (A & B). split; auto. intros x [<-|X]; auto. apply F, in_or_app. right. left. auto.
Qed.

(** ** lookup *)
Lemma look_spec ch : forall off start sec, StronglySorted later ch ->
  let '(o, s, e) := look off start ch sec in
  ((o = off /\ s = start /\ forall c, In c ch -> sec < fst c) \/
   exists pre w post, ch = pre ++ (w, o) :: post /\ s = Some w /\ w <= sec /\ forall c, In c post -> sec < fst c) /\
  match e with
  | None => forall c, In c ch -> fst c <= sec
  | Some w => sec < w /\ (exists o', In (w, o') ch) /\ forall c, In c ch -> sec < fst c -> w <= fst c
  end.
Proof.
  induction ch as [|[w o] ch IH]; intros off start sec S; cbn [look]; [split; [left; repeat split; intros c []|intros c []]|].
  apply StronglySorted_inv in S. destruct S as (S & F). rewrite Forall_forall in F. destruct (Z.ltb_spec sec w).
  - split.
    + left. repeat split; auto. intros c [<-|C]; auto. apply F in C. cbn in C. lia.
    + split; auto. split; [exists o; left; auto|]. intros c [<-|C] _; [cbn; lia|]. apply F in C. cbn in C. lia.
  - specialize (IH o (Some w) sec S). destruct (look o (Some w) ch sec) as [[o1 s1] e1]. destruct IH as (A & B). split.
    + right. destruct A as [(-> & -> & N)|(pre & w' & post & -> & -> & L & N)].
      * exists [], w, ch. repeat split; auto.
      * exists ((w, o) :: pre), w', post. repeat split; auto.
    + destruct e1 as [w'|].
      * destruct B as (B1 & (o' & B2) & B3). split; auto. split; [exists o'; right; auto|]. intros c [<-|C] L; auto. cbn in L. lia.
      * intros c [<-|C]; auto.
Qed.
Lemma offset_force loc u : loc_ok loc -> in_force loc u (offset_at loc u).
Proof.
  intros (S & _). unfold offset_at, lookup, in_force. pose proof (look_spec _ (lo_first loc) None u S) as Q. destruct (look _ _ _ _) as [[o s] e]. cbn [fst].
  destruct Q as ([(-> & _ & N)|(pre & w & post & E & _ & L & N)] & _); [left; auto|right; exists pre, w, post; auto].
Qed.
Lemma force_unique loc u o o' : loc_ok loc -> in_force loc u o -> in_force loc u o' -> o = o'.
Proof.
  intros (S & _) [(-> & N)|(pre & w & post & E & L & N)] [(-> & N')|(pre' & w' & post' & E' & L' & N')]; auto.
  - exfalso. specialize (N (w', o')). rewrite E' in N. cbn in N. specialize (N ltac:(apply in_or_app; right; left; auto)). lia.
  - exfalso. specialize (N' (w, o)). rewrite E in N'. cbn in N'. specialize (N' ltac:(apply in_or_app; right; left; auto)). lia.
  - pose proof S as S'. rewrite E in S. rewrite E' in S'. apply sorted_app_inv in S, S'. cbn [fst] in *.
    assert (I : In (w, o) (pre' ++ (w', o') :: post')) by (rewrite <- E', E; apply in_or_app; right; left; auto).
    assert (I' : In (w', o') (pre ++ (w, o) :: post)) by (rewrite <- E, E'; apply in_or_app; right; left; auto).
    apply in_app_or in I, I'. cbn [In] in I, I'.
    destruct I as [I|[I|I]]; [|congruence|apply N' in I; cbn in I; lia]. destruct I' as [I'|[I'|I']]; [|congruence|apply N in I'; cbn in I'; lia].
    apply (proj1 S') in I. apply (proj1 S) in I'. cbn in I, I'. lia.
Qed.
Lemma force_iff loc u o : loc_ok loc -> in_force loc u o <-> offset_at loc u = o.
Proof. intros K. split; [intros F; eapply force_unique; eauto; apply offset_force; auto|intros <-; apply offset_force; auto]. Qed.
Lemma offset_bound loc u : loc_ok loc -> -86400 <= offset_at loc u <= 86400.
Proof.
  intros K. destruct (offset_force loc u K) as [(-> & _)|(pre & w & post & E & _)]; [apply K|]. destruct K as (_ & _ & F). rewrite Forall_forall in F.
  apply (F (w, offset_at loc u)). rewrite E. apply in_or_app. right. left. auto.
Qed.
Lemma offset_const loc x y : loc_ok loc -> x <= y -> (forall c, In c (lo_changes loc) -> ~ x < fst c <= y) -> offset_at loc x = offset_at loc y.
Proof.
  intros K L N. apply force_iff; auto. destruct (offset_force loc y K) as [(-> & F)|(pre & w & post & E & W & F)].
  - left. split; auto. intros c C. apply F in C. lia.
  - right. exists pre, w, post. split; auto. split; [|intros c C; apply F in C; lia].
    assert (I : In (w, offset_at loc y) (lo_changes loc)) by (rewrite E; apply in_or_app; right; left; auto). apply N in I. cbn in I. lia.
Qed.

(** ** time.Date *)
Lemma date_cases v loc l : loc_ok loc -> quiet loc l -> let r := date_in v loc l in
  r + offset_at loc r = l \/
  exists w a b, l - 86400 < w <= l + 86400 /\ -86400 <= a <= 86400 /\ -86400 <= b <= 86400 /\
    (forall x, l - 86400 <= x < w -> offset_at loc x = a) /\ (forall x, w <= x <= l + 86400 -> offset_at loc x = b) /\
    ((w <= l /\ l - b < w /\ r = l - a) \/ (l < w /\ w <= l - a /\ r = l - b)).
Proof.
  intros K Q. pose proof (offset_bound loc l K) as B1. unfold offset_at at 1 2 in B1. pose proof K as (S & _). pose proof (look_spec _ (lo_first loc) None l S) as LS. cbn zeta. unfold date_in.
  assert (OL : offset_at loc l = fst (fst (lookup loc l))) by reflexivity.
  unfold lookup in *. destruct (look (lo_first loc) None (lo_changes loc) l) as [[o s] e]. cbn [fst] in B1, OL. destruct LS as (LB & LE).
  assert (ST : match s with Some w => w <= l /\ In (w, o) (lo_changes loc) /\ forall c, In c (lo_changes loc) -> ~ w < fst c <= l | None => forall c, In c (lo_changes loc) -> l < fst c end).
  { destruct LB as [(_ & -> & N)|(pre & w & post & E & -> & L & N)]; auto. split; auto. rewrite E. split; [apply in_or_app; right; left; auto|].
    rewrite E in S. apply sorted_app_inv in S. cbn [fst] in S. intros c C. apply in_app_or in C. destruct C as [C|[<-|C]]; [apply S in C; lia|cbn; lia|apply N in C; lia]. }
  destruct (Z.eqb_spec o 0) as [->|O0].
  { left. rewrite OL. lia. }
  destruct (match s with Some s0 => l - o <? s0 | None => false end) eqn:EA.
  - (* before the change that precedes the reading *)
    destruct s as [w|]; [|discriminate]. destruct ST as (W & IW & NB). right. exists w, (offset_at loc (w - 1)), o.
    assert (A : forall x, l - 86400 <= x < w -> offset_at loc x = offset_at loc (w - 1)).
    { intros x X. apply offset_const; [auto|lia|]. intros c C R. assert (c = (w, o)) by (apply Q; auto; cbn; lia). subst c. cbn in R. lia. }
    assert (B : forall x, w <= x <= l + 86400 -> offset_at loc x = o).
    { intros x X. rewrite <- OL. transitivity (offset_at loc w).
      - symmetry. apply offset_const; [auto|lia|]. intros c C R. assert (c = (w, o)) by (apply Q; auto; cbn; lia). subst c. cbn in R. lia.
      - apply offset_const; [auto|lia|auto]. }
    split; [lia|]. split; [apply offset_bound; auto|]. split; [lia|]. split; auto. split; auto. left. split; [lia|]. split; [lia|].
    destruct v; [reflexivity|]. cbn [orb]. rewrite (A (l - o)) by lia. reflexivity.
  - destruct (match e with Some e0 => l - o >=? e0 | None => false end) eqn:EB.
    + (* behind the change that follows it *)
      destruct e as [w|]; [|discriminate]. destruct LE as (W & (o' & IW) & NB). right. exists w, o, (offset_at loc w).
      assert (A : forall x, l - 86400 <= x < w -> offset_at loc x = o).
      { intros x X. rewrite <- OL. destruct (Z_le_gt_dec x l).
        - apply offset_const; [auto|lia|]. intros c C R. assert (c = (w, o')) by (apply Q; auto; cbn; lia). subst c. cbn in R. lia.
        - symmetry. apply offset_const; [auto|lia|]. intros c C R. specialize (NB c C). lia. }
      assert (B : forall x, w <= x <= l + 86400 -> offset_at loc x = offset_at loc w).
      { intros x X. symmetry. apply offset_const; [auto|lia|]. intros c C R. assert (c = (w, o')) by (apply Q; auto; cbn; lia). subst c. cbn in R. lia. }
      split; [lia|]. split; [lia|]. split; [apply offset_bound; auto|]. split; auto. split; auto. right. split; [lia|]. split; [lia|].
      destruct v; [reflexivity|]. cbn [orb]. rewrite (B (l - o)) by lia. reflexivity.
    + left. replace (match v with GoOld => _ | GoNew => _ end) with (l - o) by (destruct v; reflexivity).
      enough (E : offset_at loc (l - o) = o) by lia. rewrite <- OL. destruct (Z_le_gt_dec (l - o) l).
      * apply offset_const; [auto|lia|]. intros c C R. destruct s as [w|]; [apply ST in C; lia|apply ST in C; lia].
      * symmetry. apply offset_const; [auto|lia|]. intros c C R. destruct e as [w|]; [destruct LE as (_ & _ & LE); specialize (LE c C); lia|specialize (LE c C); lia].
Qed.
Lemma date_reads v loc l u : loc_ok loc -> quiet loc l -> u + offset_at loc u = l -> let r := date_in v loc l in r + offset_at loc r = l.
Proof.
  intros K Q U. pose proof (offset_bound loc u K) as BU. destruct (date_cases v loc l K Q) as [E|(w & a & b & W & BA & BB & A & B & C)]; cbn zeta in *; auto. destruct C as [(C1 & C2 & ->)|(C1 & C2 & ->)].
  - destruct (Z_lt_le_dec u w) as [L|L]; [rewrite A in U by lia|rewrite B in U by lia; lia]. replace (l - a) with u by lia. rewrite A by lia. lia.
  - destruct (Z_lt_le_dec u w) as [L|L]; [rewrite A in U by lia; lia|rewrite B in U by lia]. replace (l - b) with u by lia. rewrite B by lia. lia.
Qed.
Lemma date_gap v loc l : loc_ok loc -> quiet loc l -> (forall u, u + offset_at loc u <> l) -> let r := date_in v loc l in
  exists w n, forward loc w n /\ (r + offset_at loc r = l + n \/ r + offset_at loc r = l - n).
Proof.
  intros K Q N. destruct (date_cases v loc l K Q) as [E|(w & a & b & W & BA & BB & A & B & C)]; cbn zeta in *; [exfalso; eapply N; eauto|]. exists w, (b - a).
  assert (F : 0 < b - a -> forward loc w (b - a)).
  { intros P. exists a, b. rewrite !force_iff by auto. rewrite A, B by lia. auto. }
  destruct C as [(C1 & C2 & ->)|(C1 & C2 & ->)].
  - destruct (Z_lt_le_dec (l - a) w) as [L|L]; [exfalso; apply (N (l - a)); rewrite A by lia; lia|]. split; [apply F; lia|]. left. rewrite B by lia. lia.
  - destruct (Z_lt_le_dec (l - b) w) as [L|L]; [|exfalso; apply (N (l - b)); rewrite B by lia; lia]. split; [apply F; lia|]. right. rewrite A by lia. lia.
Qed.
