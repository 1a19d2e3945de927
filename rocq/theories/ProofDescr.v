(** Proofs for C198 and C199. *)
From Coq Require Import Permutation.
From Verif Require Import Base LibBase Multipart LibMulti SpecMulti ProofMulti ProofMulti2 Overlap Faults Descr SpecDescr.

(** ** Balance *)
Lemma once_held o t t1 ok : fd_once o t = (t1, ok) -> fd_held t1 = fd_held t /\ fd_peak t <= fd_peak t1 <= Z.max (fd_peak t) (fd_held t + 1).
Proof. unfold fd_once, fd_open, fd_close. destruct (o _ _); cbn zeta iota beta; intros E; injection E as <- <-; cbn [fd_held fd_peak]; lia. Qed.
Lemma open_held o t t1 ok : fd_open o t = (t1, ok) -> fd_held t1 = fd_held t + (if ok then 1 else 0) /\ fd_peak t1 = (if ok then Z.max (fd_peak t) (fd_held t + 1) else fd_peak t).
Proof. unfold fd_open. destruct (o _ _); intros E; injection E as <- <-; cbn [fd_held fd_peak]; lia. Qed.
Lemma parts_held o parts : forall t k t1 k1 all, fd_parts o t k parts = (t1, k1, all) -> fd_held t1 = fd_held t + (k1 - k) /\ k <= k1 <= k + zlen parts /\
  (all = true -> k1 = k + zlen parts) /\ (fd_held t <= fd_peak t -> fd_held t1 <= fd_peak t1 /\ fd_peak t1 = Z.max (fd_peak t) (fd_held t1)).
Proof.
  induction parts as [|x l IH]; intros t k t1 k1 all E; cbn [fd_parts] in E.
  - injection E as <- <- <-. unfold zlen. cbn. lia.
  - destruct (fd_open o t) as [t2 ok] eqn:O. apply open_held in O. destruct O as (O1 & O2). destruct ok.
    + apply IH in E. destruct E as (A & B & C & D). unfold zlen in *. cbn [length]. split; [lia|]. split; [lia|]. split; [intros X; specialize (C X); lia|]. intros X. specialize (D ltac:(lia)). lia.
    + injection E as <- <- <-. unfold zlen. cbn [length]. split; [lia|]. split; [lia|]. split; [discriminate|]. lia.
Qed.
Lemma walk_length f m x parts : walk_io f m x = Ok parts -> x = KDone \/ x = KNoList -> (exists all, walk_io f m KDone = Ok all /\ zlen parts <= zlen all).
Proof.
  intros W [->| ->]; [exists parts; split; auto; lia|]. cbn [walk_io] in *. unfold walk_parts. destruct (alist_get _ _); [|discriminate]. injection W as <-.
  eexists. split; [reflexivity|]. unfold zlen. cbn [length]. lia.
Qed.
Lemma merge_io_some f m x f' c : merge_io f m x = Ok (f', c) -> c <> None <-> exists k, x = MWalk k.
Proof.
  unfold merge_io. destruct (walk_io _ _ _); cbn [bind]; try discriminate. destruct x; intros E; injection E as _ <-; (split; [intros X; first [exfalso; apply X; reflexivity|eexists; reflexivity]|intros (? & ?); congruence]).
Qed.
Ltac step_res E := match type of E with bind ?e _ = _ => let X := fresh "X" in destruct e as [?| |] eqn:X; cbn [bind] in E; try discriminate end.
Lemma merge_held o f m cp t f' c t' : fd_held t <= fd_peak t -> merge_fd o f m cp t = Ok (f', c, t') ->
  fd_held t' = fd_held t + match c with Some _ => 1 | None => 0 end /\ fd_held t' <= fd_peak t' /\ fd_peak t <= fd_peak t' /\
  exists all, walk_io f m KDone = Ok all /\ fd_peak t' <= Z.max (fd_peak t) (fd_held t + zlen all + 2).
Proof.
  intros HP E. unfold merge_fd in E. destruct (fd_once o t) as [t1 listed] eqn:O1. apply once_held in O1. destruct O1 as (H1 & P1).
  step_res E. rename a into parts. destruct (walk_length _ _ _ _ X) as (all & WA & LA); [destruct listed; auto|].
  destruct (fd_parts o t1 0 parts) as [[t2 k] al] eqn:O2. apply parts_held in O2. destruct O2 as (H2 & K2 & A2 & P2). specialize (P2 ltac:(lia)).
  assert (ZP : 0 <= zlen parts) by (unfold zlen; lia).
  destruct al; cbn [negb] in E.
  2:{ step_res E. destruct a as [f1 c1]. injection E as <- <- <-. cbn [fd_close fd_held fd_peak]. apply merge_io_some in X0. destruct c1 as [c1|]; [exfalso; destruct (proj1 X0) as (? & ?); congruence|].
      split; [lia|]. split; [lia|]. split; [lia|]. exists all. split; auto. lia. }
  specialize (A2 eq_refl). destruct (fd_open o t2) as [t3 wr] eqn:O3. apply open_held in O3. destruct O3 as (H3 & P3). destruct wr; cbn [negb] in E.
  2:{ step_res E. destruct a as [f1 c1]. injection E as <- <- <-. cbn [fd_close fd_held fd_peak]. apply merge_io_some in X0. destruct c1 as [c1|]; [exfalso; destruct (proj1 X0) as (? & ?); congruence|].
      split; [lia|]. split; [lia|]. split; [lia|]. exists all. split; auto. lia. }
  destruct (if listed then cp else None) as [n|].
  - step_res E. destruct a as [f1 c1]. injection E as <- <- <-. cbn [fd_close fd_held fd_peak]. apply merge_io_some in X0. destruct c1 as [c1|]; [exfalso; destruct (proj1 X0) as (? & ?); congruence|].
    split; [lia|]. split; [lia|]. split; [lia|]. exists all. split; auto. lia.
  - destruct (fd_open o t3) as [t4 rdr] eqn:O4. apply open_held in O4. destruct O4 as (H4 & P4). step_res E. destruct a as [f1 c1]. injection E as <- <- <-. cbn [fd_close fd_held fd_peak].
    apply merge_io_some in X0. destruct rdr.
    + destruct c1 as [c1|]; [|exfalso; apply (proj2 X0); eauto]. split; [lia|]. split; [lia|]. split; [lia|]. exists all. split; auto. lia.
    + destruct c1 as [c1|]; [exfalso; destruct (proj1 X0) as (? & ?); destruct listed; congruence|]. split; [lia|]. split; [lia|]. split; [lia|]. exists all. split; auto. lia.
Qed.

(** Everything opened is closed. *)
Lemma all_closed o f p cp t f' out t' : fd_held t <= fd_peak t -> packet_fd o f p cp t = Ok (f', out, t') -> fd_held t' = fd_held t.
Proof.
  intros HP E. unfold packet_fd in E. destruct (if fs_priv f then fd_once o t else (t, false)) as [t1 wrote] eqn:O1.
  assert (H1 : fd_held t1 = fd_held t /\ fd_held t1 <= fd_peak t1) by (destruct (fs_priv f); [apply once_held in O1; lia|injection O1 as <- <-; lia]).
  destruct (write_io _ _ _ _ _) as [f1 ok]. destruct (negb ok); [injection E as <- <- <-; lia|]. destruct (negb _); [injection E as <- <- <-; lia|].
  destruct (fd_once o t1) as [t2 listed] eqn:O2. apply once_held in O2. step_res E. destruct (negb a); [injection E as <- <- <-; lia|].
  step_res E. destruct a0 as [[f2 c] t3]. apply merge_held in X0; [|lia]. destruct X0 as (A & B & _). destruct c; injection E as <- <- <-; cbn [fd_close fd_held]; lia.
Qed.
Lemma most_held o f p cp t f' out t' : fd_held t <= fd_peak t -> packet_fd o f p cp t = Ok (f', out, t') ->
  fd_peak t' <= Z.max (fd_peak t) (fd_held t + 1) \/ exists all, walk_parts (fst (write_io f (pk_up p) (pk_seq p) (pk_data p) WDone)) (pk_up p) = Ok all /\ fd_peak t' <= Z.max (fd_peak t) (fd_held t + zlen all + 2).
Proof.
  intros HP E. unfold packet_fd in E. destruct (if fs_priv f then fd_once o t else (t, false)) as [t1 wrote] eqn:O1.
  assert (H1 : fd_held t1 = fd_held t /\ fd_held t1 <= fd_peak t1 /\ fd_peak t <= fd_peak t1 <= Z.max (fd_peak t) (fd_held t + 1)) by (destruct (fs_priv f); [apply once_held in O1; lia|injection O1 as <- <-; lia]).
  destruct (write_io _ _ _ _ _) as [f1 ok] eqn:W. destruct ok; cbn [negb] in E; [|injection E as <- <- <-; left; lia]. destruct (negb _); [injection E as <- <- <-; left; lia|].
  destruct (fd_once o t1) as [t2 listed] eqn:O2. apply once_held in O2. step_res E. destruct (negb a); [injection E as <- <- <-; left; lia|].
  step_res E. destruct a0 as [[f2 c] t3]. apply merge_held in X0; [|lia]. destruct X0 as (A & B & C & all & W2 & P). right. exists all. cbn [walk_io] in W2.
  split; [|destruct c; injection E as <- <- <-; cbn [fd_close fd_peak]; unfold zlen in *; lia].
  replace f1 with (fst (write_io f (pk_up p) (pk_seq p) (pk_data p) WDone)) in W2; auto.
  destruct wrote; [rewrite W; reflexivity|]. unfold write_io in W. destruct (negb (fs_priv f)); [discriminate|]. injection W as <- X3. discriminate.
Qed.

(** ** The failures are among those of Faults.v *)
Lemma faults_merge o f m cp t : exists x, merge_io f m x = (do (a, t') <- merge_fd o f m cp t ; Ok a).
Proof.
  unfold merge_fd. destruct (fd_once o t) as [t1 listed]. destruct (walk_io f m (if listed then KDone else KNoList)) as [parts|e|] eqn:W; cbn [bind].
  - destruct (fd_parts o t1 0 parts) as [[t2 k] al]. destruct al; cbn [negb].
    2:{ exists MNoPart. destruct (merge_io f m MNoPart) as [[f1 c1]| |]; reflexivity. }
    destruct (fd_open o t2) as [t3 wr]. destruct wr; cbn [negb].
    2:{ exists MNoFull. destruct (merge_io f m MNoFull) as [[f1 c1]| |]; reflexivity. }
    destruct (if listed then cp else None) as [n|].
    + exists (MShort n). destruct (merge_io f m (MShort n)) as [[f1 c1]| |]; reflexivity.
    + destruct (fd_open o t3) as [t4 rdr]. eexists. destruct (merge_io f m (if rdr then _ else _)) as [[f1 c1]| |] eqn:M; rewrite ?M; cbn [bind]; try rewrite M; reflexivity.
  - exists (MWalk (if listed then KDone else KNoList)). unfold merge_io. rewrite W. reflexivity.
  - exists (MWalk (if listed then KDone else KNoList)). unfold merge_io. rewrite W. reflexivity.
Qed.
Lemma faults_packet o f p cp t : exists x, packet_io f p x = (do (a, t') <- packet_fd o f p cp t ; Ok a).
Proof.
  unfold packet_fd, packet_io. destruct (if fs_priv f then fd_once o t else (t, false)) as [t1 wrote].
  destruct (fd_once o t1) as [t2 listed]. set (f1 := fst (write_io f (pk_up p) (pk_seq p) (pk_data p) (if wrote then WDone else WNoFile))).
  destruct (faults_merge o f1 (pk_up p) cp t2) as (x & X). exists (Faults (if wrote then WDone else WNoFile) (if listed then KDone else KNoList) x). cbn [io_write io_full io_merge].
  destruct (write_io _ _ _ _ _) as [f1' ok]. subst f1. cbn [fst] in X. destruct (negb ok); [reflexivity|]. destruct (negb (pk_seq p =? _)); [reflexivity|].
  destruct (is_full_io _ _ _) as [full| |]; cbn [bind]; try reflexivity. destruct (negb full); [reflexivity|]. rewrite X. destruct (merge_fd o f1' (pk_up p) cp t2) as [[[f2 c] t3]| |]; cbn [bind]; try reflexivity.
  destruct c; reflexivity.
Qed.
