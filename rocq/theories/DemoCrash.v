(** Histories with faults and crashes. *)
From Verif Require Import Base Multipart Overlap SpecMulti Crash SpecCrash.

(** An upload of two packets of terminal 7, and one of terminal 8 *)
Definition up7 : mpf := Mpf 7 513 1 2.
Definition up8 : mpf := Mpf 8 513 1 2.
(** The process ends after the file of packet 1 was opened and before it was written; then packet 2 arrives. *)
Definition torn : list bop :=
  [BConnect [Packet up7 1 [1; 2; 3]]; BMove 0 FNone; BMove 0 FNone; BMove 0 FNone; BCrash; BConnect [Packet up7 2 [4]]] ++ repeat (BMove 1 FNone) 12.
(** A packet cut short, the process ending, the packet sent again while another terminal sends, and packet 2 *)
Definition mended : list bop :=
  [BConnect [Packet up7 1 [1; 2; 3]]; BMove 0 FNone; BMove 0 FNone; BMove 0 FNone; BMove 0 (FCut 1); BCrash;
   BConnect [Packet up7 1 [1; 2; 3]; Packet up7 2 [4]]; BConnect [Packet up8 1 [9]]] ++
  repeat (BMove 1 FNone) 9 ++ [BMove 2 FNone; BMove 2 FNone; BMove 2 FNone] ++ repeat (BMove 1 FNone) 3 ++ [BMove 2 FNone] ++ repeat (BMove 1 FNone) 3.

Lemma okb os : forallb (fun o => match o with
    | BConnect ps => forallb (fun p => let m := pk_up p in (0 <=? mp_icc m) && (mp_icc m <? 2 ^ 64) && (0 <=? mp_msgid m) && (mp_msgid m <? 65536) && (0 <=? mp_tag m) &&
        (mp_tag m <? 2 ^ 32) && (0 <=? mp_sum m) && (mp_sum m <? 65536) && (0 <=? pk_seq p) && (pk_seq p <? 65536)) ps
    | _ => true end) os = true -> Forall bop_ok os.
Proof.
  rewrite forallb_forall, Forall_forall. intros H o J. specialize (H o J). destruct o as [ps|i x|]; cbn [bop_ok]; auto. rewrite forallb_forall in H. rewrite Forall_forall. intros p K. specialize (H p K).
  cbn beta zeta in H. unfold mpf_ok, is_u16, is_u32. rewrite !andb_true_iff, !Z.leb_le, !Z.ltb_lt in H. tauto.
Qed.
Lemma torn_ok : Forall bop_ok torn.
Proof. apply okb. reflexivity. Qed.
Lemma mended_ok : Forall bop_ok mended.
Proof. apply okb. reflexivity. Qed.
(** What happens *)
Definition torn_hs : list (nat * happening) :=
  [(0%nat, HOpen up7 1); (1%nat, HOpen up7 2); (1%nat, HWrite up7 2 [4] true); (1%nat, HStart up7 true); (1%nat, HLay up7 0 []); (1%nat, HLay up7 0 [4]); (1%nat, HWhole up7 [4])].
Definition mended_a : list (nat * happening) :=
  [(0%nat, HOpen up7 1); (0%nat, HWrite up7 1 [1] false); (1%nat, HOpen up7 1); (1%nat, HWrite up7 1 [1; 2; 3] true); (1%nat, HOpen up7 2); (1%nat, HWrite up7 2 [4] true); (2%nat, HOpen up8 1)].
Definition mended_mid : list (nat * happening) := [(1%nat, HLay up7 0 [1; 2; 3]); (2%nat, HWrite up8 1 [9] true); (1%nat, HLay up7 3 [4])].
Lemma torn_run : exists b, brun box_new torn = (b, torn_hs).
Proof. eexists. vm_compute. reflexivity. Qed.
Lemma mended_run : exists b, brun box_new mended = (b, mended_a ++ (1%nat, HStart up7 true) :: mended_mid ++ [(1%nat, HWhole up7 [1; 2; 3; 4])]).
Proof. eexists. vm_compute. reflexivity. Qed.
Lemma mended_alone : forall j h, In (j, h) mended_mid -> j <> 1%nat -> ~ changes up7 h.
Proof. intros j h [E|[E|[E|[]]]] N; injection E as <- <-; cbn; congruence. Qed.
Lemma mended_once : forall m1 q1, ~ In (1%nat, HStart m1 q1) mended_mid.
Proof. intros m1 q1 [E|[E|[E|[]]]]; discriminate E. Qed.
Lemma mended_one : settled_part mended_a up7 1 [1; 2; 3].
Proof.
  exists [(0%nat, HOpen up7 1); (0%nat, HWrite up7 1 [1] false)], 1%nat, up7, [], up7, [(1%nat, HOpen up7 2); (1%nat, HWrite up7 2 [4] true); (2%nat, HOpen up8 1)].
  split; [reflexivity|]. split; [reflexivity|]. split; [reflexivity|]. intros h [<-|[<-|[<-|[]]]]; cbn; intros (A & B); discriminate.
Qed.
Lemma mended_two : settled_part mended_a up7 2 [4].
Proof.
  exists [(0%nat, HOpen up7 1); (0%nat, HWrite up7 1 [1] false); (1%nat, HOpen up7 1); (1%nat, HWrite up7 1 [1; 2; 3] true)], 1%nat, up7, [], up7, [(2%nat, HOpen up8 1)].
  split; [reflexivity|]. split; [reflexivity|]. split; [reflexivity|]. intros h [<-|[]]; cbn; intros (A & B); discriminate.
Qed.
Lemma mended_settled : forall h s, In h mended_a -> writes up7 s (snd h) -> exists d, settled_part mended_a up7 s d.
Proof.
  intros h s J W. destruct J as [<-|[<-|[<-|[<-|[<-|[<-|[<-|[]]]]]]]]; cbn in W; destruct W as (A & <-); try discriminate A; eexists; first [exact mended_one|exact mended_two].
Qed.
Lemma torn_lost : forall j d, ~ In (j, HWrite up7 1 d true) torn_hs.
Proof. intros j d [E|[E|[E|[E|[E|[E|[E|[]]]]]]]]; discriminate E. Qed.
(** After [torn] all packets are sent again. *)
Lemma torn_parts : forall i, part_of torn_hs up7 i <> None -> 1 <= i <= 2.
Proof.
  intros i N. unfold part_of, torn_hs in N. cbn [fold_left snd] in N. change (same_upload up7 up7) with true in N. cbn [andb] in N. destruct (Z.eqb_spec 2 i); [lia|]. destruct (Z.eqb_spec 1 i); [lia|]. exfalso. apply N. reflexivity.
Qed.
Lemma torn_calm : forall k x, In (BMove k x) torn -> x = FNone.
Proof.
  intros k x H. unfold torn in H. apply in_app_iff in H. destruct H as [H|H].
  - destruct H as [E|[E|[E|[E|[E|[E|[]]]]]]]; try discriminate E; injection E as _ <-; reflexivity.
  - apply repeat_spec in H. injection H as _ ->. reflexivity.
Qed.
Lemma torn_whole : In (1%nat, HWhole up7 [4]) torn_hs.
Proof. unfold torn_hs. cbn. auto 10. Qed.
Lemma torn_first : 1 <= 1 <= mp_sum up7.
Proof. cbn. lia. Qed.
Lemma torn_never : forall k m' d, same_upload m' up7 = true -> ~ In (k, HWrite m' 1 d true) torn_hs.
Proof. intros k m' d _ [E|[E|[E|[E|[E|[E|[E|[]]]]]]]]; discriminate E. Qed.
