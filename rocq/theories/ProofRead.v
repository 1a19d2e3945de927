(** Exactness of the readers: a reader accepts exactly the bytes that hold its fields. *)
From Verif Require Import Base LibBase Bits LibBits Bcd LibBcd GoTime LibCalendar LibTime Decimal Env SpecGeo LibDec
  EntTerm EntPlat Registry SpecEntity SpecRange SpecBody LibEntity LibSafe SpecWire ProofWire SpecRead.

Section Exact.
Context (env : Env) (N : nat).
Notation takes := (takes env).
Notation holds := (holds env).

Definition ok (d : bytes) : Prop := bytes_ok d /\ (length d <= N)%nat.
Lemma ok_tail b r : ok (b ++ r) -> ok r.
Proof. unfold ok. rewrite app_length. intros [H L]. apply bytes_ok_app in H. split; [tauto|lia]. Qed.

(** ** Sequences of fields *)
Lemma takes_nil d r : takes [] d r <-> d = r.
Proof. split; [intros H; inversion H; auto|intros ->; constructor]. Qed.
Lemma takes_cons f fs d r : takes (f :: fs) d r <-> exists b m, d = b ++ m /\ holds f b m /\ takes fs m r.
Proof.
  split.
  - intros H. inversion H as [|? ? b m ? H1 H2]; subst. exists b, m. auto.
  - intros (b & m & -> & H1 & H2). constructor; auto.
Qed.
Lemma takes_suffix fs : forall d r, takes fs d r -> exists b, d = b ++ r.
Proof.
  induction fs; intros d r H; inversion H; subst; [exists []; auto|].
  destruct (IHfs _ _ ltac:(eassumption)) as (c & ->). eexists. rewrite app_assoc. reflexivity.
Qed.
Lemma takes_ok fs d r : takes fs d r -> ok d -> ok r.
Proof. intros H K. destruct (takes_suffix _ _ _ H) as (b & ->). eauto using ok_tail. Qed.
Lemma takes_app fs gs : forall d r, takes (fs ++ gs) d r <-> exists m, takes fs d m /\ takes gs m r.
Proof.
  induction fs as [|f fs IH]; intros d r; cbn [app]; split.
  - intros H. exists d. split; auto. constructor.
  - intros (m & H1 & H2). inversion H1; subst. auto.
  - intros H. apply takes_cons in H as (b & k & -> & H1 & H2). apply IH in H2 as (m & H3 & H4). exists m. split; auto. constructor; auto.
  - intros (m & H1 & H2). apply takes_cons in H1 as (b & k & -> & H3 & H4). constructor; auto. apply IH. eauto.
Qed.
Lemma takes_one f d r : takes [f] d r <-> exists b, d = b ++ r /\ holds f b r.
Proof.
  split.
  - intros H. apply takes_cons in H as (b & m & -> & H1 & H2). apply takes_nil in H2 as ->. eauto.
  - intros (b & -> & H). constructor; auto. constructor.
Qed.

(** ** Readers *)
(** [h a] is what counts of the value [a]; [Q] holds of all values read; [C] is assumed of the values to be read *)
Definition reads {A A'} (p : R A) (h : A -> A') (f : A' -> list rfld) (Q : A -> Prop) (C : A' -> Prop) : Prop :=
  forall d, ok d ->
  (forall a r, p d = Ok (a, r) -> Q a /\ takes (f (h a)) d r) /\
  (forall a' r, C a' -> takes (f a') d r -> exists a, p d = Ok (a, r) /\ h a = a').
(** the same with a condition *)
Definition exact {B} (q : R B) (P : B -> Prop) (g : B -> list rfld) : Prop :=
  forall d c r, ok d -> (q d = Ok (c, r) <-> P c /\ takes (g c) d r).

Lemma ex_bind {A A' B} (proj : B -> A') (p : R A) h f Q C (P : B -> Prop) k g :
  reads p h f Q C -> (forall c, P c -> C (proj c)) ->
  (forall a, Q a -> exact (k a) (fun c => proj c = h a /\ P c) g) ->
  exact (rbind p k) P (fun c => f (proj c) ++ g c).
Proof.
  intros Hp HC Hk d c r Hd. destruct (Hp d Hd) as [F B']. unfold rbind. split.
  - destruct (p d) as [[a l]|e|] eqn:E; try discriminate. intros H. destruct (F a l eq_refl) as [HQ T].
    apply (Hk a HQ) in H; [|eapply takes_ok; eauto]. destruct H as ((E1 & HP) & T2). split; auto. apply takes_app. exists l. rewrite E1. auto.
  - intros (HP & T). apply takes_app in T as (m & T1 & T2). destruct (B' _ _ (HC _ HP) T1) as (a & E & Ea). rewrite E.
    destruct (F a m E) as [HQ _]. apply (Hk a HQ); auto. eapply takes_ok; eauto.
Qed.
Lemma ex_bind' {A B} (proj : B -> A) (p : R A) f Q C (P : B -> Prop) k (g : A -> B -> list rfld) :
  reads p (fun a => a) f Q C -> (forall c, P c -> C (proj c)) ->
  (forall a, Q a -> exact (k a) (fun c => proj c = a /\ P c) (g a)) ->
  exact (rbind p k) P (fun c => f (proj c) ++ g (proj c) c).
Proof.
  intros Hp HC Hk d c r Hd. destruct (Hp d Hd) as [F B']. unfold rbind. split.
  - destruct (p d) as [[a l]|e|] eqn:E; try discriminate. intros H. destruct (F a l eq_refl) as [HQ T].
    apply (Hk a HQ) in H; [|eapply takes_ok; eauto]. destruct H as ((<- & HP) & T2). split; auto. apply takes_app. exists l. auto.
  - intros (HP & T). apply takes_app in T as (m & T1 & T2). destruct (B' _ _ (HC _ HP) T1) as (a & E & Ea). cbv beta in Ea. subst a. rewrite E.
    destruct (F _ m E) as [HQ _]. apply (Hk _ HQ); auto. eapply takes_ok; eauto.
Qed.
Lemma ex_ret {B} (v : B) (P : B -> Prop) : (forall c, P c <-> c = v) -> exact (rret v) P (fun _ => []).
Proof.
  intros H d c r Hd. unfold rret. rewrite H. split.
  - intros E. injection E as -> ->. split; auto. constructor.
  - intros (-> & T). inversion T; subst. auto.
Qed.
Lemma ex_lift {A B} (r : res A) v (k : A -> R B) P g : r = Ok v -> exact (k v) P g -> exact (rbind (rlift r) k) P g.
Proof. intros -> H. exact H. Qed.
Lemma ex_ext {B} (p q : R B) P g : (forall d, p d = q d) -> exact q P g -> exact p P g.
Proof. intros E H d c r Hd. rewrite E. apply H; auto. Qed.
Lemma rbind_assoc {A B D} (p : R A) (q : A -> R B) (k : B -> R D) d :
  rbind p (fun a => rbind (q a) k) d = rbind (rbind p q) k d.
Proof. unfold rbind. destruct (p d) as [[a l]|?|]; auto. Qed.
Lemma ex_assoc {A B D} (p : R A) (q : A -> R B) (k : B -> R D) P g :
  exact (rbind (rbind p q) k) P g -> exact (rbind p (fun a => rbind (q a) k)) P g.
Proof. apply ex_ext. intros. apply rbind_assoc. Qed.
Lemma ex_conv {B} (q : R B) P g g' : exact q P g -> (forall c, P c -> g c = g' c) -> exact q P g'.
Proof. intros H E d c r Hd. rewrite (H d c r Hd). split; intros (H1 & H2); split; auto; rewrite (E c H1) in *; auto. Qed.
Lemma ex_equiv {B} (q : R B) P g P' g' : exact q P g -> (forall c d r, P c /\ takes (g c) d r <-> P' c /\ takes (g' c) d r) -> exact q P' g'.
Proof. intros H E d c r Hd. rewrite <- E. apply H; auto. Qed.
Lemma ex_reads {B} (q : R B) P g : exact q P g -> reads q (fun a => a) g P P.
Proof.
  intros H d Hd. split.
  - intros a r E. apply H; auto.
  - intros a r HC T. exists a. split; auto. apply H; auto.
Qed.
Lemma ex_reads' {B} (q : R B) P g g' : exact q P g -> (forall c, P c) -> (forall c, g c = g' c) -> reads q (fun a => a) g' (fun _ => True) (fun _ => True).
Proof.
  intros H HP E d Hd. split.
  - intros a r E1. split; auto. rewrite <- E. apply H; auto.
  - intros a r HC T. exists a. split; auto. apply H; auto. rewrite E. auto.
Qed.
Lemma reads_weaken {A A'} (p : R A) (h : A -> A') f Q C (Q' : A -> Prop) (C' : A' -> Prop) :
  reads p h f Q C -> (forall a, Q a -> Q' a) -> (forall a, C' a -> C a) -> reads p h f Q' C'.
Proof.
  intros H HQ HC d Hd. destruct (H d Hd) as [F B']. split.
  - intros a r E. destruct (F a r E). auto.
  - intros a r HC' T. apply B'; auto.
Qed.

(** ** Numbers *)
Lemma holds_num w v b d : holds (num w v) b d <-> length b = w /\ bytes_ok b /\ value b = v.
Proof.
  split.
  - intros H. inversion H; subst. match goal with S : shows _ _ |- _ => inversion S; subst; auto end.
  - intros (H1 & H2 & H3). constructor. constructor; auto.
Qed.
Definition no {A} (_ : A) : Prop := True.
Lemma rd_byte : reads r_byte (fun a => a) (fun a => [num 1 a]) is_byte no.
Proof.
  intros d [Hd _]. split.
  - intros a r E. destruct d as [|b t]; [discriminate|]. injection E as -> ->. apply bytes_ok_cons in Hd as [H1 H2]. split; auto.
    apply takes_one. exists [a]. split; auto. constructor. apply (shows_1 a H1).
  - intros a r _ T. apply takes_one in T as (b & -> & H). apply holds_num in H as (Hl & Hb & <-).
    destruct b as [|x [|]]; try discriminate. cbn. exists x. split; auto. lia.
Qed.
Lemma rd_u16 : reads r_u16 (fun a => a) (fun a => [num 2 a]) is_u16 no.
Proof.
  intros d [Hd _]. split.
  - intros a r E. destruct d as [|x [|y t]]; try discriminate. injection E as <- ->. apply bytes_ok_cons in Hd as [H1 H2]. apply bytes_ok_cons in H2 as [H2 H3].
    split; [unfold is_u16, be16, is_byte in *; lia|]. apply takes_one. exists [x; y]. split; auto. constructor. constructor; auto.
    + repeat constructor; auto; apply H1 || apply H2.
    + cbn. unfold be16. lia.
  - intros a r _ T. apply takes_one in T as (b & -> & H). apply holds_num in H as (Hl & Hb & <-).
    destruct b as [|x [|y [|]]]; try discriminate. cbn. exists (be16 x y). split; auto. unfold be16. lia.
Qed.
Lemma rd_u32 : reads r_u32 (fun a => a) (fun a => [num 4 a]) is_u32 no.
Proof.
  intros d [Hd _]. split.
  - intros a r E. destruct d as [|x [|y [|z [|w t]]]]; try discriminate. injection E as <- ->.
    apply bytes_ok_cons in Hd as [H1 Hd]. apply bytes_ok_cons in Hd as [H2 Hd]. apply bytes_ok_cons in Hd as [H3 Hd]. apply bytes_ok_cons in Hd as [H4 Hd].
    split; [unfold is_u32, be32, is_byte in *; lia|]. apply takes_one. exists [x; y; z; w]. split; auto. constructor. constructor; auto.
    + repeat constructor; auto; apply H1 || apply H2 || apply H3 || apply H4.
    + cbn. unfold be32. lia.
  - intros a r _ T. apply takes_one in T as (b & -> & H). apply holds_num in H as (Hl & Hb & <-).
    destruct b as [|x [|y [|z [|w [|]]]]]; try discriminate. cbn. exists (be32 x y z w). split; auto. unfold be32. lia.
Qed.
(** degrees *)
Lemma rd_deg (neg : bool) : reads r_u32 (fun a : Z => Dec (if neg then - a else a) (-6)) (fun c => [Deg neg c]) is_u32 no.
Proof.
  intros d Hd. destruct (rd_u32 d Hd) as [F B']. split.
  - intros a r E. destruct (F a r E) as [HQ T]. split; auto. apply takes_one in T as (b & -> & H).
    apply holds_num in H as (Hl & Hb & <-). apply takes_one. exists b. split; auto. constructor; auto.
  - intros c r _ T. apply takes_one in T as (b & -> & H). inversion H; subst. 
    destruct (B' (value b) r Logic.I) as (a & E & Ha); [|exists a; subst; auto].
    apply takes_one. exists b. split; auto. constructor. constructor; auto.
Qed.

(** ** Bytes *)
Lemma r_bytes_inv n d b r : r_bytes n d = Ok (b, r) -> d = b ++ r /\ zlen b = n.
Proof.
  unfold r_bytes. destruct (Z.ltb_spec (zlen d) n); [discriminate|]. destruct (Z.ltb_spec n 0); [discriminate|].
  intros E. injection E as <- <-. rewrite firstn_skipn. split; auto. unfold zlen in *. rewrite firstn_length. lia.
Qed.
Lemma before_cstr b : before_nul b (cstr b).
Proof.
  unfold before_nul. split.
  - intros H. pose proof (no_nul_cstr b) as K. unfold no_nul in K. rewrite Forall_forall in K. exact (K 0 H eq_refl).
  - induction b as [|x b IH]; cbn; auto. destruct (Z.eqb_spec x 0) as [->|]; [right; exists b; auto|].
    destruct IH as [E|(r & E)]; [left; congruence|right; exists r; cbn; congruence].
Qed.
Lemma before_eq b s : before_nul b s -> s = cstr b.
Proof.
  intros (H & E). assert (K : no_nul s) by (apply Forall_forall; intros x Hx ->; auto).
  destruct E as [->|(r & ->)]; [symmetry; apply cstr_id; auto|]. rewrite cstr_no_nul by auto. cbn. rewrite app_nil_r. auto.
Qed.
Lemma rd_bin w n : Z.of_nat w = n -> reads (r_bytes n) (fun a => a) (fun b => [Bin w b]) (fun b => bytes_ok b /\ length b = w) no.
Proof.
  intros Hn d [Hd _]. split.
  - intros a r E. apply r_bytes_inv in E as (-> & L). apply bytes_ok_app in Hd as [H1 H2]. assert (length a = w) by (unfold zlen in L; lia).
    split; auto. apply takes_one. exists a. split; auto. constructor; auto.
  - intros a r _ T. apply takes_one in T as (b & -> & H). inversion H; subst. eexists. split; [apply r_bytes_app; reflexivity|reflexivity].
Qed.
Lemma rd_cut w n : Z.of_nat w = n -> reads (r_bytes n) cstr (fun b => [Cut w b]) no no.
Proof.
  intros Hn d [Hd _]. split.
  - intros a r E. apply r_bytes_inv in E as (-> & L). split; [exact Logic.I|]. apply takes_one. exists a. split; auto. constructor; [unfold zlen in L; lia|apply before_cstr].
  - intros a r _ T. apply takes_one in T as (b & -> & H). inversion H; subst. exists b. split; [apply r_bytes_app; reflexivity|]. symmetry. apply before_eq; auto.
Qed.
Lemma rd_ccut : reads (rbind r_byte r_bytes) cstr (fun b => [CCut b]) no no.
Proof.
  intros d [Hd _]. unfold rbind. split.
  - intros a r E. destruct d as [|n t]; [discriminate|]. cbn [r_byte] in E. apply r_bytes_inv in E as (-> & L).
    split; [exact Logic.I|]. apply takes_one. exists (n :: a). split; auto. constructor; auto. apply before_cstr.
  - intros a r _ T. apply takes_one in T as (b & -> & H). inversion H; subst. exists b0. cbn [app r_byte]. split; [apply r_bytes_app; reflexivity|]. symmetry. apply before_eq; auto.
Qed.
Lemma rd_all : reads r_all (fun a => a) (fun b => [Rest b]) no no.
Proof.
  intros d [Hd _]. split.
  - intros a r E. injection E as -> <-. split; [exact Logic.I|]. apply takes_one. exists a. rewrite app_nil_r. split; auto. constructor.
  - intros a r _ T. apply takes_one in T as (b & -> & H). inversion H; subst. eexists. rewrite app_nil_r. split; reflexivity.
Qed.

(** ** Text *)
Lemma text_iff b s : text_of env b = Ok s <-> is_text env b s.
Proof.
  unfold text_of, is_text. destruct (gb_dec env b) as [t bad]. split.
  - destruct bad; [discriminate|]. intros E. injection E as <-. exists t. split; auto. apply before_cstr.
  - intros (u & E & H). injection E as -> ->. rewrite (before_eq _ _ H). auto.
Qed.
Lemma rlift_inv {A} (x : res A) d a r : rlift x d = Ok (a, r) <-> x = Ok a /\ r = d.
Proof. unfold rlift. destruct x; split; intros H; try discriminate; [injection H as -> ->; auto|destruct H as [H ->]; congruence|destruct H; discriminate|destruct H; discriminate]. Qed.
Lemma str_n_inv n d s r : r_str_n env n d = Ok (s, r) <-> exists b, d = b ++ r /\ zlen b = n /\ is_text env b s.
Proof.
  unfold r_str_n, rbind. split.
  - destruct (r_bytes n d) as [[b l]|?|] eqn:E; try discriminate. apply r_bytes_inv in E as (-> & L).
    intros H. apply rlift_inv in H as (H & ->). exists b. repeat split; auto. apply text_iff; auto.
  - intros (b & -> & L & H). rewrite r_bytes_app by auto. apply rlift_inv. split; auto. apply text_iff; auto.
Qed.
Lemma rd_ftext w n : Z.of_nat w = n -> reads (r_str_n env n) (fun a => a) (fun s => [FText w s]) no no.
Proof.
  intros Hn d [Hd _]. split.
  - intros a r E. apply str_n_inv in E as (b & -> & L & H). split; [exact Logic.I|]. apply takes_one. exists b. split; auto. constructor; auto. unfold zlen in L. lia.
  - intros a r _ T. apply takes_one in T as (b & -> & H). inversion H; subst. exists a. split; auto. apply str_n_inv. exists b. auto.
Qed.
Lemma rd_ctext1 : reads (rbind r_byte (r_str_n env)) (fun a => a) (fun s => [CText 1 s]) no no.
Proof.
  intros d Hd. unfold rbind. destruct (rd_byte d Hd) as [F B']. split.
  - intros a r E. destruct (r_byte d) as [[n l]|?|] eqn:E1; try discriminate. destruct (F n l eq_refl) as [_ T].
    apply takes_one in T as (c & -> & H). apply holds_num in H as (Hl & Hb & <-).
    apply str_n_inv in E as (b & -> & L & Hs). split; [exact Logic.I|]. apply takes_one. exists (c ++ b). rewrite app_assoc. split; auto. constructor; auto.
  - intros a r _ T. apply takes_one in T as (b & -> & H). inversion H; subst.
    destruct (B' (value c) (b0 ++ r) Logic.I) as (n & E & En). { apply takes_one. exists c. rewrite app_assoc. split; auto. constructor. constructor; auto. }
    rewrite E. exists a. split; auto. apply str_n_inv. exists b0. subst. auto.
Qed.
Lemma rd_ctext2 : reads (rbind r_u16 (r_str_n env)) (fun a => a) (fun s => [CText 2 s]) no no.
Proof.
  intros d Hd. unfold rbind. destruct (rd_u16 d Hd) as [F B']. split.
  - intros a r E. destruct (r_u16 d) as [[n l]|?|] eqn:E1; try discriminate. destruct (F n l eq_refl) as [_ T].
    apply takes_one in T as (c & -> & H). apply holds_num in H as (Hl & Hb & <-).
    apply str_n_inv in E as (b & -> & L & Hs). split; [exact Logic.I|]. apply takes_one. exists (c ++ b). rewrite app_assoc. split; auto. constructor; auto.
  - intros a r _ T. apply takes_one in T as (b & -> & H). inversion H; subst.
    destruct (B' (value c) (b0 ++ r) Logic.I) as (n & E & En). { apply takes_one. exists c. rewrite app_assoc. split; auto. constructor. constructor; auto. }
    rewrite E. exists a. split; auto. apply str_n_inv. exists b0. subst. auto.
Qed.
Lemma str_inv d s r : r_str env d = Ok (s, r) <-> r = [] /\ is_text env d s.
Proof. unfold r_str, rbind, r_all. rewrite rlift_inv, text_iff. tauto. Qed.
Lemma rd_text : reads (r_str env) (fun a => a) (fun s => [Text s]) no no.
Proof.
  intros d _. split.
  - intros a r E. apply str_inv in E as (-> & H). split; [exact Logic.I|]. apply takes_one. exists d. rewrite app_nil_r. split; auto. constructor. auto.
  - intros a r _ T. apply takes_one in T as (b & -> & H). inversion H; subst. exists a. rewrite app_nil_r. split; auto. apply str_inv. auto.
Qed.
Lemma rd_otext : reads (r_str_opt env) (fun a => a) (fun s => [OText s]) no no.
Proof.
  intros d _. unfold r_str_opt, rbind, r_len. split.
  - intros a r E. split; [exact Logic.I|]. apply takes_one. destruct (Z.ltb_spec 0 (zlen d)) as [L|L].
    + apply str_inv in E as (-> & H). exists d. rewrite app_nil_r. split; auto. constructor; auto. intros ->. cbn in L. lia.
    + injection E as <- ->. assert (r = []) as -> by (apply zlen_0; pose proof (zlen_nonneg r); lia). exists []. split; auto. constructor.
  - intros a r _ T. apply takes_one in T as (b & -> & H). exists a. inversion H; subst; [cbn; auto|]. rewrite app_nil_r. split; auto.
    destruct (Z.ltb_spec 0 (zlen b)) as [L|L]; [apply str_inv; auto|]. exfalso. match goal with K : b <> [] |- _ => apply K end. apply zlen_0. pose proof (zlen_nonneg b). lia.
Qed.

(** ** Lists *)
Lemma rd_list {A} (p : R A) f Q n : reads p (fun a => a) f Q no ->
  reads (r_list n p) (fun l => l) (fun l => concat (map f l)) (fun l => length l = n) (fun l => length l = n).
Proof.
  intros Hp. induction n as [|n IH]; intros d Hd.
  - cbn [r_list]. unfold rret. split.
    + intros a r E. injection E as <- ->. split; auto. constructor.
    + intros a r L T. destruct a; [|discriminate]. inversion T; subst. eauto.
  - destruct (Hp d Hd) as [F B']. cbn [r_list]. unfold rbind. split.
    + intros a r E. destruct (p d) as [[x l]|?|] eqn:E1; try discriminate. destruct (F x l eq_refl) as [_ T1].
      destruct (IH l (takes_ok _ _ _ T1 Hd)) as [F2 _]. destruct (r_list n p l) as [[xs m]|?|] eqn:E2; try discriminate.
      unfold rret in E. injection E as <- <-. destruct (F2 xs m eq_refl) as [L T2]. split; [cbn; auto|]. cbn [map concat]. apply takes_app. eauto.
    + intros a r L T. destruct a as [|x xs]; [discriminate|]. cbn [map concat] in T. apply takes_app in T as (m & T1 & T2).
      destruct (B' x m Logic.I T1) as (y & E & ->). rewrite E. destruct (IH m (takes_ok _ _ _ T1 Hd)) as [_ B2].
      destruct (B2 xs r ltac:(cbn in L; lia) T2) as (ys & E2 & ->). rewrite E2. eexists. split; reflexivity.
Qed.
Lemma rd_list_z {A} (p : R A) f Q n : 0 <= n -> reads p (fun a => a) f Q no ->
  reads (r_list (Z.to_nat n) p) (fun l => l) (fun l => concat (map f l)) (fun l => zlen l = n) (fun l => zlen l = n).
Proof. intros Hn Hp. eapply reads_weaken; [eapply rd_list; eauto| |]; cbn; unfold zlen; intros; lia. Qed.
Lemma rd_until {A} (p : R A) f Q n : reads p (fun a => a) f Q no -> (forall a d r, takes (f a) d r -> (length r < length d)%nat) ->
  (N <= n)%nat -> reads (r_until_empty n p) (fun l => l) (fun l => concat (map f l) ++ [End]) no no.
Proof.
  intros Hp Hs Hn.
  assert (K : forall k d, ok d -> (length d <= k)%nat ->
    (forall a r, r_until_empty k p d = Ok (a, r) -> takes (concat (map f a) ++ [End]) d r) /\
    (forall a r, takes (concat (map f a) ++ [End]) d r -> r_until_empty k p d = Ok (a, r))).
  { induction k as [|k IH]; intros d Hd Hk.
    - destruct d; [|cbn in Hk; lia]. cbn. split.
      + intros a r E. injection E as <- <-. apply takes_one. exists []. split; auto. constructor.
      + intros a r T. destruct a as [|x a].
        * apply takes_one in T as (b & Eb & H). inversion H; subst. reflexivity.
        * cbn [map concat] in T. rewrite <- app_assoc in T. apply takes_app in T as (m & T1 & _). apply Hs in T1. cbn in T1. lia.
    - destruct (Hp d Hd) as [F B']. cbn [r_until_empty]. destruct d as [|x0 d0] eqn:Ed.
      + split.
        * intros a r E. injection E as <- <-. apply takes_one. exists []. split; auto. constructor.
        * intros a r T. destruct a as [|x a].
          -- apply takes_one in T as (b & Eb & H). inversion H; subst. reflexivity.
          -- cbn [map concat] in T. rewrite <- app_assoc in T. apply takes_app in T as (m & T1 & _). apply Hs in T1. cbn in T1. lia.
      + rewrite <- Ed in *. unfold rbind. split.
        * intros a r E. destruct (p d) as [[x l]|?|] eqn:E1; try discriminate. destruct (F x l eq_refl) as [_ T1]. pose proof (Hs _ _ _ T1) as L.
          destruct (IH l (takes_ok _ _ _ T1 Hd) ltac:(lia)) as [F2 _]. destruct (r_until_empty k p l) as [[xs m]|?|] eqn:E2; try discriminate.
          unfold rret in E. injection E as <- <-. cbn [map concat]. rewrite <- app_assoc. apply takes_app. exists l. auto.
        * intros a r T. destruct a as [|x a].
          -- apply takes_one in T as (b & Eb & H). inversion H; subst. cbn in Eb. discriminate.
          -- cbn [map concat] in T. rewrite <- app_assoc in T. apply takes_app in T as (m & T1 & T2). pose proof (Hs _ _ _ T1) as L.
             destruct (B' x m Logic.I T1) as (y & E & ->). rewrite E. destruct (IH m (takes_ok _ _ _ T1 Hd) ltac:(lia)) as [_ B2].
             rewrite (B2 _ _ T2). reflexivity. }
  intros d Hd. destruct (K n d Hd ltac:(destruct Hd; lia)) as [K1 K2]. split.
  - intros a r E. split; [exact Logic.I|]. auto.
  - intros a r _ T. eauto.
Qed.
End Exact.
