(** BCD times and dates in a location whose offset changes. *)
From Coq Require Import Sorted.
From Verif Require Import Base LibBase Bcd LibBcd GoTime LibCalendar LibTime Decimal Env SpecGeo SpecEntity LibSafe SpecWire ProofWire ProofRead2 Zones SpecZones ProofZones.

Definition tz_env (tz : Z) : Env :=
  {| gb_enc := fun b => (b, true); gb_dec := fun b => (b, true); tz_off := tz; f2u32 := fun z => z; gz_enc := fun b => b; gz_dec := fun _ => None;
     key_size := fun _ => 0; oaep_enc := fun _ _ _ => None; oaep_dec := fun _ _ => None |}.
Lemma bcd_again tz b t : bytes_ok b -> from_bcd_time tz b = Ok t -> to_bcd_time tz t = b /\ t = GoTime (t_sec t) 0 tz /\ 1262304000 <= t_sec t + tz < 4102444800.
Proof.
  intros B H. destruct (bcd_time_ok (tz_env tz) b t B H) as (T & E). pose proof (bcd_time_shows (tz_env tz) b t B H) as S. split; [|split; [exact E|exact T]].
  symmetry. exact (shows_unique _ _ _ S (shows_time (tz_env tz) t T)).
Qed.
Lemma parse_shift tz s : parse_datetime tz s = match parse_datetime 0 s with Ok t => Ok (GoTime (t_sec t - tz) 0 tz) | Err e => Err e | Panic => Panic end.
Proof. unfold parse_datetime. destruct (negb _); [reflexivity|]. repeat (destruct (num_of _ _); [|reflexivity]). destruct (_ && _); [|reflexivity]. cbn [t_sec]. do 2 f_equal. lia. Qed.
Lemma from_shift v loc b : from_bcd_loc v loc b =
  match from_bcd_time 0 b with Ok t => Ok (GoTime (date_in v loc (t_sec t)) 0 (offset_at loc (date_in v loc (t_sec t)))) | Err e => Err e | Panic => Panic end.
Proof. unfold from_bcd_loc, from_bcd_time, parse_in. destruct (negb _); [reflexivity|]. destruct (parse_datetime 0 _); reflexivity. Qed.
Lemma from_tz tz b : from_bcd_time tz b = match from_bcd_time 0 b with Ok t => Ok (GoTime (t_sec t - tz) 0 tz) | Err e => Err e | Panic => Panic end.
Proof. unfold from_bcd_time. destruct (negb _); [reflexivity|]. apply parse_shift. Qed.
Lemma to_shift loc t : to_bcd_loc loc t = to_bcd_time 0 (GoTime (t_sec t + offset_at loc (t_sec t)) 0 0).
Proof. unfold to_bcd_loc, to_bcd_time. cbn [t_sec]. rewrite Z.add_0_r. reflexivity. Qed.
Lemma clock_iff loc u l : loc_ok loc -> clock loc u l <-> u + offset_at loc u = l.
Proof.
  intros K. unfold clock. split; [intros (o & F & ->); apply force_iff in F; auto; lia|]. intros <-. exists (offset_at loc u). split; auto. apply offset_force; auto.
Qed.

(** ** Times *)
Lemma loc_roundtrip v loc t l : loc_ok loc -> quiet loc l -> clock loc (t_sec t) l -> (forall u, clock loc u l -> u = t_sec t) -> 1262304000 <= l < 4102444800 ->
  from_bcd_loc v loc (to_bcd_loc loc t) = Ok (GoTime (t_sec t) 0 (l - t_sec t)).
Proof.
  intros K Q C U R. pose proof C as C'. apply clock_iff in C'; auto. rewrite to_shift, C', from_shift. rewrite bcd_time_roundtrip by (unfold local; cbn [t_sec]; rewrite Z.add_0_r; apply local_2010; auto).
  cbn [t_sec]. pose proof (date_reads v loc l (t_sec t) K Q C') as D. cbn zeta in D. assert (E : date_in v loc l = t_sec t) by (apply U, clock_iff; auto). rewrite E in *. do 2 f_equal. lia.
Qed.
Lemma loc_reads v loc b t : bytes_ok b -> from_bcd_loc v loc b = Ok t -> exists l, from_bcd_time 0 b = Ok (GoTime l 0 0) /\
  (loc_ok loc -> quiet loc l -> (exists u, clock loc u l) -> clock loc (t_sec t) l /\ to_bcd_loc loc t = b) /\
  (loc_ok loc -> quiet loc l -> ~ (exists u, clock loc u l) -> (exists w n, forward loc w n /\ (clock loc (t_sec t) (l + n) \/ clock loc (t_sec t) (l - n)))).
Proof.
  intros B H. rewrite from_shift in H. destruct (from_bcd_time 0 b) as [t0| |] eqn:E; try discriminate. destruct (bcd_again 0 b t0 B E) as (A & E0 & _).
  injection H as <-. exists (t_sec t0). split; [rewrite E0 at 1; reflexivity|]. cbn [t_sec]. split.
  - intros K Q (u & U). apply clock_iff in U; auto. pose proof (date_reads v loc _ u K Q U) as D. cbn zeta in D. split; [apply clock_iff; auto|].
    rewrite to_shift. cbn [t_sec]. rewrite D, <- E0. exact A.
  - intros K Q N. destruct (date_gap v loc (t_sec t0) K Q) as (w & n & F & D); [intros u U; apply N; exists u; apply clock_iff; auto|]. cbn zeta in D.
    exists w, n. split; auto. rewrite !clock_iff by auto. exact D.
Qed.
Lemma loc_fixed v loc tz : loc_ok loc -> (forall u, 1262131200 <= u < 4102617600 -> in_force loc u tz) ->
  (forall b, bytes_ok b -> from_bcd_loc v loc b = from_bcd_time tz b) /\ (forall t, 1262131200 <= t_sec t < 4102617600 -> to_bcd_loc loc t = to_bcd_time tz t).
Proof.
  intros K F. assert (O : forall u, 1262131200 <= u < 4102617600 -> offset_at loc u = tz) by (intros u U; apply force_iff; auto).
  pose proof (offset_bound loc 1262304000 K) as BT. rewrite O in BT by lia. split.
  - intros b B. rewrite from_shift, (from_tz tz). destruct (from_bcd_time 0 b) as [t| |] eqn:E; auto. destruct (bcd_again 0 b t B E) as (_ & _ & R). rewrite Z.add_0_r in R.
    assert (D : date_in v loc (t_sec t) = t_sec t - tz).
    { pose proof K as (S & _). pose proof (look_spec _ (lo_first loc) None (t_sec t) S) as LS. pose proof (O (t_sec t) ltac:(lia)) as OT. unfold date_in. unfold offset_at, lookup in OT. unfold lookup at 1.
      destruct (look _ _ _ _) as [[o s] e]. cbn [fst] in OT. subst o. destruct (Z.eqb_spec tz 0); [lia|].
      pose proof (O (t_sec t - tz) ltac:(lia)) as OU. destruct v.
      2:{ rewrite OU. destruct (_ || _); reflexivity. }
      destruct s as [s|], e as [e|]; cbn [andb]; repeat match goal with |- context [if ?c then _ else _] => destruct c eqn:? end; try reflexivity.
      all: f_equal.
      all: destruct LS as (LB & LE).
      all: try (destruct LB as [(_ & LB & _)|(pre & w & post & _ & LB & LW & _)]; [discriminate|injection LB as <-]).
      all: try (apply O; lia).
      all: try (apply O; destruct LE as (LE & _); lia). }
    rewrite D. rewrite O by lia. reflexivity.
  - intros t R. unfold to_bcd_loc, to_bcd_time. rewrite O by auto. reflexivity.
Qed.

(** ** Dates *)
Lemma expiry_same v loc l : loc_ok loc -> quiet loc l -> (exists u, clock loc u l) -> 1000 <= year_of l < 10000 -> l mod 86400 = 0 ->
  exists t, expiry_read v loc (string_to_bcd_n (format_date l) 4) = Ok t /\ clock loc (t_sec t) l /\ expiry_write t = string_to_bcd_n (format_date l) 4.
Proof.
  intros K Q (u & U) Y M. apply clock_iff in U; auto. unfold expiry_read, parse_in. rewrite date_roundtrip by auto. cbn [bind t_sec]. rewrite Z.sub_0_r.
  pose proof (date_reads v loc l u K Q U) as D. cbn zeta in D. eexists. split; [reflexivity|]. cbn [t_sec]. split; [apply clock_iff; auto|]. unfold expiry_write. cbn [t_sec t_zone]. rewrite D. reflexivity.
Qed.
Lemma expiry_keeps v loc b t : loc_ok loc -> bytes_ok b -> zlen b = 4 -> expiry_read v loc b = Ok t -> exists l, l mod 86400 = 0 /\
  parse_datetime 0 (bcd_to_string b ++ repeat 48 6) = Ok (GoTime l 0 0) /\ (quiet loc l -> (exists u, clock loc u l) -> clock loc (t_sec t) l /\ expiry_write t = b).
Proof.
  intros K B L H. unfold expiry_read, parse_in in H. destruct (parse_datetime 0 _) as [t0| |] eqn:E; try discriminate. cbn [bind] in H. injection H as <-.
  destruct (bcd_date_shows (tz_env 0) b t0 B L E) as (D & N & S). pose proof (shows_day (tz_env 0) t0 D) as S2. destruct D as (DZ & DM & DR). cbn [tz_off tz_env] in *.
  assert (E0 : t0 = GoTime (t_sec t0) 0 0) by (destruct t0; cbn in *; congruence).
  exists (t_sec t0). split; [|split]; [|rewrite <- E0; exact eq_refl|].
  - rewrite Z.add_0_r in DM. exact DM.
  - intros Q (u & U). apply clock_iff in U; auto. pose proof (date_reads v loc _ u K Q U) as R. cbn zeta in R. cbn [t_sec]. split; [apply clock_iff; auto|].
    unfold expiry_write. cbn [t_sec t_zone]. rewrite R. rewrite DZ, !Z.add_0_r in S2. rewrite Z.add_0_r in S. symmetry. exact (shows_unique _ _ _ S S2).
Qed.

(** ** Concrete locations *)
(** New York in 2023 *)
Definition new_york : location := Loc (-18000) [(1678604400, -14400); (1699164000, -18000)].
(** Sao Paulo, summer of 2018 *)
Definition sao_paulo : location := Loc (-10800) [(1541300400, -7200); (1550368800, -10800)].
(** Shanghai, whose last change was in 1991 *)
Definition shanghai : location := Loc 28800 [(671558400, 32400); (684867600, 28800)].

Ltac loc_tac := split; [repeat (constructor; cbn [fst snd]; try lia)|split; [cbn; lia|repeat (constructor; cbn [fst snd]; try lia)]].
Lemma ny_ok : loc_ok new_york.
Proof. loc_tac. Qed.
Lemma sp_ok : loc_ok sao_paulo.
Proof. loc_tac. Qed.
Lemma sh_ok : loc_ok shanghai.
Proof. loc_tac. Qed.
Ltac quiet_tac := intros c c' [<-|[<-|[]]] [<-|[<-|[]]]; cbn [fst]; intros; auto; lia.
(** The offset as a case distinction *)
Lemma ny_at u : offset_at new_york u = if u <? 1678604400 then -18000 else if u <? 1699164000 then -14400 else -18000.
Proof. unfold offset_at, lookup, new_york. cbn. destruct (u <? 1678604400); [reflexivity|]. destruct (u <? 1699164000); reflexivity. Qed.
Lemma ny_clock u l : clock new_york u l <-> u + (if u <? 1678604400 then -18000 else if u <? 1699164000 then -14400 else -18000) = l.
Proof. rewrite <- ny_at. apply clock_iff, ny_ok. Qed.

Lemma again_refuted v : exists loc t t', loc_ok loc /\ quiet loc (t_sec t + t_zone t) /\ t_nsec t = 0 /\ in_force loc (t_sec t) (t_zone t) /\
  1262304000 <= t_sec t + t_zone t < 4102444800 /\ from_bcd_loc v loc (to_bcd_loc loc t) = Ok t' /\ t_sec t' = t_sec t - 3600.
Proof.
  exists new_york, (GoTime 1699165800 0 (-18000)), (GoTime 1699162200 0 (-14400)). split; [exact ny_ok|]. split; [quiet_tac|]. split; [reflexivity|]. split; [apply force_iff; [exact ny_ok|reflexivity]|].
  split; [cbn; lia|]. split; [destruct v; vm_compute; reflexivity|reflexivity].
Qed.
Lemma gap_refuted v : exists loc b t, loc_ok loc /\ bytes_ok b /\ from_bcd_loc v loc b = Ok t /\ to_bcd_loc loc t <> b.
Proof.
  exists new_york, [0x23; 0x03; 0x12; 0x02; 0x30; 0x00], (GoTime 1678602600 0 (-18000)). split; [exact ny_ok|]. split; [repeat (constructor; [unfold is_byte; lia|]); constructor|].
  split; [destruct v; vm_compute; reflexivity|vm_compute; discriminate].
Qed.
Lemma ny_case v : loc_ok new_york /\ quiet new_york 1678590000 /\ clock new_york 1678604400 1678590000 /\ (forall u, clock new_york u 1678590000 -> u = 1678604400) /\
  to_bcd_loc new_york (GoTime 1678604400 0 (-14400)) = [0x23; 0x03; 0x12; 0x03; 0x00; 0x00] /\
  from_bcd_loc v new_york [0x23; 0x03; 0x12; 0x03; 0x00; 0x00] = Ok (GoTime 1678604400 0 (-14400)).
Proof.
  split; [exact ny_ok|]. split; [quiet_tac|]. split; [apply ny_clock; reflexivity|]. split; [intros u U; apply ny_clock in U; destruct (u <? 1678604400) eqn:?, (u <? 1699164000) eqn:?; lia|].
  split; [vm_compute; reflexivity|destruct v; vm_compute; reflexivity].
Qed.
Lemma ny_gap v : loc_ok new_york /\ quiet new_york 1678588200 /\ ~ (exists u, clock new_york u 1678588200) /\ forward new_york 1678604400 3600 /\
  from_bcd_loc v new_york [0x23; 0x03; 0x12; 0x02; 0x30; 0x00] = Ok (GoTime 1678602600 0 (-18000)) /\ clock new_york 1678602600 (1678588200 - 3600).
Proof.
  split; [exact ny_ok|]. split; [quiet_tac|]. split; [intros (u & U); apply ny_clock in U; destruct (u <? 1678604400) eqn:?, (u <? 1699164000) eqn:?; lia|].
  split; [exists (-18000), (-14400); rewrite !force_iff by exact ny_ok; split; [reflexivity|split; [reflexivity|lia]]|].
  split; [destruct v; vm_compute; reflexivity|apply ny_clock; reflexivity].
Qed.
Lemma sh_case : loc_ok shanghai /\ forall u, 1262131200 <= u < 4102617600 -> in_force shanghai u 28800.
Proof.
  split; [exact sh_ok|]. intros u U. apply force_iff; [exact sh_ok|]. unfold offset_at, lookup, shanghai. cbn. destruct (Z.ltb_spec u 671558400); [lia|]. destruct (Z.ltb_spec u 684867600); [lia|reflexivity].
Qed.
Lemma expiry_refuted v : exists loc b t, loc_ok loc /\ bytes_ok b /\ expiry_read v loc b = Ok t /\ b = [0x20; 0x18; 0x11; 0x04] /\ expiry_write t = [0x20; 0x18; 0x11; 0x03].
Proof.
  exists sao_paulo, [0x20; 0x18; 0x11; 0x04], (GoTime 1541296800 0 (-10800)). split; [exact sp_ok|]. split; [repeat (constructor; [unfold is_byte; lia|]); constructor|].
  split; [destruct v; vm_compute; reflexivity|split; vm_compute; reflexivity].
Qed.
Lemma sp_case v : loc_ok sao_paulo /\ quiet sao_paulo 1541376000 /\ clock sao_paulo 1541383200 1541376000 /\
  expiry_read v sao_paulo [0x20; 0x18; 0x11; 0x05] = Ok (GoTime 1541383200 0 (-7200)).
Proof. split; [exact sp_ok|]. split; [quiet_tac|]. split; [apply clock_iff; [exact sp_ok|reflexivity]|destruct v; vm_compute; reflexivity]. Qed.
