(** Consequences about times stated over seconds. *)
From Verif Require Import Base LibBase Bcd GoTime LibCalendar LibTime.

Lemma time_2010_2099 tz t : 1262304000 <= t_sec t + tz < 4102444800 ->
  from_bcd_time tz (to_bcd_time tz t) = Ok (GoTime (t_sec t) 0 tz).
Proof. intros. apply bcd_time_roundtrip, local_2010. auto. Qed.
Lemma time_2000_2009 tz t : 946684800 <= t_sec t + tz < 1262304000 ->
  from_bcd_time tz (to_bcd_time tz t) = Err ErrParse.
Proof. intros. apply bcd_time_early, local_early. auto. Qed.
Lemma time_century_exact tz t : 946684800 <= t_sec t + tz < 4102444800 ->
  (from_bcd_time tz (to_bcd_time tz t) = Ok (GoTime (t_sec t) 0 tz) <-> 1262304000 <= t_sec t + tz).
Proof.
  intros H. split.
  - intros E. destruct (Z.lt_ge_cases (t_sec t + tz) 1262304000); auto.
    rewrite time_2000_2009 in E by lia. discriminate.
  - intros. apply time_2010_2099. lia.
Qed.
Lemma time_century_false : exists tz t, 946684800 <= t_sec t + tz < 4102444800 /\
  from_bcd_time tz (to_bcd_time tz t) = Err ErrParse.
Proof. exists 28800, (GoTime 1230739200 0 0). vm_compute. intuition discriminate. Qed.
