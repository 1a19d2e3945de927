(** When a test of the repository passes, and the characters of its texts. *)
From Verif Require Import Base GoTime Env EntTerm Registry SpecEntity Multipart Tests SpecMulti.

(** Encode, Decode into a fresh value, compare with the value as Encode left it *)
Definition passes (env : Env) (e : entity) : Prop :=
  exists d n, encode env e = Ok d /\ decode env (entity_id e) d = Ok (encoded e, n).
(** Encode, Decode into a fresh value, without errors; what is decoded is the value up to the precision of the wire *)
Definition runs (env : Env) (e : entity) : Prop :=
  exists d n, encode env e = Ok d /\ decode env (entity_id e) d = Ok (sent env e, n).
(** [message2.ExpiryDate = message.ExpiryDate] *)
Definition with_expiry (x : t0702) (t : gotime) : t0702 :=
  T0702 (a0702_state x) (a0702_time x) (a0702_ic x) (a0702_name x) (a0702_number x) (a0702_company x) t.
(** a moment of the clock of the machine: whole seconds, local zone, a year the BCD times can hold *)
Definition clock_time (env : Env) (t : gotime) : Prop := t_nsec t = 0 /\ t_zone t = tz_off env /\ 1262304000 <= t_sec t + tz_off env < 4102444800.
(** the calls of the test of uploads *)
Definition test_calls : list mop := map (fun p => MWrite test_upload (fst p) (snd p)) test_writes.
(** the characters of the texts of the tests, in Unicode *)
Definition test_runes : list (list Z) :=
  [[0x61; 0x73; 0x64; 0x66; 0x67; 0x963f; 0x4f2f; 0x5403; 0x5f97];
   [0x41; 0x42; 0x43; 0x963f; 0x535a; 0x8328];
   [0x8f66; 0x724c; 0x53f7; 0x7801];
   [0x738b; 0x5e08; 0x5085];
   [0x4e; 0x53; 0x31; 0x32; 0x33; 0x34; 0x35; 0x36; 0x37; 0x38];
   [0x673a; 0x6784; 0x540d; 0x79f0];
   [0x9274; 0x6743; 0x7801];
   [0x61; 0x64; 0x61; 0x73; 0x64; 0x3a; 0x6d4b; 0x8bd5];
   [0x31; 0x30; 0x2e; 0x31; 0x2e; 0x31];
   [0x68; 0x65; 0x6c; 0x6c; 0x6f; 0x6d4b; 0x8bd5; 0x6d4b; 0x8bd5];
   [0x4e8b; 0x4ef6; 0x31];
   [0x4e8b; 0x4ef6; 0x32];
   [0x4e8b; 0x4ef6; 0x33];
   [0x4eca; 0x5929; 0x661f; 0x671f; 0x51e0; 0xff1f];
   [0x661f; 0x671f; 0x4e00];
   [0x661f; 0x671f; 0x4e8c];
   [0x661f; 0x671f; 0x4e09];
   [0x70b9; 0x64ad; 0x9879; 0x31];
   [0x70b9; 0x64ad; 0x9879; 0x32];
   [0x70b9; 0x64ad; 0x9879; 0x33];
   [0x6d4b; 0x8bd5; 0x74; 0x65; 0x73; 0x74];
   [0x2b; 0x38; 0x36; 0x31; 0x39; 0x39; 0x31; 0x32; 0x33; 0x34; 0x35; 0x36; 0x37; 0x38];
   [0x2b; 0x38; 0x36; 0x31; 0x39; 0x39; 0x34; 0x32; 0x33; 0x35; 0x31; 0x36; 0x39; 0x38];
   [0x8001; 0x738b]].
