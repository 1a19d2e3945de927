(** A key of 1024 bits and an encryption made by OpenSSL. *)
From Coq Require Import Znumtheory.
From Verif Require Import Base LibBase GoTime Env EntTerm EntPlat Registry Sha1 Rsa SpecMsg SpecRsa ProofRsa ProofRsa2 Demo.

(** Ninety primes; each less one divides 21621600. *)
Definition demo_primes : list Z :=
  [281; 337; 353; 379; 397; 401; 421; 433; 463; 521; 541; 547; 601; 617; 631; 661; 673; 701; 757; 859; 881; 911;
   937; 991; 1009; 1051; 1093; 1171; 1201; 1249; 1301; 1321; 1801; 1873; 1951; 2003; 2017; 2081; 2161; 2311;
   2341; 2377; 2521; 2731; 2801; 2861; 2971; 3121; 3169; 3301; 3361; 3433; 3511; 3697; 3851; 4159; 4201; 4621;
   4951; 5281; 5851; 6007; 6301; 6553; 7151; 7393; 7561; 7723; 8009; 8191; 8317; 8581; 8737; 9241; 9829; 9901;
   11551; 11701; 12601; 13729; 14561; 14851; 15121; 15401; 15601; 16381; 16633; 17551; 18481; 19801].
Definition demo_key : rsakey := RsaKey (product demo_primes) 17 7631153.
Definition demo_seed : bytes := [217; 183; 145; 48; 95; 18; 169; 62; 66; 253; 14; 14; 139; 155; 241; 94; 152; 10; 210; 165].
Definition rsa_demo : Env := rsa_env demo_env (fun _ => demo_key) (fun _ => demo_seed).

Lemma demo_numbers : rsa_numbers (rk_n demo_key) (rk_e demo_key) (rk_d demo_key) demo_primes.
Proof.
  constructor.
  - apply Forall_forall. intros p H. apply trial_prime with 140%nat; [lia|..].
    + assert (F : forallb (fun p => 1 <? p) demo_primes = true) by (vm_compute; reflexivity). rewrite forallb_forall in F. specialize (F p H). lia.
    + assert (F : forallb (fun p => p <? 141 * 141) demo_primes = true) by (vm_compute; reflexivity). rewrite forallb_forall in F. specialize (F p H). lia.
    + assert (F : forallb (trial 140) demo_primes = true) by (vm_compute; reflexivity). rewrite forallb_forall in F. exact (F p H).
  - assert (F : forall l, (fix up (x : Z) (l : list Z) := match l with [] => true | y :: t => (x <? y) && up y t end) 0 l = true -> NoDup l).
    { intros l. generalize 0. assert (G : forall l x, (fix up (x : Z) (l : list Z) := match l with [] => true | y :: t => (x <? y) && up y t end) x l = true -> NoDup l /\ forall y, In y l -> x < y).
      { clear l. induction l as [|y l IH]; intros x H; [split; [constructor|intros ? []]|]. apply andb_true_iff in H as [H1 H2]. destruct (IH y H2) as [N B]. split.
        - constructor; [|exact N]. intros I. specialize (B y I). lia.
        - intros z [->|I]; [lia|]. specialize (B z I). lia. }
      intros x H. apply (G l x H). }
    apply F. vm_compute. reflexivity.
  - reflexivity.
  - intros p H. assert (F : forallb (fun p => (17 * 7631153 - 1) mod (p - 1) =? 0) demo_primes = true) by (vm_compute; reflexivity).
    rewrite forallb_forall in F. specialize (F p H). apply Z.eqb_eq in F. assert (G : forallb (fun p => 1 <? p) demo_primes = true) by (vm_compute; reflexivity).
    rewrite forallb_forall in G. specialize (G p H). apply Z.mod_divide in F; [exact F|lia].
  - cbn [demo_key rk_e]. lia.
  - reflexivity.
Qed.
Lemma demo_takes : takes_bytes 128 (rk_n demo_key).
Proof. unfold takes_bytes. split; [lia|]. assert (H : (256 ^ 127 <=? rk_n demo_key) && (rk_n demo_key <? 256 ^ 128) = true) by (vm_compute; reflexivity). change (128 - 1) with 127. lia. Qed.
Lemma demo_seed_ok : bytes_ok demo_seed /\ zlen demo_seed = 20.
Proof. split; [|reflexivity]. unfold demo_seed. repeat constructor; lia. Qed.

(** openssl pkeyutl -encrypt with OAEP and SHA-1 made this of the text, the seed is the one it drew. *)
Definition demo_text : bytes := [7; 126; 0; 1; 74; 84; 47; 84; 32; 56; 48; 56].
Definition demo_cipher : bytes :=
  [90; 17; 108; 16; 69; 85; 52; 144; 252; 113; 86; 167; 101; 134; 3; 8; 9; 57; 33; 93; 190; 234; 75; 87; 244;
   225; 39; 214; 163; 220; 44; 203; 217; 86; 249; 129; 99; 110; 240; 215; 67; 64; 111; 36; 105; 50; 172; 96; 7;
   5; 159; 147; 33; 164; 146; 46; 169; 87; 0; 58; 165; 80; 149; 227; 134; 213; 194; 59; 255; 40; 113; 50; 54; 16;
   209; 153; 81; 0; 24; 4; 105; 208; 43; 69; 252; 239; 246; 130; 122; 225; 110; 218; 54; 31; 214; 196; 46; 230;
   96; 182; 69; 145; 144; 156; 99; 221; 96; 84; 157; 186; 121; 101; 120; 212; 64; 88; 27; 110; 94; 182; 217; 80;
   186; 123; 134; 17; 168; 101].
Lemma demo_openssl : rsa_enc demo_key demo_seed demo_text = Some demo_cipher.
Proof. vm_compute. reflexivity. Qed.
Lemma demo_digests : sha1 [] = [218; 57; 163; 238; 94; 107; 75; 13; 50; 85; 191; 239; 149; 96; 24; 144; 175; 216; 7; 9] /\
  sha1 [97; 98; 99] = [169; 153; 62; 54; 71; 6; 129; 106; 186; 62; 37; 113; 120; 80; 194; 108; 156; 208; 216; 157].
Proof. split; vm_compute; reflexivity. Qed.
Lemma back k ps seed m c : rsa_numbers (rk_n k) (rk_e k) (rk_d k) ps -> takes_bytes 128 (rk_n k) -> bytes_ok seed -> zlen seed = 20 -> bytes_ok m -> zlen m <= 86 ->
  rsa_enc k seed m = Some c -> rsa_dec k c = Some m.
Proof.
  intros R T B S Bm L E. destruct (enc_dec k k ps 128 seed m eq_refl eq_refl R T) as (c' & E' & _ & _ & D); auto; [unfold zlen in S; lia|]. congruence.
Qed.
Lemma demo_text_ok : bytes_ok demo_text /\ zlen demo_text <= 86.
Proof. split; [unfold demo_text; repeat constructor; lia|vm_compute; discriminate]. Qed.
Lemma demo_back : rsa_dec demo_key demo_cipher = Some demo_text.
Proof. exact (back demo_key demo_primes demo_seed demo_text demo_cipher demo_numbers demo_takes (proj1 demo_seed_ok) (proj2 demo_seed_ok) (proj1 demo_text_ok) (proj2 demo_text_ok) demo_openssl). Qed.
Lemma demo_search_bytes : encode rsa_demo (E8802 (T8802 2 1 0 (GoTime 1704038400 0 28800) (GoTime 1709222399 0 28800))) = Ok [2; 1; 0; 36; 1; 1; 0; 0; 0; 36; 2; 41; 35; 89; 89].
Proof. vm_compute. reflexivity. Qed.
