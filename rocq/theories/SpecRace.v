(** Several encodings of one body at the same moment, specification. *)
From Verif Require Import Base Decimal Env EntTerm EntPlat Registry Race.

(** The hemisphere bits a point needs: the southern first, then the western *)
Definition signs (sb wb : Z) (lat lng : bool) : list Z :=
  (if lat then [sb] else []) ++ (if lng then [wb] else []).
(** A coordinate whose whole millionths are below zero *)
Definition under (d : decimal) : bool := micro d <? 0.

(** The words in which an encoder records hemispheres: what the caller put there, and the bits the
    coordinates of that word ask for, in the order of the coordinates *)
Definition needs (e : entity) : list (Z * list Z) :=
  match e with
  | E0200 x => [(p_status x, signs 2 3 (under (p_lat x)) (under (p_lng x)))]
  | E0201 x | E0500 x =>
      [(p_status (a0201_loc x), signs 2 3 (under (p_lat (a0201_loc x))) (under (p_lng (a0201_loc x))))]
  | E8600 x => map (fun c => (ci_attr c, signs 6 7 (under (ci_lat c)) (under (ci_lng c)))) (a8600_items x)
  | E8602 x => map (fun c => (re_attr c, signs 6 7 (under (re_llat c)) (under (re_llng c)) ++
                                         signs 6 7 (under (re_rlat c)) (under (re_rlng c)))) (a8602_items x)
  | E8604 x => [(a8604_attr x,
                 flat_map (fun v => signs 6 7 (dlt (dmul (vx_lat v) dec_million) dec_zero)
                                              (dlt (dmul (vx_lng v) dec_million) dec_zero)) (a8604_vs x))]
  | _ => []
  end.

(** Every bit that is asked for, but for the one asked for first, was already set by the caller. *)
Definition settled_word (w : Z * list Z) : Prop :=
  forall b, In b (snd w) -> hd_error (snd w) = Some b \/ Z.testbit (fst w) b = true.
Definition settled (e : entity) : Prop := Forall settled_word (needs e).

(** A value that such a word may show: all bits of the caller and the first asked for, and none that is
    neither the caller's nor asked for *)
Definition shows (w : Z * list Z) (v : Z) : Prop :=
  (forall i, Z.testbit (fst w) i = true -> Z.testbit v i = true) /\
  (forall b, hd_error (snd w) = Some b -> Z.testbit v b = true) /\
  (forall i, Z.testbit v i = true -> Z.testbit (fst w) i = true \/ In i (snd w)).

(** The loads from which the output is made, by number of the word: one of 0x0200, two of each area *)
Definition loads (e : entity) : list nat :=
  match e with
  | E0200 _ | E0201 _ | E0500 _ => [0%nat]
  | E8600 x => flat_map (fun c => [c; c]) (seq 0 (length (a8600_items x)))
  | E8602 x => flat_map (fun c => [c; c]) (seq 0 (length (a8602_items x)))
  | E8604 _ => [0%nat; 0%nat]
  | _ => []
  end.

(** A body that only one call of Encode gets whole *)
Definition reads_dry (e : entity) : Prop := exists x, e = E0801 x.
(** All [n] encoders have returned. *)
Definition all_returned (s : race) : Prop := Forall (fun t => en_code t = []) (rc_enc s).
