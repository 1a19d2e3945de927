(** Message bodies: C06, C12-C17, C20-C23, C47-C50, C54-C64. *)
From Verif Require Import Base LibBase GoTime Decimal Env EntTerm EntPlat Registry ParamHeap.
From Verif Require Import SpecGeo SpecEntity SpecRange SpecBody Demo.
From Verif Require Import ProofRound3 ProofBody ProofBody2 ProofBody3 ProofBody4 ProofParam.

(** C06. Decoding any body bytes as any type never panics, and never needs more steps
    than the model's recursion allows (if gzip streams end). *)
Theorem C06_no_crash env typ d : bytes_ok d ->
  decode env typ d <> Panic /\ (gz_total env -> decode env typ d <> Err ErrFuel).
Proof. exact (safe env typ d). Qed.
Print Assumptions C06_no_crash.
(** 255 parameters announced, one byte present *)
Example C06_case : bytes_ok [0; 7; 255; 0] /\ decode demo_env 260 [0; 7; 255; 0] = Err ErrUnexpectedEOF.
Proof. split; [repeat constructor; cbv; congruence|reflexivity]. Qed.

(** C12 does not hold for empty lists of six types: their own decoder refuses the body. *)
Theorem C12_round_trip_refuted env : exists e d, wf env e /\ encode env e = Ok d /\ decode env (entity_id e) d = Err PErrInvalidBody.
Proof. exact (boundary_false env). Qed.
Print Assumptions C12_round_trip_refuted.
(** Every other representable body comes back. *)
Theorem C12_round_trip_partial env e : wf env e -> boundary e = false ->
  exists d, encode env e = Ok d /\ decode env (entity_id e) d = Ok (sent env e, counted e d).
Proof. exact (round_trip env e). Qed.
Print Assumptions C12_round_trip_partial.
(** C55. Exactly: a representable body comes back, up to the precision of the wire,
    unless it is one of the boundary bodies, which are refused. *)
Theorem C55_body_exact env e : wf env e -> exists d, encode env e = Ok d /\
  decode env (entity_id e) d = if boundary e then Err PErrInvalidBody else Ok (sent env e, counted e d).
Proof. exact (body_exact env e). Qed.
Print Assumptions C55_body_exact.
Example C55_case : wf demo_env (E8301 (T8301 1 [Labelled 3 [72; 105]])) /\
  decode demo_env 33537 [1; 1; 3; 2; 72; 105] = Ok (E8301 (T8301 1 [Labelled 3 [72; 105]]), 6).
Proof.
  split; [|reflexivity]. cbn [wf a8301_type a8301_events]. split; [cbv; split; congruence|]. split; [cbv; congruence|].
  constructor; [|constructor]. split; [cbv; split; congruence|]. split; [|cbv; congruence].
  exists [72; 105]. split; [reflexivity|]. split; [repeat constructor; cbv; congruence|]. split; [repeat constructor; cbv; congruence|].
  split; [discriminate|reflexivity].
Qed.

(** C56. Bytes after a complete body do not change what is decoded, for every type
    whose body does not extend to the end of the input. *)
Theorem C56_trailing env typ l e n x : open_ended typ = false ->
  decode env typ l = Ok (e, n) -> decode env typ (l ++ x) = Ok (e, n).
Proof. exact (trailing env typ l e n x). Qed.
Print Assumptions C56_trailing.
Example C56_case : decode demo_env 1 [0; 1; 2; 0; 0] = Ok (E0001 (T0001 1 512 0), 5) /\
  decode demo_env 1 ([0; 1; 2; 0; 0] ++ [9; 9]) = Ok (E0001 (T0001 1 512 0), 5).
Proof. split; reflexivity. Qed.

(** C13. Coordinates of a position report arrive truncated to six decimals with their sign. *)
Theorem C13_coordinates env e :
  fits_0200 env e -> Z.testbit (p_status e) 2 = false -> Z.testbit (p_status e) 3 = false ->
  exists d e', encode env (E0200 e) = Ok d /\ decode env 512 d = Ok (E0200 e', 28) /\
  p_lat e' = coord6 (p_lat e) /\ p_lng e' = coord6 (p_lng e).
Proof. exact (coordinates' env e). Qed.
Print Assumptions C13_coordinates.
(** Truncation loses less than a millionth, never grows the magnitude, keeps the sign
    (both sides scaled to integers). *)
Theorem C13_precision d : let j := Z.max 0 (dexp d + 6) in let k := Z.max 0 (- (dexp d + 6)) in
  Z.abs (dcoef d * 10 ^ j - trunc6 d * 10 ^ k) < 10 ^ k /\
  Z.abs (trunc6 d) * 10 ^ k <= Z.abs (dcoef d) * 10 ^ j /\ 0 <= dcoef d * trunc6 d.
Proof. exact (precision d). Qed.
Print Assumptions C13_precision.
Example C13_case : fits_0200 demo_env demo_loc /\ Z.testbit (p_status demo_loc) 2 = false /\ Z.testbit (p_status demo_loc) 3 = false /\
  p_lat demo_loc = Dec (-31234567) (-6).
Proof. split; [exact demo_fits|]. repeat split. Qed.
Example C13_case_precision : trunc6 (Dec (-1234567891) (-8)) = -12345678.
Proof. reflexivity. Qed.

(** C14 does not hold: the hemisphere flags of an encoded entity stay set. *)
Theorem C14_reuse_refuted : exists env e c d e', fits_0200 env e /\ coord_ok (fst c) /\ coord_ok (snd c) /\
  encode env (encoded (E0200 e)) = encode env (E0200 e) /\
  encode env (E0200 (set_coords (upd_0200 e) c)) = Ok d /\ decode env 512 d = Ok (E0200 e', 28) /\ p_lat e' <> coord6 (fst c).
Proof. exact reuse_false. Qed.
Print Assumptions C14_reuse_refuted.
(** C57. Exactly: after any sequence of assignments and encodings the last coordinates
    arrive, with the sign of the flags collected so far; so they arrive as assigned iff
    that sign fits them. *)
Theorem C57_reuse_exact env e cs : fits_0200 env e -> Forall (fun c => coord_ok (fst c) /\ coord_ok (snd c)) cs ->
  exists d e', encode env (E0200 (reused e cs)) = Ok d /\ decode env 512 d = Ok (E0200 e', 28) /\
  (p_lat e' = coord6 (fst (last cs (p_lat e, p_lng e))) <-> sign_ok (any_south e cs) (fst (last cs (p_lat e, p_lng e)))) /\
  (p_lng e' = coord6 (snd (last cs (p_lat e, p_lng e))) <-> sign_ok (any_west e cs) (snd (last cs (p_lat e, p_lng e)))) /\
  p_lat e' = hemi (any_south e cs) (fst (last cs (p_lat e, p_lng e))) /\
  p_lng e' = hemi (any_west e cs) (snd (last cs (p_lat e, p_lng e))).
Proof. exact (reuse' env e cs). Qed.
Print Assumptions C57_reuse_exact.
(** south, then north: arrives south *)
Example C57_case : let cs := [(Dec 45000000 (-6), Dec 9000000 (-6))] in
  Forall (fun c => coord_ok (fst c) /\ coord_ok (snd c)) cs /\ any_south demo_loc cs = true /\ any_west demo_loc cs = false /\
  hemi (any_south demo_loc cs) (fst (last cs (p_lat demo_loc, p_lng demo_loc))) = Dec (-45000000) (-6).
Proof. cbv zeta. split; [constructor; [split; reflexivity|constructor]|]. repeat split; reflexivity. Qed.

(** C15 does not hold for areas across the equator or a meridian. *)
Theorem C15_vertex_refuted : exists env e d e', fits_8604 env e /\ encode env (E8604 e) = Ok d /\
  decode env 34308 d = Ok (E8604 e', zlen d) /\
  map (fun v => (vx_lat v, vx_lng v)) (a8604_vs e') <> map (fun v => (coord6 (vx_lat v), coord6 (vx_lng v))) (a8604_vs e).
Proof. exact vertex_false. Qed.
Print Assumptions C15_vertex_refuted.
(** C58. Exactly: every vertex takes the sign of the whole area. *)
Theorem C58_polygon_exact env e : fits_8604 env e ->
  exists d, encode env (E8604 e) = Ok d /\ decode env 34308 d = Ok (E8604 (arrives_8604 env e), zlen d).
Proof. exact (polygon env e). Qed.
Print Assumptions C58_polygon_exact.
Theorem C58_polygon_signs env e :
  map (fun v => (vx_lat v, vx_lng v)) (a8604_vs (arrives_8604 env e)) =
  map (fun v => (coord6 (vx_lat v), coord6 (vx_lng v))) (a8604_vs e) <->
  Forall (fun v => sign_ok (vs_south e) (vx_lat v) /\ sign_ok (vs_west e) (vx_lng v)) (a8604_vs e).
Proof. exact (polygon_signs env e). Qed.
Print Assumptions C58_polygon_signs.
Theorem C58_rectangles_exact env e :
  is_byte (a8602_action e) -> 1 <= zlen (a8602_items e) <= 255 -> Forall (fits_rect env) (a8602_items e) ->
  exists d, encode env (E8602 e) = Ok d /\
  decode env 34306 d = Ok (E8602 (T8602 (a8602_action e) (map (arrives_rect env) (a8602_items e))), zlen d).
Proof. exact (rects env e). Qed.
Print Assumptions C58_rectangles_exact.
Example C58_case : fits_8604 demo_env demo_poly /\
  map vx_lat (a8604_vs (arrives_8604 demo_env demo_poly)) = [Dec (-1000000) (-6); Dec (-1000000) (-6)].
Proof. split; [exact demo_poly_fits|reflexivity]. Qed.
Example C58_case_rect : let c := Rect 1 0 (Dec 2000000 (-6)) (Dec 1 0) (Dec 1 0) (Dec 3 0) limits_zero in
  fits_rect demo_env c /\ arrives_rect demo_env c = Rect 1 0 (Dec 2000000 (-6)) (Dec 1000000 (-6)) (Dec 1000000 (-6)) (Dec 3000000 (-6)) limits_zero.
Proof.
  cbv zeta. split; [|reflexivity]. split; [cbv; split; congruence|]. split; [cbv; split; congruence|].
  split; [reflexivity|]. split; [reflexivity|]. split; [reflexivity|]. split; [reflexivity|]. discriminate.
Qed.

(** C16. Any list of built-in items attached with their constructors arrives in order. *)
Theorem C16_extras env e vs : fits_0200 env e -> Forall extra_val_ok vs ->
  exists d e', encode env (E0200 (with_items e (map (fun v => Some (new_extra v)) vs))) = Ok d /\
  decode env 512 d = Ok (E0200 e', 28) /\ map (option_map x_val) (p_extras e') = map Some vs.
Proof. exact (extras_sent env e vs). Qed.
Print Assumptions C16_extras.
(** Unknown items between them, and a stray last byte, do not disturb the known ones. *)
Theorem C16_unknown_skipped env e l tail : fits_0200 env e -> Forall item_ok l -> zlen tail <= 1 ->
  exists d0, encode env (E0200 (bare e)) = Ok d0 /\
  exists e', decode env 512 (d0 ++ concat (map item_wire l) ++ tail) = Ok (E0200 e', 28) /\
  map (option_map x_val) (p_extras e') = map Some (known_values l).
Proof. exact (extras_mixed env e l tail). Qed.
Print Assumptions C16_unknown_skipped.
Example C16_case : let l := [Known (X01 1000); Unknown 200 [1; 2; 3]; Known (X11 0 None); Known (X31 7)] in
  Forall item_ok l /\ concat (map item_wire l) = [1; 4; 0; 0; 3; 232; 200; 3; 1; 2; 3; 17; 1; 0; 49; 1; 7] /\
  known_values l = [X01 1000; X11 0 None; X31 7].
Proof.
  cbv zeta. split; [|split; reflexivity]. repeat constructor; try (cbv; congruence). unfold known_id. cbn. lia.
Qed.
Example C16_case_sent : fits_0200 demo_env demo_loc /\ Forall extra_val_ok [X02 500; X30 9].
Proof. split; [exact demo_fits|]. repeat constructor; cbv; congruence. Qed.

(** C17 does not hold: decoded extra items lose their bytes, and the result is refused. *)
Theorem C17_forward_refuted : exists env d e n d2, bytes_ok d /\ decode env 512 d = Ok (E0200 e, n) /\
  encode env (E0200 e) = Ok d2 /\ forall x, decode env 512 d2 <> Ok x.
Proof. exact forward_false. Qed.
Print Assumptions C17_forward_refuted.
(** C59. Exactly: a decoded report can be forwarded iff it has no extra items, and then
    arrives unchanged. *)
Theorem C59_forward_exact env d e n : bytes_ok d -> decode env 512 d = Ok (E0200 e, n) ->
  exists d2, encode env (E0200 e) = Ok d2 /\
  decode env 512 d2 = if empty (p_extras e) then Ok (E0200 e, 28) else Err ErrInvalidExtraLength.
Proof. exact (forward env d e n). Qed.
Print Assumptions C59_forward_exact.
Example C59_case : let d := enc_0200 demo_env demo_loc ++ [255] in
  bytes_ok d /\ exists e, decode demo_env 512 d = Ok (E0200 e, 28) /\ empty (p_extras e) = true.
Proof. cbv zeta. split; [vm_compute; repeat constructor; congruence|]. eexists. split; vm_compute; reflexivity. Qed.

(** C20 does not hold in the first hour of the day. *)
Theorem C20_can_time_refuted : exists env e d, 0 <= a0705_time e <= 24 * ns_hour /\ a0705_time e mod ns_ms = 0 /\ a0705_items e = [] /\
  encode env (E0705 e) = Ok d /\ forall x, decode env 1797 d <> Ok x.
Proof. exact can_false. Qed.
Print Assumptions C20_can_time_refuted.
Theorem C20_can_time_partial env e : zlen (a0705_items e) <= 65535 -> Forall wf_can (a0705_items e) ->
  ns_hour <= a0705_time e < 24 * ns_hour -> a0705_time e mod ns_ms = 0 ->
  exists d, encode env (E0705 e) = Ok d /\ decode env 1797 d = Ok (E0705 e, zlen d).
Proof. exact (can_ok env e). Qed.
Print Assumptions C20_can_time_partial.
(** C60. Exactly: the time is cut to 24 hours, taken modulo 24 hours and to the
    millisecond; the result is refused iff it is before one o'clock. *)
Theorem C60_can_time_exact env e : zlen (a0705_items e) <= 65535 -> Forall wf_can (a0705_items e) ->
  let n := Z.min (a0705_time e) (24 * ns_hour) mod (24 * ns_hour) in
  exists d, encode env (E0705 e) = Ok d /\
  decode env 1797 d = if n <? ns_hour then Err ErrOther else Ok (E0705 (T0705 (n / ns_ms * ns_ms) (a0705_items e)), zlen d).
Proof. exact (can' env e). Qed.
Print Assumptions C60_can_time_exact.
(** 13:45:10.123 *)
Example C60_case : decode demo_env 1797 (enc_0705 (T0705 49510123000000 [])) = Ok (E0705 (T0705 49510123000000 []), 7) /\
  enc_0705 (T0705 49510123000000 []) = [0; 0; 19; 69; 16; 1; 35].
Proof. vm_compute. auto. Qed.

(** C21. Parameters are typed storage ... *)
Theorem C21_typed env id :
  (forall b, pr_id (set_byte id b) = id /\ get_byte (set_byte id b) = Ok b) /\
  (forall n, is_u16 n -> pr_id (set_uint16 id n) = id /\ get_uint16 (set_uint16 id n) = Ok n) /\
  (forall n, is_u32 n -> pr_id (set_uint32 id n) = id /\ get_uint32 (set_uint32 id n) = Ok n) /\
  (forall d, pr_id (set_bytes id d) = id /\ get_bytes (set_bytes id d) = Ok d) /\
  (forall s, text_ok env s -> s <> [] -> pr_id (set_string env id s) = id /\ get_string env (set_string env id s) = Ok s) /\
  (pr_id (set_string env id []) = id /\ get_bytes (set_string env id []) = Ok [] /\ (gb_dec env [] = ([], false) -> get_string env (set_string env id []) = Ok [])).
Proof. exact (typed env id). Qed.
Print Assumptions C21_typed.
(** ... values that are too short are refused, and nothing else is ... *)
Theorem C21_short p :
  (get_byte p = Err PErrInvalidBody <-> zlen (pr_val p) < 1) /\ (get_byte p = Err PErrInvalidBody \/ exists v, get_byte p = Ok v) /\
  (get_uint16 p = Err PErrInvalidBody <-> zlen (pr_val p) < 2) /\ (get_uint16 p = Err PErrInvalidBody \/ exists v, get_uint16 p = Ok v) /\
  (get_uint32 p = Err PErrInvalidBody <-> zlen (pr_val p) < 4) /\ (get_uint32 p = Err PErrInvalidBody \/ exists v, get_uint32 p = Ok v).
Proof. exact (short_values p). Qed.
Print Assumptions C21_short.
(** ... and private: whatever the caller does with its slices, before or after, the
    parameter holds the bytes of the slice at the time of SetBytes ... *)
Theorem C21_private ops1 id a ops2 : In a (mine (prun pinit ops1)) -> Forall (fun o => is_set o = false) ops2 ->
  pvalue (prun pinit (ops1 ++ PSetBytes id a :: ops2)) = set_bytes id (buf_at (pmem (prun pinit ops1)) a).
Proof. exact (private ops1 id a ops2). Qed.
Print Assumptions C21_private.
(** ... the same for the other setters ... *)
Theorem C21_private_numbers ops1 id n ops2 : Forall (fun o => is_set o = false) ops2 ->
  pvalue (prun pinit (ops1 ++ PSetByte id n :: ops2)) = set_byte id n /\
  pvalue (prun pinit (ops1 ++ PSetUint16 id n :: ops2)) = set_uint16 id n /\
  pvalue (prun pinit (ops1 ++ PSetUint32 id n :: ops2)) = set_uint32 id n.
Proof. exact (private_numbers ops1 id n ops2). Qed.
Print Assumptions C21_private_numbers.
(** ... and GetBytes hands out a new slice with those bytes. *)
Theorem C21_get_private ops : let s := prun pinit ops in let s' := pstep s PGetBytes in
  exists a, In a (mine s') /\ ~ In a (mine s) /\ a <> pbuf s' /\ get_bytes (pvalue s) = Ok (buf_at (pmem s') a).
Proof. exact (got_bytes ops). Qed.
Print Assumptions C21_get_private.
(** the caller overwrites its slice and the slice it got *)
Example C21_case : let ops1 := [PMake [1; 2; 3]] in let ops2 := [PWrite 1 0 9; PGetBytes; PWrite 3 1 9] in
  In 1%nat (mine (prun pinit ops1)) /\ Forall (fun o => is_set o = false) ops2 /\
  pvalue (prun pinit (ops1 ++ PSetBytes 16 1 :: ops2)) = Param 16 [1; 2; 3] /\
  pmem (prun pinit (ops1 ++ PSetBytes 16 1 :: ops2)) = [[]; [9; 2; 3]; [1; 2; 3]; [1; 9; 3]].
Proof. cbv zeta. split; [left; reflexivity|]. split; [repeat constructor|]. split; reflexivity. Qed.

(** C22 does not hold: the count wraps around. *)
Theorem C22_overlong_refuted : exists env e d n, encode env e = Ok d /\ counted_list (entity_id e) = true /\
  exists e', decode env (entity_id e) d = Ok (e', n) /\ e' <> e.
Proof. exact overlong_false. Qed.
Print Assumptions C22_overlong_refuted.
Theorem C22_overlong_text_refuted : exists env e d e' n, encode env e = Ok d /\ decode env (entity_id e) d = Ok (e', n) /\ e' <> e /\
  e = E8301 (T8301 1 [Labelled 1 (repeat 65 257)]).
Proof. exact overlong_text_false. Qed.
Print Assumptions C22_overlong_text_refuted.
(** C61. Exactly: of a list of any length the first (length mod 256) or (length mod
    65536) elements arrive. *)
Theorem C61_overlong_exact env e d : counted_list (entity_id e) = true -> encode env e = Ok d -> wf env (cut e) -> boundary e = false ->
  exists n, decode env (entity_id e) d = Ok (sent env (cut e), n).
Proof. exact (overlong env e d). Qed.
Print Assumptions C61_overlong_exact.
(** 258 ids: the first two arrive *)
Example C61_case : let e := E8003 (T8003 9 (repeat 5 258)) in
  counted_list (entity_id e) = true /\ wf demo_env (cut e) /\ boundary e = false /\ cut e = E8003 (T8003 9 [5; 5]).
Proof.
  cbv zeta. split; [reflexivity|]. split; [|split; reflexivity]. vm_compute. intuition (try congruence). repeat constructor; congruence.
Qed.

(** C23 does not hold for multimedia uploads (the packet reader is consumed). *)
Theorem C23_repeat_refuted : exists env e d, encode env e = Ok d /\ wf env e /\ encode env (encoded e) <> Ok d.
Proof. exact repeat_false. Qed.
Print Assumptions C23_repeat_refuted.
(** All other bodies encode the same again. *)
Theorem C23_repeat_partial env e d : (forall x, e <> E0801 x) -> encode env e = Ok d -> encode env (encoded e) = Ok d.
Proof. exact (repeat_others env e d). Qed.
Print Assumptions C23_repeat_partial.
(** C62. Exactly: only uploads differ, by the data that is gone. *)
Theorem C62_repeat_exact env e d : encode env e = Ok d ->
  encode env (encoded e) =
  match e with
  | E0801 x => Ok (enc_0800 (a0801_head x) ++ enc_0200 env (bare (a0801_loc x)))
  | _ => Ok d
  end.
Proof. exact (repeatable env e d). Qed.
Print Assumptions C62_repeat_exact.
Example C62_case : exists d, encode demo_env (E0200 demo_loc) = Ok d /\ encoded (E0200 demo_loc) <> E0200 demo_loc /\
  encode demo_env (encoded (E0200 demo_loc)) = Ok d.
Proof. eexists. split; [reflexivity|]. split; [vm_compute; discriminate|]. vm_compute. reflexivity. Qed.

(** C47. Key messages: every modulus of 128 bytes and every exponent of 32 bits. *)
Theorem C47_keys env x n : 0 <= x < 2 ^ 32 -> 2 ^ 1016 <= n < 2 ^ 1024 ->
  (exists d, encode env (E0A00 (T0A00 (Some (x, Some n)))) = Ok d /\ decode env 2560 d = Ok (E0A00 (T0A00 (Some (x, Some n))), zlen d)) /\
  (exists d, encode env (E8A00 (T0A00 (Some (x, Some n)))) = Ok d /\ decode env 35328 d = Ok (E8A00 (T0A00 (Some (x, Some n))), zlen d)).
Proof. exact (keys env x n). Qed.
Print Assumptions C47_keys.
(** Missing keys and other sizes are refused. *)
Theorem C47_refused env e : (exists d, encode env (E0A00 e) = Ok d) <->
  exists x n, a0a00_key e = Some (x, Some n) /\ 2 ^ 1016 <= Z.abs n < 2 ^ 1024.
Proof. exact (key_refused' env e). Qed.
Print Assumptions C47_refused.
Theorem C47_error env e : (exists d, encode env (E0A00 e) = Ok d) \/ encode env (E0A00 e) = Err ErrKey.
Proof. exact (key_error' env e). Qed.
Print Assumptions C47_error.
Example C47_case : exists d, encode demo_env (E0A00 (T0A00 (Some (65537, Some (2 ^ 1023 + 12345))))) = Ok d /\ zlen d = 132 /\
  decode demo_env 2560 d = Ok (E0A00 (T0A00 (Some (65537, Some (2 ^ 1023 + 12345)))), 132).
Proof. eexists. split; [reflexivity|]. split; vm_compute; reflexivity. Qed.

(** C48 does not hold: a read error in the middle of the stream is taken as its end. *)
Theorem C48_gzip_refuted : exists env z cs c, gz_dec env z = Some (gz_stream cs c GzErr []) /\
  exists x n, decode env 2305 (w_u32 (zlen z) ++ z) = Ok (x, n).
Proof. exact gz_false. Qed.
Print Assumptions C48_gzip_refuted.
(** C63. Exactly: the data is what was read before the end or the error; only a bad
    gzip header is refused. *)
Theorem C63_gzip_exact env z r cs c st rest : zlen z < 4294967296 -> gz_dec env z = Some (gz_stream cs c st rest) -> st <> GzMore ->
  decode env 2305 (w_u32 (zlen z) ++ z ++ r) = Ok (E0901 (T0901 (concat cs ++ match st with GzEOF => c | _ => [] end)), 4 + zlen z).
Proof. exact (gz_exact' env z r cs c st rest). Qed.
Print Assumptions C63_gzip_exact.
Theorem C63_gzip_header env z r : zlen z < 4294967296 -> gz_dec env z = None -> decode env 2305 (w_u32 (zlen z) ++ z ++ r) = Err ErrGzip.
Proof. exact (gz_bad' env z r). Qed.
Print Assumptions C63_gzip_header.
Example C63_case : gz_dec demo_env [31; 7; 8] = Some (gz_stream [] [7; 8] GzEOF []) /\ gz_dec demo_env [9] = None /\
  gz_dec damaged_env [9] = Some (gz_stream [[1; 2]] [3] GzErr []).
Proof. repeat split. Qed.

(** C49. A decoded entity reports the id it was decoded as; exactly the ids outside the
    list are not registered. *)
Theorem C49_id env typ d e n : bytes_ok d -> decode env typ d = Ok (e, n) -> entity_id e = typ /\ In typ registered.
Proof. exact (same_id env typ d e n). Qed.
Print Assumptions C49_id.
Theorem C49_unregistered env typ d : bytes_ok d -> (decode env typ d = Err ErrTypeNotRegistered <-> ~ In typ registered).
Proof. exact (not_registered env typ d). Qed.
Print Assumptions C49_unregistered.
Example C49_case : length registered = 65%nat /\ NoDup registered /\ decode demo_env 2 [] = Ok (E0002, 0) /\ decode demo_env 4 [] = Err ErrTypeNotRegistered.
Proof. split; [reflexivity|]. split; [|split; reflexivity]. unfold registered. repeat (constructor; [cbn [In]; lia|]). constructor. Qed.

(** C50 does not hold: 0x0303 reports one byte but reads two. *)
Theorem C50_count_refuted : exists env d d2 e e2 n, bytes_ok d /\ bytes_ok d2 /\ zlen d = zlen d2 /\
  decode env 771 d = Ok (e, n) /\ firstn (Z.to_nat n) d = firstn (Z.to_nat n) d2 /\ decode env 771 d2 = Ok (e2, n) /\ e <> e2.
Proof. exact count_false. Qed.
Print Assumptions C50_count_refuted.
(** C64. For all types but ten the count covers everything the decoder looked at ... *)
Theorem C64_count_covers env typ d e n : bytes_ok d -> counts_right typ = true -> decode env typ d = Ok (e, n) ->
  0 <= n <= zlen d /\ forall d2, zlen d2 = zlen d -> firstn (Z.to_nat n) d2 = firstn (Z.to_nat n) d -> decode env typ d2 = Ok (e, n).
Proof. exact (count_covers env typ d e n). Qed.
Print Assumptions C64_count_covers.
(** ... and for an encoded body it is the length, except for those ten (see [counted]). *)
Theorem C64_count_of_encoded env e : wf env e -> boundary e = false ->
  exists d, encode env e = Ok d /\ decode env (entity_id e) d = Ok (sent env e, counted e d).
Proof. exact (round_trip env e). Qed.
Print Assumptions C64_count_of_encoded.
Example C64_case : counts_right 1 = true /\ decode demo_env 1 [0; 1; 2; 0; 0; 77] = Ok (E0001 (T0001 1 512 0), 5) /\ counts_right 771 = false.
Proof. repeat split. Qed.

(** C54. Whatever was received, every decoded field is in range. *)
Theorem C54_in_range env typ d e n : bytes_ok d -> decode env typ d = Ok (e, n) -> decoded_ok env e /\ 0 <= n <= zlen d.
Proof. exact (in_range env typ d e n). Qed.
Print Assumptions C54_in_range.
Example C54_case : bytes_ok [0; 9; 2; 1; 2; 3; 4; 1; 9; 5; 6; 7; 8; 0] /\
  decode demo_env 260 [0; 9; 2; 1; 2; 3; 4; 1; 9; 5; 6; 7; 8; 0] = Ok (E0104 (T0104 9 [Some (Param 16909060 [9]); Some (Param 84281096 [])]), 14).
Proof. split; [repeat constructor; cbv; congruence|reflexivity]. Qed.
