(** Several send loops that encode one and the same body at the same moment.

    Session.Send puts a pointer to the caller's struct into the message (session.go:71-80) and every
    session's send loop encodes it on its own goroutine (link session.go:127-150, protocol.go:60-98), so a
    body given to several sessions is encoded by several goroutines without a lock.  Encode of 0x0200,
    0x0201, 0x0500, 0x0705, 0x8600, 0x8602 and 0x8604 writes a field of that struct and reads it again.
    Here each of those accesses is one step, and the steps of the goroutines come in any order.

    Simplifications: an access to a field is one indivisible load or one indivisible store, and all
    goroutines see them in one order (the Go memory model promises the first for fields of one word, the
    second only to programs without such races; orders that no single memory shows are left out).  Fields
    that no Encode writes are constants.  0x0801 is left out: its Encode also reads its Packet dry. *)
From Verif Require Import Base Bits Bcd Decimal Env EntTerm EntPlat Registry.

(** One access to a written field.  [AMark c w off]: [*value |= 1 << offset] on field [c] of [w] bits,
    bit.go:28-37, 46-55, a load and a store.  [AClamp c]: t808_0x0705.go:41-43, a load and, when the value
    is too great, a store.  [ARead c]: a load whose value Encode goes on with. *)
Inductive act :=
| AMark (c : nat) (w off : Z)
| AClamp (c : nat)
| ARead (c : nat).

(** [if lat < 0 { x.SetSouthLatitude(true) }], t808_0x0200.go:111-119, t808_0x8600.go:108-116 *)
Definition mark_if (c : nat) (w off : Z) (neg : bool) : list act :=
  if neg then [AMark c w off] else [].

(** The accesses of T808_0x0200.Encode to Status in the order of the code, t808_0x0200.go:111-122 *)
Definition code_0200 (x : t0200) : list act :=
  mark_if 0 32 2 (micro (p_lat x) <? 0) ++ mark_if 0 32 3 (micro (p_lng x) <? 0) ++ [ARead 0].

(** The accesses of T808_0x8600.Encode to the Attribute of item [c]: the marks, the value written and the
    value tested for a time block, t808_0x8600.go:107-136 *)
Definition code_circle (c : nat) (x : circle) : list act :=
  mark_if c 16 6 (micro (ci_lat x) <? 0) ++ mark_if c 16 7 (micro (ci_lng x) <? 0) ++
  [ARead c; ARead c].

(** The same of T808_0x8602.Encode, t808_0x8602.go:62-97 *)
Definition code_rect (c : nat) (x : rect) : list act :=
  mark_if c 16 6 (micro (re_llat x) <? 0) ++ mark_if c 16 7 (micro (re_llng x) <? 0) ++
  mark_if c 16 6 (micro (re_rlat x) <? 0) ++ mark_if c 16 7 (micro (re_rlng x) <? 0) ++
  [ARead c; ARead c].

(** [for idx := range entity.Items], t808_0x8600.go:101, t808_0x8602.go:55 *)
Fixpoint code_items {A} (f : nat -> A -> list act) (c : nat) (l : list A) : list act :=
  match l with
  | [] => []
  | x :: t => f c x ++ code_items f (S c) t
  end.

(** The marks of one vertex, t808_0x8604.go:48-57 *)
Definition code_vertex (v : vertex) : list act :=
  mark_if 0 16 6 (dlt (dmul (vx_lat v) dec_million) dec_zero) ++
  mark_if 0 16 7 (dlt (dmul (vx_lng v) dec_million) dec_zero).

(** The accesses of Encode to the fields it writes; no other Encode writes any. *)
Definition code (e : entity) : list act :=
  match e with
  | E0200 x => code_0200 x
  | E0201 x | E0500 x => code_0200 (a0201_loc x)          (* t808_0x0201.go:21, t808_0x0500.go:21 *)
  | E0705 _ => [AClamp 0; ARead 0]                        (* t808_0x0705.go:41-44 *)
  | E8600 x => code_items code_circle 0 (a8600_items x)
  | E8602 x => code_items code_rect 0 (a8602_items x)
  | E8604 x => concat (map code_vertex (a8604_vs x)) ++ [ARead 0; ARead 0]  (* t808_0x8604.go:46-68 *)
  | _ => []
  end.

(** The fields that Encode writes, as they stand in the struct: t808_0x0200.go:79-98,
    t808_0x0705.go:12-27, t808_0x8600.go:56-85, t808_0x8602.go:11-39, t808_0x8604.go:18-33 *)
Definition cells (e : entity) : list Z :=
  match e with
  | E0200 x => [p_status x]
  | E0201 x | E0500 x => [p_status (a0201_loc x)]
  | E0705 x => [a0705_time x]
  | E8600 x => map ci_attr (a8600_items x)
  | E8602 x => map re_attr (a8602_items x)
  | E8604 x => [a8604_attr x]
  | _ => []
  end.

(** Field [c] of a memory; 0 beyond the end. *)
Definition cell (m : list Z) (c : nat) : Z := nth c m 0.

(** T808_0x0200.Encode after it has loaded Status as [v], t808_0x0200.go:104-155 *)
Definition out_0200 (env : Env) (x : t0200) (v : Z) : bytes :=
  concat [w_u32 (p_alarm x); w_u32 v;
          w_u32 (abs_u32 env (micro (p_lat x))); w_u32 (abs_u32 env (micro (p_lng x)));
          w_u16 (p_alt x); w_u16 (p_speed x); w_u16 (p_dir x); w_time env (p_time x);
          enc_extras (p_extras x)].

(** One item of T808_0x8600.Encode with the two loads of Attribute, t808_0x8600.go:101-146 *)
Definition out_circle (env : Env) (x : circle) (v1 v2 : Z) : bytes :=
  concat [w_u32 (ci_id x); w_u16 v1;
          w_u32 (abs_u32 env (micro (ci_lat x))); w_u32 (abs_u32 env (micro (ci_lng x)));
          w_u32 (ci_radius x);
          if at_timed v2 then enc_limits env (ci_lim x) else []].

(** One item of T808_0x8602.Encode with the two loads of Attribute, t808_0x8602.go:55-111 *)
Definition out_rect (env : Env) (x : rect) (v1 v2 : Z) : bytes :=
  concat [w_u32 (re_id x); w_u16 v1;
          w_u32 (abs_u32 env (micro (re_llat x))); w_u32 (abs_u32 env (micro (re_llng x)));
          w_u32 (abs_u32 env (micro (re_rlat x))); w_u32 (abs_u32 env (micro (re_rlng x)));
          if at_timed v2 then enc_limits env (re_lim x) else []].

(** The loop over the items, two loads each *)
Fixpoint out_items {A} (f : A -> Z -> Z -> bytes) (l : list A) (vs : list Z) : bytes :=
  match l, vs with
  | x :: t, v1 :: v2 :: r => f x v1 v2 ++ out_items f t r
  | _, _ => []
  end.

(** The bytes Encode returns when its loads gave [vs]; an Encode that writes no field is one step. *)
Definition output (env : Env) (e : entity) (vs : list Z) : res bytes :=
  match e with
  | E0200 x => Ok (out_0200 env x (cell vs 0))
  | E0201 x | E0500 x => Ok (concat [w_u16 (a0201_serial x); out_0200 env (a0201_loc x) (cell vs 0)])
  | E0705 x => Ok (concat [w_u16 (u16 (zlen (a0705_items x)));
                           w_fixed (string_to_bcd (can_clock (cell vs 0))) 5;
                           concat (map (fun c => can_id c ++ can_data c) (a0705_items x))])
  | E8600 x => Ok (concat [w_byte (a8600_action x); w_byte (u8 (zlen (a8600_items x)));
                           out_items (out_circle env) (a8600_items x) vs])
  | E8602 x => Ok (concat [w_byte (a8602_action x); w_byte (u8 (zlen (a8602_items x)));
                           out_items (out_rect env) (a8602_items x) vs])
  | E8604 x => Ok (concat [w_u32 (a8604_id x); w_u16 (cell vs 0);
                           if at_timed (cell vs 1) then enc_limits env (a8604_lim x) else [];
                           w_u16 (u16 (zlen (a8604_vs x))); concat (map (enc_vertex env) (a8604_vs x))])
  | _ => encode env e
  end.

(** The struct with the written fields as in memory [m], the others as in [e]. *)
Fixpoint put_attrs {A} (f : A -> Z -> A) (l : list A) (m : list Z) : list A :=
  match l, m with
  | x :: t, v :: r => f x v :: put_attrs f t r
  | _, _ => l
  end.
(** assignment to Status, t808_0x0200.go:79-98 *)
Definition put_status (x : t0200) (v : Z) : t0200 :=
  T0200 (p_alarm x) v (p_lat x) (p_lng x) (p_alt x) (p_speed x) (p_dir x) (p_time x) (p_extras x).
(** assignment to Attribute, t808_0x8600.go:56-78 *)
Definition put_circle (x : circle) (v : Z) : circle :=
  Circle (ci_id x) v (ci_lat x) (ci_lng x) (ci_radius x) (ci_lim x).
(** assignment to Attribute, t808_0x8602.go:11-32 *)
Definition put_rect (x : rect) (v : Z) : rect :=
  Rect (re_id x) v (re_llat x) (re_llng x) (re_rlat x) (re_rlng x) (re_lim x).
(** The body when its written fields hold [m] *)
Definition stored (e : entity) (m : list Z) : entity :=
  match e with
  | E0200 x => E0200 (put_status x (cell m 0))
  | E0201 x => E0201 (T0201 (a0201_serial x) (put_status (a0201_loc x) (cell m 0)))
  | E0500 x => E0500 (T0201 (a0201_serial x) (put_status (a0201_loc x) (cell m 0)))
  | E0705 x => E0705 (T0705 (cell m 0) (a0705_items x))
  | E8600 x => E8600 (T8600 (a8600_action x) (put_attrs put_circle (a8600_items x) m))
  | E8602 x => E8602 (T8602 (a8602_action x) (put_attrs put_rect (a8602_items x) m))
  | E8604 x => E8604 (T8604 (a8604_id x) (cell m 0) (a8604_lim x) (a8604_vs x))
  | _ => e
  end.

(** A goroutine inside Encode: what it has still to do, the value it has loaded but not yet stored back,
    and the loads made for the output. *)
Record encoder := Encoder { en_code : list act; en_reg : option Z; en_vals : list Z }.

(** The memory and the goroutines *)
Record race := Race { rc_mem : list Z; rc_enc : list encoder }.

(** Element assignment *)
Fixpoint set_cell {A} (l : list A) (n : nat) (v : A) : list A :=
  match l, n with
  | [], _ => []
  | _ :: t, O => v :: t
  | x :: t, S n' => x :: set_cell t n' v
  end.

(** One step of a goroutine on the memory; [None] when Encode has returned. *)
Definition turn (m : list Z) (t : encoder) : option (list Z * encoder) :=
  match en_code t with
  | [] => None
  | ARead c :: k => Some (m, Encoder k None (en_vals t ++ [cell m c]))
  | AMark c w off :: k =>
      match en_reg t with
      | None => Some (m, Encoder (en_code t) (Some (cell m c)) (en_vals t))
      | Some v => Some (set_cell m c (setb w v off true), Encoder k None (en_vals t))
      end
  | AClamp c :: k =>
      match en_reg t with
      | None => if 24 * ns_hour <? cell m c
                then Some (m, Encoder (en_code t) (Some (cell m c)) (en_vals t))
                else Some (m, Encoder k None (en_vals t))
      | Some _ => Some (set_cell m c (24 * ns_hour), Encoder k None (en_vals t))
      end
  end.

(** Goroutine [i] does one step; nothing happens when it has returned. *)
Definition rstep (s : race) (i : nat) : race :=
  match nth_error (rc_enc s) i with
  | None => s
  | Some t => match turn (rc_mem s) t with
              | None => s
              | Some (m, t') => Race m (set_cell (rc_enc s) i t')
              end
  end.

(** The goroutines take their steps in the order [sch]. *)
Definition rrun (s : race) (sch : list nat) : race := fold_left rstep sch s.

(** [n] goroutines are about to encode body [e], session.go:71-80, protocol.go:60-98.  One that gets no
    turn has not begun. *)
Definition rstart (e : entity) (n : nat) : race :=
  Race (cells e) (repeat (Encoder (code e) None []) n).

(** Goroutine [i] has returned and these are the bytes. *)
Definition returned (env : Env) (e : entity) (s : race) (i : nat) : option (res bytes) :=
  match nth_error (rc_enc s) i with
  | Some (Encoder [] _ vs) => Some (output env e vs)
  | _ => None
  end.
