(** An application with a type of its own, used by the witnesses and examples. *)
From Verif Require Import Base Env EntTerm EntPlat Registry Message Custom SpecCustom.

(** Message 0x0F00: any bytes; the flag tells pointers from structures *)
Definition own_types : customs := Customs (bool * bytes) (fun _ => 3840) (fun v => Ok (snd v)) (fun v => v) fst.
(** Registered twice, the second time for good *)
Definition calls_good : list (registration own_types) := [(3840, fun _ => Err ErrInvalidBody); (3841, fun _ => Err ErrInvalidBody); (3840, fun d => Ok (ACus (C := own_types) (true, d)))].
(** A creator that returns a structure *)
Definition calls_value : list (registration own_types) := [(3840, fun d => Ok (ACus (C := own_types) (false, d)))].
(** A replacement of 0x0001 *)
Definition calls_answer : list (registration own_types) := [(1, fun d => Ok (ACus (C := own_types) (true, d)))].
(** A header from terminal 13800138000 *)
Definition own_hdr (id : Z) : header := Header id 0 13800138000 7 None.
(** Extra items 0xF0 *)
Definition own_items : items := Items bytes (fun _ => 240) (fun d => d) (fun _ => true).
(** Their registration *)
Definition item_calls : list (item_registration own_items) := [(240, fun d => Ok (d, zlen d))].
