(** What is said about file descriptors. *)
From Verif Require Import Base Multipart SpecMulti Overlap Faults Descr.

(** An operating system that lets a process have [lim] descriptors, [used] of which are in use elsewhere *)
Definition limited (lim used : Z) : os := fun held _ => used + held <? lim.
(** No descriptor of the packet is open. *)
Definition fresh : fds := Fds 0 0 0.
(** A packet as it can arrive *)
Definition arrives (p : packet) : Prop := mpf_ok (pk_up p) /\ is_u16 (pk_seq p).
(** Packets handled one after another with nothing else failing: what became of each *)
Fixpoint fd_run (o : os) (f : fs) (t : fds) (ps : list packet) : res (fs * fds * list outcome) :=
  match ps with
  | [] => Ok (f, t, [])
  | p :: l => do (ft, out) <- (do (fo, t1) <- packet_fd o f p None t ; Ok (fst fo, t1, snd fo)) ; do (r, outs) <- fd_run o (fst ft) (snd ft) l ; Ok (r, out :: outs)
  end.
(** All packets 1..Sum of an upload in order, with this data *)
Definition whole_upload (m : mpf) (data : bytes) : list packet := map (fun i => Packet m i data) (upto (mp_sum m)).
