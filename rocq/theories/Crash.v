(** The multipart branch of HandleSession (session_handler.go:63-112, multipart.go) with everything that may
    come between: goroutines of several connections one file access at a time (as in Overlap.v), calls of the
    operating system that fail (as in Faults.v), and the process ending at any moment and being started again
    on the files it left.

    Simplifications: those of Overlap.v; what was written to a file survives the end of the process (not
    necessarily that of the machine).  A file that disappears while the directory is walked ends the
    process (C134), which is an end of the process like any other. *)
From Verif Require Import Base Multipart Overlap.

(** What the operating system does to a file access.  [FNone]: it succeeds; [FFail]: it fails without effect;
    [FCut k]: a write stops after [k] bytes, a walk ends because a file cannot be opened. *)
Inductive fault := FNone | FFail | FCut (k : nat).

(** What happens to the files, and what the packets lead to *)
Inductive happening :=
| HOpen (m : mpf) (i : Z)                                  (* the file of a part is created or emptied, multipart.go:104 *)
| HWrite (m : mpf) (i : Z) (d : bytes) (whole : bool)      (* [d] is written to it; [whole]: all of the packet, answered with success *)
| HRefuse (m : mpf) (i : Z)                                (* the packet is answered with failure, its file was not opened *)
| HStart (m : mpf) (listed : bool)                         (* Merge has opened the parts, or sees none *)
| HLay (m : mpf) (off : nat) (d : bytes)                   (* a part is copied to the full file, multipart.go:82 *)
| HDrop (m : mpf)                                          (* Merge fails, session_handler.go:97-104 *)
| HWhole (m : mpf) (c : bytes).                            (* the message is handed over, session_handler.go:109-112 *)

(** One step of a goroutine under a fault; what a step of Overlap.v does if there is none *)
Definition fault_step (f : fs) (t : thread) (x : fault) : fs * thread * list happening :=
  let go f' k e := (f', Thread (th_todo t) k (th_out t), e) in
  let done f' o e := (f', Thread (th_todo t) TIdle (th_out t ++ [o]), e) in
  match th_at t with
  | TIdle => (thread_step f t, [])
  | TMkdir p =>                                            (* multipart.go:98-101 *)
      match x with
      | FNone => if negb (fs_priv f) then done f OFail [HRefuse (pk_up p) (pk_seq p)] else (thread_step f t, [])
      | _ => done f OFail [HRefuse (pk_up p) (pk_seq p)]
      end
  | TTrunc p =>                                            (* multipart.go:104 *)
      match x with
      | FNone => (thread_step f t, [HOpen (pk_up p) (pk_seq p)])
      | _ => done f OFail [HRefuse (pk_up p) (pk_seq p)]
      end
  | TFill p =>                                             (* multipart.go:104 *)
      let n := part_name (pk_up p) (pk_seq p) in
      let cut k := let d := firstn k (pk_data p) in
                   done (set_file f (pk_up p) n (write_at 0 d (get_file f (pk_up p) n))) OFail [HWrite (pk_up p) (pk_seq p) d false] in
      match x with
      | FNone => (thread_step f t, [HWrite (pk_up p) (pk_seq p) (pk_data p) true])
      | FFail => cut 0%nat
      | FCut k => cut k
      end
  | TCheck m =>                                            (* multipart.go:37-48: the error of the walk is dropped *)
      match x with
      | FNone => (thread_step f t, [])
      | _ => match seq_set (mp_sum m) with [] => go f (TOpen m) [] | _ => done f OKept [] end
      end
  | TOpen m =>                                             (* multipart.go:53-70 *)
      match x with
      | FNone => (thread_step f t, [HStart m true])
      | FFail => go f (TCreate m []) [HStart m false]
      | FCut _ => done f OKept [HDrop m]
      end
  | TCreate m names =>                                     (* multipart.go:74-77 *)
      match x with
      | FNone => (thread_step f t, [])
      | _ => done f OKept [HDrop m]
      end
  | TCopy m [] off =>                                      (* multipart.go:86 *)
      match x with
      | FNone => (thread_step f t, [])
      | _ => done f OKept [HDrop m]
      end
  | TCopy m (n :: r) off =>                                (* multipart.go:81-85 *)
      match x with
      | FNone => (thread_step f t, [HLay m off (get_file f m n)])
      | FFail => done f OKept [HDrop m]
      | FCut k => let d := firstn k (get_file f m n) in
                  done (set_file f m (full_name m) (write_at off d (get_file f m (full_name m)))) OKept [HLay m off d]
      end
  | TRead m => (thread_step f t, [HWhole m (get_file f m (full_name m))])
  end.

(** The files and the goroutines, those of earlier processes included *)
Record box := Box { bx_fs : fs; bx_threads : list thread }.
(** [BConnect ps]: a connection on which these packets will arrive, session_handler.go:17; [BMove i x]: its goroutine moves;
    [BCrash]: the process ends and is started again *)
Inductive bop := BConnect (ps : list packet) | BMove (i : nat) (x : fault) | BCrash.

(** What is left of a goroutine when its process ends *)
Definition ended (t : thread) : thread := Thread [] TIdle (th_out t).

(** One operation, with the number of the goroutine *)
Definition bstep (b : box) (o : bop) : box * list (nat * happening) :=
  match o with
  | BConnect ps => (Box (bx_fs b) (bx_threads b ++ [Thread ps TIdle []]), [])
  | BMove i x =>
      match nth_error (bx_threads b) i with
      | None => (b, [])
      | Some t => let '(f', t', e) := fault_step (bx_fs b) t x in
                  (Box f' (firstn i (bx_threads b) ++ t' :: skipn (S i) (bx_threads b)), map (fun h => (i, h)) e)
      end
  | BCrash => (Box (bx_fs b) (map ended (bx_threads b)), [])
  end.

(** A history *)
Fixpoint brun (b : box) (os : list bop) : box * list (nat * happening) :=
  match os with
  | [] => (b, [])
  | o :: r => let '(b1, e1) := bstep b o in let '(b2, e2) := brun b1 r in (b2, e1 ++ e2)
  end.

(** A server that starts on no files, with the permission to use the directories *)
Definition box_new : box := Box (Fs true []) [].
