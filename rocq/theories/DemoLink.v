(** Histories of a session of link for the Examples of C187 and C188. *)
From Verif Require Import Base Link SpecLink.

(** goroutine i executes n statements (not in /repo) *)
Definition go_on (i n : nat) : list lop := repeat (Move i true) n.
(** A callback is added; two Sends fill a queue of two; the third finds it full and closes the session; the callback is called; the loop takes one
    message, writes it, and notices the closing: the other message is lost.  A late Send is refused, a late callback not added. *)
Definition demo_close : list lop :=
  [Call (CallAdd 7)] ++ go_on 1 4 ++ [Call (CallSend 10)] ++ go_on 2 4 ++ [Call (CallSend 11)] ++ go_on 3 4 ++
  [Call (CallSend 12)] ++ go_on 4 11 ++ go_on 5 4 ++ go_on 0 2 ++ [Move 0%nat false] ++ go_on 0 1 ++
  [Call (CallSend 13)] ++ go_on 6 3 ++ [Call (CallAdd 8)] ++ go_on 7 1 ++ [Call CallClose] ++ go_on 8 1.
(** A Send between its check and its select while another goroutine closes: the closing waits, the message is put into the queue of a session that is marked as closed. *)
Definition demo_overlap : list lop :=
  [Call (CallSend 10)] ++ go_on 1 2 ++ [Call CallClose] ++ go_on 2 6 ++ go_on 1 2 ++ go_on 2 5.
(** A callback that is added while the session closes, after the invocation, is never called. *)
Definition demo_lost : list lop :=
  [Call (CallAdd 7)] ++ go_on 1 1 ++ [Call CallClose] ++ go_on 2 7 ++ go_on 3 3 ++ go_on 1 3 ++ [Move 0%nat false] ++ go_on 0 1.
(** Two messages, sent and written, and the session stays open. *)
Definition demo_open : list lop :=
  [Call (CallSend 10); Call (CallSend 11)] ++ go_on 2 3 ++ go_on 1 4 ++ go_on 2 1 ++ go_on 0 4.
(** what is left and what is observed *)
Definition after_link (os : list lop) : link := match lrun 2 fresh_link os with Ok (s, _) => s | _ => fresh_link end.
(** see above *)
Definition seen_link (os : list lop) : list lev := match lrun 2 fresh_link os with Ok (_, tr) => tr | _ => [] end.
