(** Specifications of what the informational commands show (C30, C35). *)
From Coq Require Import List Ascii String ZArith NArith Bool.
From Verif Require Import Bytes Match Lists ParseReq State Monad Spec.
Import ListNotations.

(** the state in which the channel [ch] does not exist, and in which nobody is on it; everything else is as in [s] *)
Definition without (ch : chandle) (s : state) : state :=
  set_s_members (filter (fun m => negb (Nat.eqb (mb_chan m) ch)) (s_members s))
    (set_s_chans (filter (fun p => negb (Nat.eqb ch (fst p))) (s_chans s)) s).
(** there is a channel [ch] of mode +s, which [c] is, and the client [h] is not on it *)
Definition secret_to (s : state) (h : handle) (ch : chandle) (c : channel) : Prop :=
  lookup ch (s_chans s) = Some c /\ In "s"%char (ch_modes c) /\ ~ is_on s h ch.
(** no other channel has the name of the channel [ch] *)
Definition own_name (s : state) (ch : chandle) (c : channel) : Prop :=
  forall k d, In (k, d) (s_chans s) -> k <> ch -> ~ same_name (ch_name d) (ch_name c).
(** every user who is on the channel [ch] is also on another channel, or has mode +i *)
Definition no_loners (s : state) (ch : chandle) : Prop :=
  forall g d, is_on s g ch -> lookup g (s_heap s) = Some d -> (exists ch', ch' <> ch /\ is_on s g ch') \/ In "i"%char (cl_modes d).
(** the line [text] has the same effect in [s] as in the state without the channel [ch]: it gives the same result,
    the same is sent to everybody, and the states afterwards again differ by the channel only *)
Definition blind (run : M bool) (ch : chandle) (s : state) : Prop :=
  forall b s', run s = Ok b s' ->
    run (without ch s) = Ok b (without ch s') /\
    forall j l, written s s' j l -> written (without ch s) (without ch s') j l.
