(** Specifications for what is told when a user is killed (C28). *)
From Coq Require Import List Ascii String ZArith NArith Bool.
From Verif Require Import Bytes Match Lists ParseReq State Monad Spec SpecLink SpecNick.
Import ListNotations.

(** the reason which is passed on: a user of this server who kills is named in it *)
Definition kill_reason (c : client) (t : bytes) : bytes :=
  if ctype_eqb (cl_type c) T_USER then B "KILLed by " ++ cl_id c ++ B ": " ++ t else t.
Definition kill_text (nick reason : bytes) : bytes := B "KILL " ++ nick ++ B " :" ++ reason.
(** [j] is the connection of a client with mode "s", or of a client on (or leading to somebody on) the channel
    &SERVER: these get a notice about the KILL *)
Definition warned (s : state) (j : connid) : Prop :=
  (exists g x, lookup g (s_heap s) = Some x /\ cl_conn x = Some j /\ In "s"%char (cl_modes x)) \/
  (exists ch k m nh x, exists_chan s ch k /\ same_name (B "&SERVER") (ch_name k) /\ is_on s m ch /\ next_hop s m nh /\ lookup nh (s_heap s) = Some x /\ cl_conn x = Some j).
