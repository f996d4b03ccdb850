(** Specifications for what is told about a JOIN (C28, C29, C31). *)
From Coq Require Import List Ascii String ZArith NArith Bool.
From Verif Require Import Bytes Match Lists ParseReq State Monad Spec.
Import ListNotations.

(** the character 7, which separates the name of a channel and modes for the user in the JOIN of a server *)
Definition bell : ascii := "007"%char.
(** the parameter [a] of a JOIN sent by [c] names the channel [name] *)
Definition join_arg (c : client) (a name : bytes) : Prop :=
  cl_type c = T_USER /\ a = name \/
  cl_type c = T_SERVER /\ ~ In bell name /\ (a = name \/ exists flags, a = name ++ bell :: flags).
(** the modes of a member on a channel *)
Definition modes_on (s : state) (u : handle) (ch : chandle) (ms : bytes) : Prop :=
  exists m, In m (s_members s) /\ mb_client m = u /\ mb_chan m = ch /\ mb_modes m = ms.
(** what is told of them: at most 19 *)
Definition told (ms : bytes) : bytes := firstn 19 ms.
(** a peer that uses the old protocol *)
Definition old_peer (s : state) (j : connid) : bool := match lookup j (s_conns s) with Some c => co_rfc1459 c | None => false end.
Definition mode_text (name ms nick : bytes) : bytes := B "MODE " ++ name ++ B " +" ++ ms ++ " "%char :: nick.
(** the MODE command which follows the JOIN, if the user has modes on the channel *)
Definition mode_after (name ms nick : bytes) : list bytes := match ms with [] => [] | _ => [mode_text name ms nick] end.
(** the commands for a linked server; only old peers need a MODE command for the modes *)
Definition join_server (old : bool) (name ms nick : bytes) : list bytes :=
  if old then (B "JOIN " ++ name) :: mode_after name ms nick
  else [B "JOIN " ++ name ++ match ms with [] => [] | _ => bell :: ms end].
(** the commands for a user *)
Definition join_user (name ms nick : bytes) : list bytes := (B "JOIN :" ++ name) :: mode_after name ms nick.
