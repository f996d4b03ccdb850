(** More specifications: the invitations of a channel (C32). *)
From Coq Require Import List Ascii String ZArith NArith Bool.
From Verif Require Import Bytes Match Lists ParseReq State Monad Spec.
Import ListNotations.

(** ** invitations (C32) *)
(** an entry of a list of masks means the client *)
Definition means (s : state) (c : client) (e : lelem) : Prop :=
  MatchCaseInsensitive (le_mask e) (full_mask c) = true \/ MatchCaseInsensitive (le_mask e) (shown_mask s c) = true.
(** one use of the list [l] by the client leaves [l']: the first entry that means the client is dropped
    if it is a one-shot entry; nothing else changes *)
Definition used_by (s : state) (c : client) (l l' : mlist) : Prop :=
  ((forall e, In e l -> ~ means s c e) /\ l' = l) \/
  exists a e b, l = a ++ e :: b /\ (forall x, In x a -> ~ means s c x) /\ means s c e /\ l' = if le_once e then a ++ b else l.
(** the client may be on one channel more *)
Definition room_to_join (s : state) (h : handle) : Prop :=
  (cf_maxjoins (s_conf s) <= 0 \/ Z.of_nat (List.length (filter (fun m => Nat.eqb (mb_client m) h) (s_members s))) < cf_maxjoins (s_conf s))%Z.
(** the line is one of these commands *)
Definition a_line_of (text : bytes) (cmds : list string) : Prop := exists cmd args, In cmd cmds /\ says text cmd args.
(** an invitation for [mask] is written into the list: a new one-shot entry in front, unless there is an entry
    for this mask already (then no entry is added or removed, and none becomes permanent or one-shot) *)
Definition kind (e : lelem) : bytes * bool := (le_mask e, le_once e).
Definition invited (mask : bytes) (l l' : mlist) : Prop :=
  ((exists e, In e l /\ same_name (le_mask e) mask) /\ map kind l' = map kind l) \/
  ((forall e, In e l -> ~ same_name (le_mask e) mask) /\ exists e, l' = e :: l /\ kind e = (mask, true)).
(** user [h] may invite user [g] (who is [d]) to the channel, and the invitation is needed to get in *)
Definition may_invite (s : state) (h : handle) (g : handle) (ch : chandle) (k : channel) : Prop :=
  is_on s h ch /\ ~ In "V"%char (ch_modes k) /\ (In "i"%char (ch_modes k) -> half_op s h ch) /\ ~ is_on s g ch.
Definition needs_invite (s : state) (d : client) (k : channel) : Prop := In "i"%char (ch_modes k) \/ listed s d (ch_bans k).

(** ** server links (C48) *)
(** the connection [i] introduces itself, with the SERVER command [text], as a server that is configured, and has sent
    the password that is configured for this server *)
Definition server_login (s : state) (i : connid) (text : bytes) : Prop :=
  exists name args cn sv, says text "SERVER" (name :: args) /\ (List.length args = 1 \/ List.length args = 2) /\ lookup i (s_conns s) = Some cn /\ In sv (s_servers s) /\ same_name name (sv_name sv) /\ given_password cn = sv_pwd_in sv.
(** the client is a server link, or a connection that is about to become one *)
Definition is_link (s : state) (h : handle) : Prop := exists c, lookup h (s_heap s) = Some c /\ (cl_type c = T_UNKNOWNSERVER \/ cl_type c = T_SERVER).
