(** Specifications for what is forwarded to other servers (C28, C29, C31). *)
From Coq Require Import List Ascii String ZArith NArith Bool.
From Verif Require Import Bytes Match Lists ParseReq State Monad Spec.
Import ListNotations.

(** [j] is the connection to a directly linked server, which is [d] *)
Definition link (s : state) (j : connid) (d : client) : Prop :=
  exists g, known s g d /\ cl_type d = T_SERVER /\ cl_conn d = Some j.
(** the line [text], which client [h] sends, is the command [n] with the parameters [args], given by the user
    [u] (who is [d]): either [h] is this user (and gives no prefix), or [h] is a server, the prefix is the name of
    the user and of nobody else, and the user is behind this server *)
Definition acts (s : state) (h : handle) (c : client) (text : bytes) (n : string) (args : list bytes) (u : handle) (d : client) : Prop :=
  (cl_type c = T_USER /\ orders s text n args /\ u = h /\ d = c) \/
  (cl_type c = T_SERVER /\ (exists p name, parse_line (trim text) = Some (mkReq (Some p) name args) /\ same_name name (B n) /\ the_client s p u d) /\
   (cf_scrubctcp (s_conf s) = true -> ~ exists a b, trim text = a ++ ":"%char :: "001"%char :: b) /\
   cl_type d = T_USER /\ next_hop s u h).
(** user on a connection of its own and on the channel *)
Definition local_on (s : state) (j : connid) (ch : chandle) (d : client) : Prop :=
  exists g, is_on s g ch /\ lookup g (s_heap s) = Some d /\ cl_conn d = Some j /\ cl_type d <> T_SERVER.
(** the name of a channel of this server only *)
Definition local_name (n : bytes) : Prop := exists r, n = "&"%char :: r.
(** what other servers get: the name of the user in front *)
Definition relayed (d : client) (t : bytes) : bytes := on_wire (":"%char :: cl_id d ++ " "%char :: t).
(** the nickname has at least one and at most 31 characters: the nicknames of the users of this server have, but
    peers may introduce longer ones *)
Definition nick_fits (d : client) : Prop := cl_id d <> [] /\ (List.length (cl_id d) < 32)%nat.

Definition kick_text (name nick reason : bytes) : bytes := B "KICK " ++ name ++ " "%char :: nick ++ B " :" ++ reason.
Definition part_text (name reason : bytes) : bytes := B "PART " ++ name ++ B " :" ++ reason.
(** what happened, from the state [s] to [s'], on connection [i]: every linked server, except when it is the one
    on connection [i], was sent this line of the user [d], once, and nothing else *)
Definition to_servers (s s' : state) (i : connid) (d : client) (msg : bytes) : Prop :=
  forall j x, link s j x -> is_open s j = true -> written s s' j (if (i =? j)%nat then [] else [relayed d msg]).
(** no linked server was sent anything *)
Definition to_no_server (s s' : state) : Prop := forall j x, link s j x -> is_open s j = true -> written s s' j [].
(** every user of this server who is on the channel was sent this line of the user [d], once, and nothing else *)
Definition to_members (s s' : state) (ch : chandle) (d : client) (msg : bytes) : Prop :=
  forall j x, local_on s j ch x -> is_open s j = true -> written s s' j [line_from s d x msg].
(** and nobody else was sent anything *)
Definition to_nobody_else (s s' : state) (ch : chandle) : Prop :=
  forall j, is_open s j = true -> (forall x, ~ link s j x) -> (forall x, ~ local_on s j ch x) -> written s s' j [].
