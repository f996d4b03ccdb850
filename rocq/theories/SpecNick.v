(** Specifications for what is told about a user to those who share a channel with it (C28: NICK, QUIT). *)
From Coq Require Import List Ascii String ZArith NArith Bool.
From Verif Require Import Bytes Match Lists ParseReq State Monad Spec SpecLink.
Import ListNotations.

(** [j] is the connection of another user, [x], of this server, who is on some channel together with [u] *)
Definition near (s : state) (u : handle) (j : connid) (x : client) : Prop :=
  exists g ch, g <> u /\ is_on s u ch /\ is_on s g ch /\ lookup g (s_heap s) = Some x /\ cl_conn x = Some j /\ cl_type x <> T_SERVER.
Definition nick_text (new : bytes) : bytes := B "NICK :" ++ new.
Definition quit_text (reason : bytes) : bytes := B "QUIT :" ++ reason.
(** every user of this server who shares a channel with [u], who is [d], was sent this line of [u], once (no matter
    how many channels they share), and nothing else *)
Definition to_near (s s' : state) (u : handle) (d : client) (msg : bytes) : Prop :=
  forall j x, near s u j x -> is_open s j = true -> written s s' j [line_from s d x msg].
(** [j] is the connection of a client with mode "c": it gets a notice when a user of this server leaves *)
Definition watches (s : state) (j : connid) : Prop :=
  exists g x, lookup g (s_heap s) = Some x /\ cl_conn x = Some j /\ In "c"%char (cl_modes x).
(** this server itself has no mode "x", or its cloaked name has been computed *)
Definition server_settled (s : state) : Prop := forall me, lookup This_Server (s_heap s) = Some me -> settled me.
(** the message a user of this server leaves with is put in quotation marks, if it does not begin with one *)
Definition quoted (t : bytes) : bytes :=
  let q := """"%char in
  match t with
  | c :: _ => if Ascii.eqb c q then t else q :: t ++ [q]
  | [] => [q; q]
  end.
(** the message of a QUIT with these parameters, given by a client like [c] *)
Definition farewell (c : client) (args : list bytes) : option bytes :=
  match args with
  | [] => None
  | t :: _ => Some (if ctype_eqb (cl_type c) T_USER then quoted t else t)
  end.
(** what other servers are told; what the users are told *)
Definition to_peers (m : option bytes) : bytes := match m with Some t => t | None => [] end.
Definition to_users (s : state) (d : client) (m : option bytes) : bytes :=
  if cf_moreprivacy (s_conf s) then [] else match m with Some t => t | None => cl_id d end.
