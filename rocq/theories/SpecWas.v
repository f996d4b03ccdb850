(** Specification of the WHOWAS history (C35). *)
From Coq Require Import List Ascii String ZArith NArith Bool.
From Verif Require Import Bytes Match Lists ParseReq State Monad Conn Spec.
Import ListNotations.

Definition no_entry : whowas := mkWhowas 0 [] [] [] [] [].
(** what the server remembers, the newest entry first: a ring of 64 places, of which [s_lastww] is the one written last
    (client.c:61-62 My_Whowas and Last_Whowas) *)
Definition remembered (s : state) : list whowas :=
  map (fun k => nth (Z.to_nat ((s_lastww s - Z.of_nat k) mod 64)) (s_whowas s) no_entry) (seq 0 64).

(** a user or service *)
Definition a_user (c : client) : Prop := cl_type c = T_USER \/ cl_type c = T_SERVICE.
(** the client has been known for 30 seconds at least *)
Definition long_known (s : state) (c : client) : Prop := (cl_starttime c + 30 <= s_now s)%Z.
(** [s'] has no client [h] any more, or it has another nickname than that of [c] *)
Definition left_or_renamed (s' : state) (h : handle) (c : client) : Prop :=
  forall c', lookup h (s_heap s') = Some c' -> cl_id c' <> cl_id c.

(** [gone] is the list of those who have left, or changed their nickname, between [s] and [s'], each with the entry
    written about him, the newest first *)
Record departures (s s' : state) (gone : list (handle * whowas)) : Prop := mk_departures {
  (** nobody is in it twice *)
  dp_once : NoDup (map fst gone);
  (** it contains nobody else, and nobody who has not been known for 30 seconds; the entries tell the time, and the
      nickname a user had; nothing is recorded with the option MorePrivacy *)
  dp_who : forall h e, In (h, e) gone -> cf_moreprivacy (s_conf s) = false /\ exists c, lookup h (s_heap s) = Some c /\
    long_known s c /\ left_or_renamed s' h c /\ ww_time e = s_now s /\ (a_user c -> ww_id e = firstn 31 (id_of c));
  (** and it contains all of them *)
  dp_all : forall h c, lookup h (s_heap s) = Some c -> a_user c -> long_known s c -> cf_moreprivacy (s_conf s) = false ->
    left_or_renamed s' h c -> In h (map fst gone) }.

(** the entry [e] tells who [c] was: the names, the host name shown to others unless it is cloaked, and the server he
    was introduced by *)
Definition tells (s : state) (c : client) (e : whowas) : Prop :=
  ww_id e = firstn 31 (id_of c) /\
  ww_user e = firstn 19 (match cl_user c with [] => ["~"%char] | u => u end) /\
  ww_info e = firstn 127 (cl_info c) /\
  (~ In "x"%char (cl_modes c) -> ww_host e = firstn 63 (cl_host c)) /\
  forall i p, cl_introducer c = Some i -> lookup i (s_heap s) = Some p -> ww_server e = firstn 63 (id_of p).

(** [g]: the entries about all who have left or changed their nickname since the server was started, the newest
    first.  The server executes lines and does chores ([action], Conn.v), accepts and loses connections, and the time
    goes on. *)
Definition no_lines (e : event) : Prop := (forall i d, e <> E_Data i d) /\ e <> E_Loop /\ forall t r, e <> E_Time t r.
Inductive history : state -> list whowas -> Prop :=
| hs_boot : forall c servers t r s, conf_ok c -> boot c servers t r = Ok tt s -> history s []
| hs_time : forall t r s s' g, history s g -> step (E_Time t r) s = Ok tt s' -> history s' g
| hs_event : forall e s s' g gone, history s g -> no_lines e -> step e s = Ok tt s' -> departures s s' gone -> history s' (map snd gone ++ g)
| hs_action : forall s s' g gone, history s g -> live s -> action s s' -> departures s s' gone -> history s' (map snd gone ++ g).

(** the commands by which something else about a client may be changed *)
Definition changing : list string := ["NICK"; "SVSNICK"; "MODE"; "METADATA"; "AWAY"; "OPER"; "PASS"; "USER"; "CAP"; "PONG"; "SERVER"; "SERVICE"; "WEBIRC"]%string.
(** what is remembered is extended by the departures, and the entries tell who they were *)
Definition content (s s' : state) : Prop :=
  exists gone, departures s s' gone /\ remembered s' = firstn 64 (map snd gone ++ remembered s) /\ forall h e c, In (h, e) gone -> lookup h (s_heap s) = Some c -> tells s c e.
