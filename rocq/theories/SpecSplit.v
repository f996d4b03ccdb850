(** Specifications for a SQUIT (C26). *)
From Coq Require Import List Ascii String ZArith NArith Bool.
From Verif Require Import Bytes Match Lists ParseReq State Monad Spec.
Import ListNotations.

(** The line [text], which client [h] sends, is the command [n] with the parameters [args], given by [u] (who is
    [d]): either [h] is this user, an IRC operator who gives no prefix; or [h] is a server, the prefix is the name of
    [u] and of nobody else, and [u] is behind this server (or is this server).  In the second case [u] may be a
    server, or an IRC operator if the configuration allows it ("AllowRemoteOper"). *)
Definition ordered_by (s : state) (h : handle) (c : client) (text : bytes) (n : string) (args : list bytes) (u : handle) (d : client) : Prop :=
  (cl_type c = T_USER /\ In "o"%char (cl_modes c) /\ orders s text n args /\ u = h /\ d = c) \/
  (cl_type c = T_SERVER /\ (exists p name, parse_line (trim text) = Some (mkReq (Some p) name args) /\ same_name name (B n) /\ the_client s p u d) /\
   (cf_scrubctcp (s_conf s) = true -> ~ exists a b, trim text = a ++ ":"%char :: "001"%char :: b) /\ next_hop s u h /\ cl_id d <> [] /\
   (cl_type d = T_SERVER \/ cl_type d <> T_SERVER /\ In "o"%char (cl_modes d) /\ cf_allowremoteoper (s_conf s) = true)).
