(** Specification of the synchronisation with a new server link (C45). *)
From Coq Require Import List Ascii String ZArith NArith Bool.
From Verif Require Import Bytes Match Lists ParseReq State Monad Dispatch Conn Spec SpecLink.
Import ListNotations.

(** the line [t] has been written to connection [i] *)
Definition sent (s s' : state) (i : connid) (t : bytes) : Prop := exists new, s_out s' = new ++ s_out s /\ In (i, on_wire t) new.
(** the line [a] has been written to connection [i], and after it the line [b] *)
Definition sent_before (s s' : state) (i : connid) (a b : bytes) : Prop :=
  exists l1 l2 l3, s_out s' = l1 ++ (i, on_wire b) :: l2 ++ (i, on_wire a) :: l3 ++ s_out s.
(** [text], received on connection [i], is the numeric 376 by which a server that has logged in, but is not yet
    registered, ends its own messages *)
Definition link_ready (s : state) (i : connid) (h : handle) (c : client) (text : bytes) : Prop :=
  client_of s i h c /\ cl_type c = T_UNKNOWNSERVER /\ is_open s i = true /\
  (exists p a args, parse_line (trim text) = Some (mkReq p (B "376") (a :: args)) /\ (a = B "*" \/ exists me, the_client s a This_Server me /\ cl_id me <> [])) /\
  (cf_scrubctcp (s_conf s) = true -> ~ exists a b, trim text = a ++ ":"%char :: "001"%char :: b).
Definition prefixed (from : bytes) (t : bytes) : bytes := ":"%char :: from ++ " "%char :: t.

(** the announcement of a server: its name, distance, token, and description ... *)
Definition server_text (d : client) : bytes :=
  B "SERVER " ++ id_of d ++ " "%char :: dec (cl_hops d + 1) ++ " "%char :: dec (cl_mytoken d) ++ " "%char :: ":"%char :: cl_info d.
(** ... with the name of the server before it on the way *)
Definition server_via (s : state) (me d : client) (src : bytes) : Prop :=
  (cl_hops d = 1%Z /\ src = id_of me) \/
  (cl_hops d <> 1%Z /\ exists t p, cl_topserver d = Some t /\ lookup t (s_heap s) = Some p /\ src = id_of p).
(** the announcements of a user or service: [tok] is the token of its server *)
Definition shown_user (d : client) : bytes := match cl_user d with [] => B "~" | u => u end.
Definition nick_text (d : client) (tok : Z) : bytes :=
  B "NICK " ++ id_of d ++ " "%char :: dec (cl_hops d + 1) ++ " "%char :: shown_user d ++ " "%char :: cl_host d ++ " "%char :: dec tok ++ " "%char :: "+"%char :: cl_modes d ++ " "%char :: ":"%char :: cl_info d.
Definition service_text (d : client) (tok : Z) : bytes :=
  B "SERVICE " ++ firstn 115 (full_mask d) ++ " "%char :: dec tok ++ " "%char :: "*"%char :: " "%char :: "+"%char :: cl_modes d ++ " "%char :: dec (cl_hops d + 1) ++ " "%char :: ":"%char :: cl_info d.
(** for peers with the protocol of RFC 1459 *)
Definition nick_text0 (d : client) : bytes := B "NICK " ++ id_of d ++ " "%char :: ":"%char :: dec (cl_hops d + 1).
Definition user_text0 (d p : client) : bytes :=
  B "USER " ++ shown_user d ++ " "%char :: cl_host d ++ " "%char :: id_of p ++ " "%char :: ":"%char :: cl_info d.

(** what is announced about a user or service: a peer with the flag S is told that a service is one *)
Definition user_line (s : state) (peer d : client) (rfc : bool) (me : client) (line : bytes) : Prop :=
  exists g p, cl_introducer d = Some g /\ lookup g (s_heap s) = Some p /\
  if rfc then line = nick_text0 d
  else line = prefixed (id_of me) ((if ctype_eqb (cl_type d) T_SERVICE && memb "S" (cl_flags peer) then service_text else nick_text) d (cl_mytoken p)).

(** the settings of a channel, for peers with the flag C *)
Definition chaninfo_text (k : channel) : bytes :=
  B "CHANINFO " ++ ch_name k ++ " "%char :: "+"%char :: ch_modes k ++
  (if memb "k" (ch_modes k) || memb "l" (ch_modes k)
   then " "%char :: (if memb "k" (ch_modes k) && negb (beq (ch_key k) []) then ch_key k else B "*") ++ " "%char :: dec (if memb "l" (ch_modes k) then ch_maxusers k else 0) ++ " "%char :: ":"%char :: ch_topic k
   else if beq (ch_topic k) [] then [] else " "%char :: ":"%char :: ch_topic k).

(** the entries of the network-wide G-lines and of the lists of a channel, for peers with the flag L *)
Definition gline_text (t : Z) (e : lelem) : bytes :=
  B "GLINE " ++ le_mask e ++ " "%char :: dec (Z.max 0 (le_valid e - t)) ++ " "%char :: ":"%char :: match le_reason e with Some r => r | None => [] end.
Definition mode_text (k : channel) (ty : ascii) (e : lelem) : bytes :=
  B "MODE " ++ ch_name k ++ " "%char :: "+"%char :: ty :: " "%char :: le_mask e.
Definition on_list (k : channel) (ty : ascii) (e : lelem) : Prop :=
  (ty = "b"%char /\ In e (ch_bans k)) \/ (ty = "e"%char /\ In e (ch_excepts k)) \/ (ty = "I"%char /\ In e (ch_invites k)).

(** the list of members: the nicknames with marks for the modes, separated by commas *)
Definition if_has (modes : bytes) (m : ascii) (mark : ascii) : bytes := if memb m modes then [mark] else [].
Definition entry (xop : bool) (modes : bytes) (d : client) : bytes :=
  (if xop then if_has modes "q" "~" ++ if_has modes "a" "&" else []) ++ if_has modes "o" "@" ++ (if xop then if_has modes "h" "%" else []) ++ if_has modes "v" "+" ++ id_of d.
Fixpoint commas (l : list bytes) : bytes :=
  match l with [] => [] | [a] => a | a :: r => a ++ ","%char :: commas r end.
Definition njoin_text (name : bytes) (l : list bytes) : bytes := B "NJOIN " ++ name ++ " "%char :: ":"%char :: commas l.
(** the members of the channel have names of 1 to [n] characters, which do not end in a colon *)
Definition plain_members (s : state) (ch : chandle) (n : nat) : Prop :=
  forall g, is_on s g ch -> exists d r x, lookup g (s_heap s) = Some d /\ cl_id d = r ++ [x] /\ x <> ":"%char /\ List.length r < n.

(** a server known here, except this one and the new link [h] *)
Definition other_server (s : state) (h g : handle) (d : client) : Prop :=
  known s g d /\ cl_type d = T_SERVER /\ g <> h /\ g <> This_Server /\ (0 <= cl_hops d)%Z.
Definition a_person (s : state) (g : handle) (d : client) : Prop := known s g d /\ (cl_type d = T_USER \/ cl_type d = T_SERVICE).
(** the line that tells a peer that [d] is on the channel [k] with the modes [modes] *)
Definition member_line (rfc : bool) (xop : bool) (me d : client) (k : channel) (modes : bytes) (n : nat) (line : bytes) : Prop :=
  if rfc then line = prefixed (id_of d) (B "JOIN " ++ ch_name k)
  else exists l, In (entry xop modes d) l /\ line = prefixed (id_of me) (njoin_text (ch_name k) l) /\ List.length line <= 481 + List.length (id_of me) + n.
(** the channel has settings *)
Definition has_settings (k : channel) : Prop := ch_modes k <> [] \/ ch_topic k <> [].
(** the login of the server [h] on connection [i] has been completed by a message to this server: [s] is the state before it, [s'] the one after *)
Definition link_done (s : state) (i : connid) (h : handle) (c : client) (cn : conn) (s' : state) : Prop :=
  live s /\ undisturbed s /\ lookup i (s_conns s) = Some cn /\ exists text b, link_ready s i h c text /\ Parse_Request i text s = Ok b s'.
