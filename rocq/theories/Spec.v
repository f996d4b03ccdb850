(** The vocabulary of the property theorems: what a user of the server can observe in a state,
    independent of the helper functions of the model. *)
From Coq Require Import List Ascii String ZArith NArith Bool Lia.
From Verif Require Import Bytes Match Lists ParseReq MatchSpec State Monad Dispatch Conn Rel.
Import ListNotations.

(** the value stored under a key of a table *)
Fixpoint lookup {A} (k : nat) (l : list (nat * A)) : option A :=
  match l with [] => None | (k', a) :: r => if Nat.eqb k k' then Some a else lookup k r end.
(** [h] is a client (user, server, service, or not yet registered) the server knows, with data [c] *)
Definition known (s : state) (h : handle) (c : client) : Prop := In h (s_clients s) /\ lookup h (s_heap s) = Some c.
(** the client is connected to this server *)
Definition is_local (c : client) : Prop := exists i, cl_conn c = Some i.
(** [ch] is an existing channel *)
Definition exists_chan (s : state) (ch : chandle) (c : channel) : Prop := lookup ch (s_chans s) = Some c.
(** the client [h] is on the channel [ch] *)
Definition is_on (s : state) (h : handle) (ch : chandle) : Prop := exists m, In m (s_members s) /\ mb_client m = h /\ mb_chan m = ch.
(** equality of names ignoring the case of ASCII letters *)
Definition lower_char (c : ascii) : ascii :=
  let n := nat_of_ascii c in if (65 <=? n) && (n <=? 90) then ascii_of_nat (n + 32) else c.
Definition same_name (a b : bytes) : Prop := map lower_char a = map lower_char b.
(** the history does not contain the two actions of linked servers that damage the client table
    (see the type [oddity] in State.v) *)
Definition undisturbed (s : state) : Prop := ~ In O_Retype (s_odd s) /\ ~ In O_Self (s_odd s).

(** ** names *)
Definition letters : bytes := B "abcdefghijklmnopqrstuvwxyzABCDEFGHIJKLMNOPQRSTUVWXYZ".
Definition specials : bytes := B "[]\`_^{|}".
Definition digits : bytes := B "0123456789".
(** the nicknames ngIRCd accepts *)
Definition legal_nick (limit : nat) (n : bytes) : Prop :=
  n <> [] /\ List.length n < limit /\
  (forall c r, n = c :: r -> In c (letters ++ specials)) /\
  forall c, In c n -> In c (letters ++ specials ++ digits ++ B "-;").
(** the channel names ngIRCd accepts *)
Definition legal_chan (n : bytes) : Prop :=
  (forall c r, n = c :: r -> In c (B "#&+")) /\ List.length n < 51 /\
  forall c, In c n -> ~ In c [" "; ","; ":"; "007"]%char.

(** ** networks *)
(** [x] is [h] or was introduced to this server via [h] *)
Inductive behind (s : state) (h : handle) : handle -> Prop :=
| behind_refl : behind s h h
| behind_step : forall x p c, behind s h p -> lookup x (s_heap s) = Some c -> cl_introducer c = Some p -> behind s h x.
(** the data of a client that does not depend on a cached value (the cloaked host name) *)
Definition same_client (c c' : client) : Prop := exists v, c' = set_cl_cloaked v c.

(** ** connections *)
(** the event is not the start of an outgoing connection to another server *)
Definition incoming (e : event) : Prop := match e with E_NewServer _ _ _ => False | _ => True end.
(** number of established connections, and of those from an address *)
Definition connections (s : state) : nat := List.length (s_conns s).
Definition connections_from (ip : bytes) (s : state) : nat :=
  List.length (filter (fun p => if list_eq_dec ascii_dec (co_ip (snd p)) ip then true else false) (s_conns s)).

(** ** what a command leaves alone *)
(** the same connection: only counters, the marks used while sending, and the penalty may differ *)
Definition same_conn (c c' : conn) : Prop :=
  co_open c' = co_open c /\ co_closing c' = co_closing c /\ co_client c' = co_client c /\ co_ip c' = co_ip c /\
  co_pwd c' = co_pwd c /\ co_rbuf c' = co_rbuf c /\ co_connecting c' = co_connecting c /\ co_rfc1459 c' = co_rfc1459 c /\
  co_auth_ping c' = co_auth_ping c /\ co_lastdata c' = co_lastdata c /\ co_lastping c' = co_lastping c.
Definition alike {A} (R : A -> A -> Prop) (a b : option A) : Prop :=
  match a, b with Some x, Some y => R x y | None, None => True | _, _ => False end.
(** nothing has happened but lines written to connections: all clients, channels, memberships,
    connections, server bans, configured servers and the WHOWAS history are what they were, the
    server has not been told to quit, restart or re-read its configuration *)
Record unchanged (s s' : state) : Prop := mk_unchanged {
  un_conf : s_conf s' = s_conf s; un_now : s_now s' = s_now s;
  un_clients : s_clients s' = s_clients s; un_chans : s_chans s' = s_chans s; un_members : s_members s' = s_members s;
  un_glines : s_glines s' = s_glines s; un_klines : s_klines s' = s_klines s;
  un_servers : s_servers s' = s_servers s; un_whowas : s_whowas s' = s_whowas s;
  un_quit : s_sigquit s' = s_sigquit s; un_restart : s_sigrestart s' = s_sigrestart s; un_rehash : s_sigrehash s' = s_sigrehash s;
  un_data : forall h, alike same_client (lookup h (s_heap s)) (lookup h (s_heap s'));
  un_conns : forall i, alike same_conn (lookup i (s_conns s)) (lookup i (s_conns s'));
  un_out : exists l, s_out s' = l ++ s_out s }.
(** the client served by an open connection *)
Definition client_of (s : state) (i : connid) (h : handle) (c : client) : Prop :=
  (exists cn, lookup i (s_conns s) = Some cn /\ co_client cn = Some h) /\ lookup h (s_heap s) = Some c.

(** ** the command table *)
(** who may use a command, and with how many parameters (parse.c, COMMAND My_Commands[]) *)
Inductive who := Anybody | New | Users | UsersServers | Servers.
Definition permitted (w : who) (t : ctype) : Prop :=
  match w with
  | Anybody => True
  | New => t = T_UNKNOWN
  | Users => t = T_USER
  | UsersServers => t = T_USER \/ t = T_SERVER
  | Servers => t = T_SERVER
  end.
Definition command_table : list (string * who * nat * option nat) :=
  [("ADMIN", UsersServers, 0, Some 1);
   ("AWAY", Users, 0, Some 1);
   ("CAP", Anybody, 1, Some 2);
   ("CONNECT", UsersServers, 0, None);
   ("DIE", Users, 0, Some 1);
   ("DISCONNECT", Users, 1, Some 1);
   ("ERROR", Anybody, 0, None);
   ("GLINE", UsersServers, 0, None);
   ("HELP", Users, 0, Some 1);
   ("INFO", UsersServers, 0, Some 1);
   ("INVITE", UsersServers, 2, Some 2);
   ("ISON", Users, 1, None);
   ("JOIN", UsersServers, 1, Some 2);
   ("KICK", UsersServers, 2, Some 3);
   ("KILL", UsersServers, 2, Some 2);
   ("KLINE", UsersServers, 0, None);
   ("LINKS", UsersServers, 0, Some 2);
   ("LIST", UsersServers, 0, Some 2);
   ("LUSERS", UsersServers, 0, Some 2);
   ("METADATA", Servers, 3, Some 3);
   ("MODE", UsersServers, 1, None);
   ("MOTD", UsersServers, 0, Some 1);
   ("NAMES", UsersServers, 0, Some 2);
   ("NICK", Anybody, 0, None);
   ("NJOIN", Servers, 2, Some 2);
   ("NOTICE", Anybody, 0, None);
   ("OPER", Users, 2, Some 2);
   ("PART", UsersServers, 1, Some 2);
   ("PASS", Anybody, 0, None);
   ("PING", UsersServers, 0, None);
   ("PONG", Anybody, 0, None);
   ("PRIVMSG", UsersServers, 0, Some 2);
   ("QUIT", Anybody, 0, Some 1);
   ("REHASH", Users, 0, Some 0);
   ("RESTART", Users, 0, Some 0);
   ("SERVER", Anybody, 0, None);
   ("SERVICE", Anybody, 6, Some 6);
   ("SERVLIST", Users, 0, Some 2);
   ("SQUERY", UsersServers, 0, Some 2);
   ("SQUIT", UsersServers, 2, Some 2);
   ("STATS", UsersServers, 0, Some 2);
   ("SVSNICK", Servers, 2, Some 2);
   ("SUMMON", UsersServers, 0, None);
   ("TIME", UsersServers, 0, Some 1);
   ("TOPIC", UsersServers, 1, Some 2);
   ("TRACE", UsersServers, 0, Some 1);
   ("USER", Anybody, 0, None);
   ("USERHOST", Users, 1, None);
   ("USERS", UsersServers, 0, None);
   ("VERSION", UsersServers, 0, Some 1);
   ("WALLOPS", UsersServers, 1, Some 1);
   ("WEBIRC", New, 4, Some 5);
   ("WHO", Users, 0, Some 2);
   ("WHOIS", UsersServers, 0, None);
   ("WHOWAS", UsersServers, 0, None);
   ("CHANINFO", Servers, 0, None);
   ("GET", New, 0, None);
   ("POST", New, 0, None)]%string.
Definition within (lo : nat) (hi : option nat) (n : nat) : Prop :=
  lo <= n /\ match hi with Some m => n <= m | None => True end.
(** the client has completed its registration *)
Definition registered (t : ctype) : Prop := t = T_USER \/ t = T_SERVER \/ t = T_SERVICE.

(** ** the origin of a command *)
(** the nickname or server name in a prefix or target "name!user@host"; only 63 bytes are looked at *)
Fixpoint before_bang (p : bytes) : bytes :=
  match p with [] => [] | a :: r => if Ascii.eqb a "!" then [] else a :: before_bang r end.
Definition nick_part (p : bytes) : bytes := before_bang (firstn 63 p).
(** the client [u] is one that is called [p] *)
Definition called (s : state) (p : bytes) (u : handle) : Prop := exists d, known s u d /\ same_name (cl_id d) (nick_part p).

(** ** the lines of a byte stream *)
Definition eol (c : ascii) : bool := Ascii.eqb c CR || Ascii.eqb c LF.
(** the lines of the stream that are complete (ended by CR or LF) and not empty, in order *)
Fixpoint lines_from (cur s : bytes) : list bytes :=
  match s with
  | [] => []
  | c :: r => if eol c then (match cur with [] => [] | _ => [cur] end) ++ lines_from [] r else lines_from (cur ++ [c]) r
  end.
Definition lines_of (s : bytes) : list bytes := lines_from [] s.
(** no penalty time of the connection lies in the future *)
Definition no_penalty (i : connid) (s : state) : Prop := forall c, assoc i (s_conns s) = Some c -> (co_delaytime c <= s_now s)%Z.
(** [traced i ls ok s s']: the server does some chores and executes some lines, each while no penalty
    time of its connection lies in the future, among them for the connection [i] exactly the lines
    [ls]; [ok] tells whether it still regards this connection as open after each of them (what
    [Parse_Request] returns) *)
Inductive traced (i : connid) : list bytes -> bool -> state -> state -> Prop :=
| T_nil : forall s, traced i [] true s s
| T_chore : forall s s1 s' ls ok, chore s s1 -> traced i ls ok s1 s' -> traced i ls ok s s'
| T_line : forall text b s s1 s' ls ok, no_penalty i s -> Parse_Request i text s = Ok b s1 -> traced i ls ok s1 s' -> traced i (text :: ls) (b && ok) s s'
| T_other : forall j text b s s1 s' ls ok, j <> i -> no_penalty j s -> Parse_Request j text s = Ok b s1 -> traced i ls ok s1 s' -> traced i ls ok s s'.
(** [executed i e ls ok s s']: in reaction to the event [e] the lines [ls] of connection [i] are
    executed.  Lines are executed when data arrives and in the main loop only. *)
Definition executed (i : connid) (e : event) (ls : list bytes) (ok : bool) (s s' : state) : Prop :=
  match e with
  | E_Data _ _ | E_Loop => traced i ls ok s s'
  | _ => ls = [] /\ ok = true
  end.
(** the bytes the event makes the server read from connection [i] *)
Definition received (i : connid) (e : event) (s : state) : bytes :=
  match e with
  | E_Data j d => match assoc i (s_conns s) with
                  | Some c => if Nat.eqb j i && (can_read (s_now s) c && (List.length d <=? READBUFFER_LEN)) then d else []
                  | None => []
                  end
  | _ => []
  end.
(** [serving i inp s s']: a sequence of events during which connection [i] stays connected and
    the bytes [inp] are read from it *)
Inductive serving (i : connid) : bytes -> state -> state -> Prop :=
| Serving_start : forall s, serving i [] s s
| Serving_event : forall e inp s s1 s', serving i inp s s1 -> step e s1 = Ok tt s' -> assoc i (s_conns s') <> None ->
    serving i (inp ++ received i e s1) s s'.
(** [dialogue i inp ls ok s s']: the same; [ls] are the lines executed for it *)
Inductive dialogue (i : connid) : bytes -> list bytes -> bool -> state -> state -> Prop :=
| S_start : forall s, dialogue i [] [] true s s
| S_event : forall e inp ls ok l b s s1 s', dialogue i inp ls ok s s1 -> step e s1 = Ok tt s' -> executed i e l b s1 s' ->
    assoc i (s_conns s') <> None -> dialogue i (inp ++ received i e s1) (ls ++ l) (ok && b) s s'.
(** the first line of what is in the read buffer of [i] followed by [inp]: it ends with CR or LF, has at
    most 510 bytes besides, and may be executed now *)
Definition waiting (i : connid) (inp l : bytes) (s : state) : Prop :=
  exists cn t r, assoc i (s_conns s) = Some cn /\ (co_delaytime cn <= s_now s)%Z /\ co_rbuf cn ++ inp = l ++ t :: r /\ eol t = true /\
    l <> [] /\ forallb (fun c => negb (eol c)) l = true /\ ~ In NUL l /\ List.length l <= 510.
(** a line that may be executed *)
Definition legal_line (l : bytes) : Prop := l <> [] /\ forallb (fun c => negb (eol c)) l = true /\ List.length l <= 511.
(** the number of lines executed in one go for connection [i]; not limited here: servers *)
Definition line_limit (s : state) (i : connid) (n : nat) : Prop :=
  exists h c, client_of s i h c /\ cl_type c <> T_SERVER /\
    ((n = 10 /\ (cl_type c = T_SERVICE \/ (cl_type c = T_USER /\ In "F"%char (cl_modes c)))) \/
     (n = 3 /\ cl_type c <> T_SERVICE /\ ~ (cl_type c = T_USER /\ In "F"%char (cl_modes c)))).

(** ** commands of a line *)
(** the line consists of the command [cmd] with the parameters [args] (and maybe a prefix) *)
Definition says (text : bytes) (cmd : string) (args : list bytes) : Prop :=
  exists p name, parse_line (trim text) = Some (mkReq p name args) /\ same_name name (B cmd).
(** nick!user@host *)
Definition full_mask (c : client) : bytes := cl_id c ++ "!"%char :: cl_user c ++ "@"%char :: cl_host c.
(** the line is an OPER command with the name and the password of a configured operator, and the mask
    configured for this operator, if any, matches *)
Definition oper_login (s : state) (c : client) (text : bytes) : Prop :=
  exists op, says text "OPER" [op_name op; op_pwd op] /\ In op (cf_opers (s_conf s)) /\
    match op_mask op with Some m => glob m (full_mask c) | None => True end.
(** the client has the user mode 'o' *)
Definition operator (s : state) (h : handle) : Prop := exists c, lookup h (s_heap s) = Some c /\ In "o"%char (cl_modes c).
(** the client [h] is on the channel [ch] and has the privilege [x] there (o: operator, h: half-op,
    v: voice, a: admin, q: owner) *)
Definition has_priv (s : state) (h : handle) (ch : chandle) (x : ascii) : Prop :=
  exists m, In m (s_members s) /\ mb_client m = h /\ mb_chan m = ch /\ In x (mb_modes m).
Definition half_op (s : state) (h : handle) (ch : chandle) : Prop := exists x, In x (B "hoaq") /\ has_priv s h ch x.
(** IRC operators, with OperCanUseMode, may do without privileges on the channel *)
Definition mighty (s : state) (c : client) : Prop := cf_opercanmode (s_conf s) = true /\ In "o"%char (cl_modes c).
(** who may change the topic *)
Definition may_set_topic (s : state) (h : handle) (c : client) (ch : chandle) (k : channel) : Prop :=
  mighty s c \/ (is_on s h ch /\ (~ In "t"%char (ch_modes k) \/ In "o"%char (cl_modes c) \/ half_op s h ch)).
(** the host name of a client that other users see: with mode 'x' the cloaked one, which is computed at
    its first use *)
Definition shown_host (s : state) (c : client) : bytes :=
  if memb "x" (cl_modes c) then match cl_cloaked c with Some t => t | None => cloak_name s c end else cl_host c.
Definition shown_mask (s : state) (c : client) : bytes := cl_id c ++ "!"%char :: cl_user c ++ "@"%char :: shown_host s c.
(** the client is on a list of masks (bans, exceptions, invitations); the masks are compared with
    nick!user@host, for the real and for the shown host name, by the matcher of C01 *)
Definition listed (s : state) (c : client) (l : mlist) : Prop :=
  exists e, In e l /\ (MatchCaseInsensitive (le_mask e) (full_mask c) = true \/ MatchCaseInsensitive (le_mask e) (shown_mask s c) = true).
(** a key that opens a +k channel: the key of the channel, or a key in the key file of a predefined
    channel (lines user:nick:key) *)
Definition right_key (s : state) (c : client) (k : channel) (key : bytes) : Prop :=
  key <> [] /\ (key = ch_key k \/
  (ch_keyfile k <> [] /\ exists line u n, In line (cf_keyfile (s_conf s) (ch_keyfile k)) /\ trim line = u ++ ":"%char :: n ++ ":"%char :: key /\
    Match u (match cl_user c with [] => B "~" | x => x end) = true /\ Match n (cl_id c) = true)).
(** the rules for joining an existing channel *)
Definition admitted (s : state) (c : client) (ch : chandle) (k : channel) (key : option bytes) : Prop :=
  In "o"%char (cl_modes c) \/
  ((listed s c (ch_bans k) -> listed s c (ch_excepts k) \/ listed s c (ch_invites k)) /\
   (In "i"%char (ch_modes k) -> listed s c (ch_invites k)) /\
   (In "k"%char (ch_modes k) -> exists t, key = Some t /\ right_key s c k t) /\
   (In "l"%char (ch_modes k) -> (Z.of_nat (List.length (filter (fun m => Nat.eqb (mb_chan m) ch) (s_members s))) < ch_maxusers k)%Z) /\
   ~ In "z"%char (ch_modes k) /\ ~ In "O"%char (ch_modes k) /\
   (In "R"%char (ch_modes k) -> In "R"%char (cl_modes c))).

(** ** who may kick whom *)
(** The user [h] ([c]) may remove [j] ([d]) from the channel [ch] ([k]): he is on the channel; if kicks
    are denied on the channel (+Q), or the victim is protected (user mode +q) or a service, he is an IRC
    operator; and he has a privilege that is not below the victim's in the order owner, admin, operator,
    half operator, or is an IRC operator where the option OperCanUseMode is set. *)
Definition may_kick (s : state) (h : handle) (c : client) (ch : chandle) (k : channel) (j : handle) (d : client) : Prop :=
  is_on s h ch /\
  (In "Q"%char (ch_modes k) \/ In "q"%char (cl_modes d) \/ cl_type d = T_SERVICE -> In "o"%char (cl_modes c)) /\
  (has_priv s h ch "q" \/
   (has_priv s h ch "a" /\ ~ has_priv s j ch "q") \/
   (has_priv s h ch "o" /\ ~ has_priv s j ch "q" /\ ~ has_priv s j ch "a") \/
   (has_priv s h ch "h" /\ ~ has_priv s j ch "q" /\ ~ has_priv s j ch "a" /\ ~ has_priv s j ch "o") \/
   (In "o"%char (cl_modes c) /\ cf_opercanmode (s_conf s) = true)).

(** ** who may change the modes of a channel and the privileges of its members *)
Definition chan_owner (s : state) (h : handle) (ch : chandle) : Prop := has_priv s h ch "q".
Definition chan_admin (s : state) (h : handle) (ch : chandle) : Prop := has_priv s h ch "q" \/ has_priv s h ch "a".
Definition chan_op (s : state) (h : handle) (ch : chandle) : Prop := has_priv s h ch "q" \/ has_priv s h ch "a" \/ has_priv s h ch "o".
Definition half_or_mighty (s : state) (h : handle) (c : client) (ch : chandle) : Prop := mighty s c \/ half_op s h ch.
(** setting ([b] is true) or removing the mode [x] of the channel *)
Definition may_set_mode (s : state) (h : handle) (c : client) (ch : chandle) (b : bool) (x : ascii) : Prop :=
  (In x (B "RszOPiVMmnNQtkl") /\ mighty s c) \/
  (In x (B "iVMmnNQtkl") /\ half_op s h ch) \/
  (In x (B "Rsz") /\ chan_op s h ch) \/
  (In x (B "OP") /\ b = false /\ chan_op s h ch).
(** giving or taking the privilege [x] of a member *)
Definition may_set_priv (s : state) (h : handle) (c : client) (ch : chandle) (x : ascii) : Prop :=
  (In x (B "qaohv") /\ mighty s c) \/
  (x = "v"%char /\ half_op s h ch) \/
  (In x (B "oh") /\ chan_op s h ch) \/
  (x = "a"%char /\ chan_admin s h ch) \/
  (x = "q"%char /\ chan_owner s h ch).
(** the character [x] occurs in one of the arguments *)
Definition asked (args : list bytes) (x : ascii) : Prop := exists a, In a args /\ In x a.
(** the settings of a channel may have become [k'], by a MODE command with these arguments *)
Record may_change (s : state) (h : handle) (c : client) (ch : chandle) (args : list bytes) (k k' : channel) : Prop := mk_may_change {
  mc_add : forall x, In x (ch_modes k') -> ~ In x (ch_modes k) -> may_set_mode s h c ch true x /\ asked args x;
  mc_del : forall x, In x (ch_modes k) -> ~ In x (ch_modes k') -> may_set_mode s h c ch false x /\ asked args x;
  mc_key : ch_key k' <> ch_key k -> half_or_mighty s h c ch /\ exists a, In a args /\ ch_key k' = firstn 64 a;
  mc_limit : ch_maxusers k' <> ch_maxusers k -> half_or_mighty s h c ch;
  mc_bans : ch_bans k' <> ch_bans k -> half_or_mighty s h c ch;
  mc_excepts : ch_excepts k' <> ch_excepts k -> half_or_mighty s h c ch }.

(** ---- registration (C24, C43) ---- *)
(** the password a connection has sent with PASS; none is the empty one *)
Definition given_password (cn : conn) : bytes := match co_pwd cn with Some p => p | None => [] end.
(** what is decided when NICK, USER and what else is needed have arrived: wait for the cookie, wait
    for CAP END, or the client is a user *)
Definition login_result (t : ctype) : Prop := t = T_WAITAUTHPING \/ t = T_WAITCAPEND \/ t = T_USER.
(** the line [text] of connection [i] takes its client from one state of the registration to another *)
Inductive reg_step (s : state) (i : connid) (text : bytes) : ctype -> ctype -> Prop :=
| RS_pass : forall args t, says text "PASS" args -> t = T_GOTPASS \/ t = T_GOTPASS_2813 -> reg_step s i text T_UNKNOWN t
| RS_nick : forall n t, says text "NICK" [n] -> t = T_UNKNOWN \/ t = T_GOTPASS -> reg_step s i text t T_GOTNICK
| RS_user : forall u a b r t, says text "USER" [u; a; b; r] -> t = T_UNKNOWN \/ t = T_GOTPASS -> reg_step s i text t T_GOTUSER
| RS_nick_last : forall n t, says text "NICK" [n] -> login_result t -> reg_step s i text T_GOTUSER t
| RS_user_last : forall u a b r t, says text "USER" [u; a; b; r] -> login_result t -> reg_step s i text T_GOTNICK t
| RS_pong : forall n args cn t, says text "PONG" (n :: args) -> lookup i (s_conns s) = Some cn -> co_auth_ping cn <> 0%Z -> co_auth_ping cn = atol n ->
    login_result t -> reg_step s i text T_WAITAUTHPING t
| RS_cap : forall w t, says text "CAP" [w] -> same_name w (B "END") -> login_result t -> reg_step s i text T_WAITCAPEND t.
(** the client [c] of connection [i] has a right to be a user: no cookie is outstanding, no capability
    negotiation is going on, the password is right, the nickname is legal, and no G-line or K-line
    matches *)
Record registered_properly (s : state) (i : connid) (c : client) : Prop := mk_registered {
  rp_cookie : cf_authping (s_conf s) = true -> exists cn, lookup i (s_conns s) = Some cn /\ co_auth_ping cn = 0%Z;
  rp_cap : cl_cap_pending c = false;
  rp_password : exists cn, lookup i (s_conns s) = Some cn /\ given_password cn = cf_serverpwd (s_conf s);
  rp_nick : legal_nick (cf_maxnick (s_conf s)) (cl_id c);
  rp_gline : forall e, In e (s_glines s) -> MatchCaseInsensitive (le_mask e) (full_mask c) = false;
  rp_kline : forall e, In e (s_klines s) -> MatchCaseInsensitive (le_mask e) (full_mask c) = false }.
(** the capability negotiation: what a CAP line with arguments [args] does to the capabilities of the
    client that sent it.  [words a] are the words of the argument of CAP REQ. *)
Definition words (a : bytes) : list bytes := strtok " " a.
Definition known_cap (w : bytes) : Prop := w = B "multi-prefix" \/ w = B "-multi-prefix".
(** the setting of multi-prefix that a list of known words asks for: the last one decides *)
Inductive wanted (old : bool) : list bytes -> bool -> Prop :=
| WT_none : wanted old [] old
| WT_on : forall l, wanted old (l ++ [B "multi-prefix"]) true
| WT_off : forall l, wanted old (l ++ [B "-multi-prefix"]) false.
Inductive cap_effect (args : list bytes) (c c' : client) : Prop :=
| CE_clear : forall w, args = [w] -> same_name w (B "CLEAR") -> cl_cap_pending c' = cl_cap_pending c -> cl_cap_multi c' = false -> cap_effect args c c'
| CE_end : forall w, args = [w] -> same_name w (B "END") -> cl_cap_multi c' = cl_cap_multi c ->
    (cl_type c = T_USER -> cl_cap_pending c' = cl_cap_pending c) -> (cl_type c <> T_USER -> cl_cap_pending c' = false) -> cap_effect args c c'
| CE_ls : forall w r, args = w :: r -> same_name w (B "LS") -> cl_cap_multi c' = cl_cap_multi c ->
    (cl_type c = T_USER -> cl_cap_pending c' = cl_cap_pending c) -> (cl_type c <> T_USER -> cl_cap_pending c' = true) -> cap_effect args c c'
| CE_req : forall w a, args = [w; a] -> same_name w (B "REQ") -> (cl_type c = T_USER -> cl_cap_pending c' = cl_cap_pending c) -> (cl_type c <> T_USER -> cl_cap_pending c' = true) ->
    (Forall known_cap (words (firstn 512 a)) -> wanted (cl_cap_multi c) (words (firstn 512 a)) (cl_cap_multi c')) ->
    (~ Forall known_cap (words (firstn 512 a)) -> cl_cap_multi c' = cl_cap_multi c) -> cap_effect args c c'
| CE_other : (forall w r, args = w :: r -> (same_name w (B "CLEAR") -> r <> []) /\ (same_name w (B "END") -> r <> []) /\ ~ same_name w (B "LS") /\ (same_name w (B "REQ") -> List.length r <> 1)) ->
    cl_cap_pending c' = cl_cap_pending c -> cl_cap_multi c' = cl_cap_multi c -> cap_effect args c c'.

(** the line, without a prefix, is the command [cmd] with the parameters [args], and it is not a CTCP
    request a server with ScrubCTCP drops *)
Definition orders (s : state) (text : bytes) (cmd : string) (args : list bytes) : Prop :=
  (exists name, parse_line (trim text) = Some (mkReq None name args) /\ same_name name (B cmd)) /\
  (cf_scrubctcp (s_conf s) = true -> ~ exists a b, trim text = a ++ ":"%char :: "001"%char :: b).

(** the client is a registered user *)
Definition isu (s : state) (h : handle) : Prop := exists c, lookup h (s_heap s) = Some c /\ cl_type c = T_USER.
(** the client is not a server (or a service) *)
Definition plain_type (t : ctype) : Prop := t <> T_SERVER /\ t <> T_UNKNOWNSERVER /\ t <> T_SERVICE.
(** a capability negotiation of the client is going on, or not *)
Definition negotiating (s : state) (h : handle) : Prop := exists c, lookup h (s_heap s) = Some c /\ cl_cap_pending c = true.
Definition settled_cap (s : state) (h : handle) : Prop := exists c, lookup h (s_heap s) = Some c /\ cl_cap_pending c = false.

(** ** lines on the wire *)
(** the client through which [h] is reached: itself, if it is connected to this server directly, or the
    neighbouring server behind which it is *)
Inductive next_hop (s : state) : handle -> handle -> Prop :=
| NH_direct : forall h c, lookup h (s_heap s) = Some c -> cl_introducer c = None \/ cl_introducer c = Some h \/ cl_introducer c = Some This_Server -> next_hop s h h
| NH_via : forall h c i x, lookup h (s_heap s) = Some c -> cl_introducer c = Some i -> i <> h -> i <> This_Server -> next_hop s i x -> next_hop s h x.
(** the host name other users see is fixed: either the client is not cloaked or the cloaked name has been
    computed already (otherwise it is computed, and announced to other servers, when it is needed) *)
Definition settled (c : client) : Prop := In "x"%char (cl_modes c) -> cl_cloaked c <> None.
Fixpoint upto_nul (t : bytes) : bytes :=
  match t with [] => [] | c :: r => if Ascii.eqb c NUL then [] else c :: upto_nul r end.
(** the text as it appears on the wire: cut after the first NUL byte, lines of more than 510 bytes are
    shortened to 505 bytes and "[CUT]", then CR LF *)
Definition on_wire (t : bytes) : bytes :=
  let t := upto_nul t in (if (510 <? List.length t)%nat then firstn 505 t ++ B "[CUT]" else t) ++ [CR; LF].
(** the lines written to connection [i] from [s] to [s'], in order *)
Definition written (s s' : state) (i : connid) (l : list bytes) : Prop :=
  exists new, s_out s' = new ++ s_out s /\ l = rev (map snd (filter (fun p => (fst p =? i)%nat) new)).
(** the connection is open (its socket is) *)
Definition is_open (s : state) (i : connid) : bool := match assoc i (s_conns s) with Some c => co_open c | None => false end.
(** the name that is printed for a client: * if it has none yet *)
Definition id_of (c : client) : bytes := match cl_id c with [] => B "*" | _ => cl_id c end.

(** ** messages to channels *)
(** [ch] is the channel called [name]: there is no second one (see C12) *)
Definition the_channel (s : state) (name : bytes) (ch : chandle) (k : channel) : Prop :=
  exists_chan s ch k /\ same_name name (ch_name k) /\ forall ch' k', exists_chan s ch' k' -> same_name name (ch_name k') -> ch' = ch.
(** the name that is printed for a user: ~ if it has none *)
Definition user_of (c : client) : bytes := match cl_user c with [] => B "~" | _ => cl_user c end.
(** the target [name] of a message can only mean a channel: it does not look like a mask of users, and no
    client has this name and no user has this user name (user names of local users start with ~, but a peer
    may introduce users with any user name) *)
Definition only_channel (s : state) (name : bytes) : Prop :=
  name <> [] /\ (forall x, In x name -> ~ In x (B ",!@%")) /\ (forall h, ~ called s name h) /\ (forall h c, known s h c -> ~ same_name name (user_of c)).
(** the rules for speaking on a channel *)
Definition voiced (s : state) (h : handle) (ch : chandle) : Prop := exists x, In x (B "vhoaq") /\ has_priv s h ch x.
Definition may_speak (s : state) (h : handle) (c : client) (ch : chandle) (k : channel) : Prop :=
  (In "n"%char (ch_modes k) -> is_on s h ch) /\
  (In "M"%char (ch_modes k) -> In "R"%char (cl_modes c) \/ In "o"%char (cl_modes c)) /\
  (voiced s h ch \/ (~ In "m"%char (ch_modes k) /\ (listed s c (ch_bans k) -> listed s c (ch_excepts k)))).
(** a message which has come from [from] goes out on connection [j], at the end of which is [d]: some member
    of the channel is connected through [d], which is not [from] itself *)
Definition goes_to (s : state) (from : handle) (ch : chandle) (j : connid) (d : client) : Prop :=
  exists m x, is_on s m ch /\ next_hop s m x /\ x <> from /\ lookup x (s_heap s) = Some d /\ cl_conn d = Some j.
(** a line from the user [c] as it is written to the connection of [d]: servers get the nickname as prefix,
    users the mask *)
Definition line_from (s : state) (c d : client) (t : bytes) : bytes :=
  on_wire (":"%char :: (if ctype_eqb (cl_type d) T_SERVER then cl_id c else shown_mask s c) ++ " "%char :: t).
(** ** messages to users *)
(** [g] is the only client called [t] *)
Definition the_client (s : state) (t : bytes) (g : handle) (d : client) : Prop := known s g d /\ called s t g /\ forall g', called s t g' -> g' = g.
(** the modes b and C of the recipient [g] allow messages from [h] *)
Definition may_reach (s : state) (h : handle) (c : client) (g : handle) (d : client) : Prop :=
  (In "b"%char (cl_modes d) -> In "R"%char (cl_modes c) \/ In "o"%char (cl_modes c)) /\
  (In "C"%char (cl_modes d) -> In "o"%char (cl_modes c) \/ exists ch, is_on s g ch /\ is_on s h ch).
(** the text of a message to [name] *)
Definition speech (cmd name text : bytes) : bytes := cmd ++ " "%char :: name ++ B " :" ++ text.
(** the answer to a user [c] who may not speak on channel [k] *)
Definition refusal (k : channel) (c : client) : bytes :=
  if memb "M" (ch_modes k) then B "477 " ++ cl_id c ++ " "%char :: ch_name k ++ B " :Cannot send to channel (+M) -- You need to be identified to a registered account to message this channel"
  else B "404 " ++ cl_id c ++ " "%char :: ch_name k ++ B " :Cannot send to channel".
(** the answer to a user [c] who may not send messages to [d] *)
Definition refusal_of (c d : client) : bytes :=
  if memb "b" (cl_modes d) && negb (memb "R" (cl_modes c)) && negb (memb "o" (cl_modes c))
  then B "486 " ++ cl_id c ++ B " :Cannot send to user (+b) -- You must identify to a registered nick to private message " ++ cl_id d
  else B "493 " ++ cl_id c ++ B " :You must share a common channel with " ++ cl_id d.
(** the answer to [c] when [d] is away *)
Definition away_reply (c d : client) : bytes :=
  B "301 " ++ cl_id c ++ " "%char :: cl_id d ++ B " :" ++ match cl_away d with Some t => t | None => B "(null)" end.
