(** Model of the event side of src/ngircd/conn.c: new connections, received data, splitting into
    lines, time-outs, outgoing server links; start-up of the server.

    The main loop Conn_Handler (conn.c:667-838) waits for one of the events below and calls the
    functions modelled here; time(NULL) is constant while one event is handled.  The number of
    a connection is its socket (Socket2Index, conn.c:1565-1587).
    Not modelled: SERVER_WAIT and the resolver sub-processes (their results arrive as events),
    service manager notifications, IdleTimeout, REHASH (the configuration is fixed), the
    shutdown sequence, SSL, zlib. *)
From Coq Require Import List Ascii String ZArith NArith Bool.
From Verif Require Import Bytes Match Lists Hash ParseReq State Messages Monad Core Write Info Chan Mode Msg Login Oper Server Dispatch.
Import ListNotations.
Local Open Scope m_scope.

Definition HOST_LEN : nat := 256.
Definition READBUFFER_LEN : nat := 2048.   (* defines.h *)

(** src/ngircd/conn.c:1545-1553 Account_Connection *)
Definition Account_Connection : M unit :=
  modify (fun s =>
    let n := (s_numconn s + 1)%Z in
    let s := set_s_numconn n s in
    if (s_numconnmax s <? n)%Z then set_s_numconnmax n s else s).

(** A connection slot after Init_Conn_Struct (conn.c:2137-2162) and the assignments of
    New_Connection (1450-1462) or New_Server (2093-2112). *)
Definition open_conn (now : Z) (ip host : bytes) (client : handle) (connecting : bool) : conn :=
  set_co_connecting connecting (set_co_client (Some client) (set_co_host (strlcpy HOST_LEN host)
    (set_co_ip ip (set_co_open true (closed_conn now))))).
Definition Register_Connection (i : connid) (c : conn) : M unit :=
  modify (fun s => set_s_conns ((i, c) :: s_conns s) s).

(** src/ngircd/conn.c:1339-1355 Count_Connections; addresses are compared as text *)
Definition Count_Connections (ip : bytes) : M Z :=
  gets (fun s => Z.of_nat (List.length (filter (fun p => co_open (snd p) && beq (co_ip (snd p)) ip) (s_conns s)))).

(** src/ngircd/conn.c:1498-1540 Conn_StartLogin (the resolver answers with [E_Resolved]) *)
Definition Conn_StartLogin (i : connid) : M unit :=
  nb <- cf cf_noticebefore ;; dns <- cf cf_dns ;;
  whenM nb (void (if dns : bool then Conn_WriteStr i "NOTICE * :*** Looking up your hostname" []
                  else Conn_WriteStr i "NOTICE * :*** Processing your connection" [])).

(** src/ngircd/conn.c:2392-2400 Simple_Message: written directly to the socket *)
Definition Simple_Message (i : connid) (msg : string) : M unit :=
  modify (fun s => set_s_out ((i, firstn 511 (B msg) ++ [CR; LF]) :: s_out s) s).

(** src/ngircd/conn.c:1365-1490 New_Connection: a socket [i] has been accepted; [ip] is the text
    of the address, [v6]: not AF_INET *)
Definition New_Connection (i : connid) (ip : bytes) (v6 : bool) : M unit :=
  modify (fun s => set_s_accepted (s_accepted s + 1) s) ;;;
  mx <- cf cf_maxconn ;; n <- gets s_numconn ;;
  if ((0 <? mx) && (mx <=? n))%Z then Simple_Message i "ERROR :Connection limit reached"
  else
    mxip <- cf cf_maxconnip ;; cnt <- Count_Connections ip ;;
    if ((0 <? mxip) && (mxip <=? cnt))%Z
    then Simple_Message i "ERROR :Connection refused, too many connections from your IP address"
    else
      c <- Client_NewLocal i None T_UNKNOWN false ;;
      t <- now ;;
      let host := strlcpy HOST_LEN (if v6 then B "[" ++ ip ++ B "]" else ip) in
      Register_Connection i (open_conn t ip host c false) ;;;
      Client_SetHostname c host ;;;
      Account_Connection ;;;
      Conn_StartLogin i.

(** src/ngircd/conn.c:2270-2382 cb_Read_Resolver_Result (no IDENT) *)
Definition Resolver_Result (i : connid) (name : bytes) : M unit :=
  cn <- con i ;;
  assertM (co_open cn) ;;;
  c <- nonnull (co_client cn) ;;
  t <- Client_Type c ;;
  if ctype_eqb t T_UNKNOWN then
    whenM (negb (beq name []))
      (upd_con i (set_co_host (strlcpy HOST_LEN name)) ;;;
       Client_SetHostname c name ;;;
       nb <- cf cf_noticebefore ;;
       whenM nb (void (Conn_WriteStr i "NOTICE * :*** Found your hostname: %s" [aS (strlcpy HOST_LEN name)]))) ;;;
    void (Class_HandleServerBans c)
  else ret tt.

(** src/ngircd/conn.c:2480-2500 Throttle_Connection *)
Definition Throttle_Connection (i : connid) (h : handle) : M unit :=
  c <- cli h ;;
  match cl_type c with
  | T_SERVER | T_UNKNOWNSERVER | T_SERVICE => ret tt
  | _ => if memb "F" (cl_modes c) then ret tt else Conn_SetPenalty i 1
  end.

(** Positions in a string: strstr(s, "\r\n"), strchr(s, c) *)
Fixpoint pos_crlf (s : bytes) : option nat :=
  match s with
  | [] => None
  | a :: r =>
      if Ascii.eqb a CR && Ascii.eqb (hd0 r) LF then Some 0
      else option_map S (pos_crlf r)
  end.
Fixpoint pos_char (c : ascii) (s : bytes) : option nat :=
  match s with
  | [] => None
  | a :: r => if Ascii.eqb a c then Some 0 else option_map S (pos_char c r)
  end.

(** src/ngircd/conn.c:1788-1815: position and length of the first end of line in the read
    buffer, which is used as a C string *)
Definition find_eol (rbuf : bytes) : option (nat * nat) :=
  let s := cut0 rbuf in
  match pos_crlf s, pos_char CR s, pos_char LF s with
  | Some p, Some p1, Some p2 =>
      let first := if p1 <? p2 then p1 else p2 in
      if first <? p then Some (first, 1) else Some (p, 2)
  | Some p, _, _ => Some (p, 2)
  | None, Some p1, Some p2 => Some (if p1 <? p2 then p1 else p2, 1)
  | None, Some p1, None => Some (p1, 1)
  | None, None, Some p2 => Some (p2, 1)
  | None, None, None => None
  end.

(** src/ngircd/conn.c:1745-1764: the number of commands handled at once *)
Definition max_commands (i : connid) (h : handle) : M nat :=
  c <- cli h ;;
  match cl_type c with
  | T_SERVER =>
      n <- Count T_USER ;; lp <- Conn_LastPing i ;;
      let m := Z.to_nat (n / 5 + 10) in
      ret (if (lp =? 0)%Z then m * 5 else m)
  | T_SERVICE => ret 10
  | T_USER => ret (if memb "F" (cl_modes c) then 10 else 3)
  | _ => ret 3
  end.

(** src/ngircd/conn.c:1766-1880: the loop of Handle_Buffer; [None]: return 0 *)
Fixpoint handle_lines (n : nat) (i : connid) (done : Z) : M (option Z) :=
  match n with
  | O => ret (Some done)
  | S n' =>
      c <- con i ;; t <- now ;;
      if (t <? co_delaytime c)%Z then ret None
      else match co_rbuf c with
      | [] => ret (Some done)
      | rbuf =>
          match find_eol rbuf with
          | None => ret (Some done)
          | Some (p, delta) =>
              let len := p + delta in
              if 512 <? len then
                Conn_Close i None (Some (B "Request too long")) true ;;; ret None
              else
                let done := (done + Z.of_nat len)%Z in
                if len <=? delta then
                  upd_con i (fun c => set_co_rbuf (skipn len (co_rbuf c)) c) ;;;
                  handle_lines n' i done
                else
                  upd_con i (fun c => set_co_msg_in (co_msg_in c + 1) c) ;;;
                  ok <- Parse_Request i (firstn p rbuf) ;;
                  if negb ok then ret None
                  else
                    upd_con i (fun c => set_co_rbuf (skipn len (co_rbuf c)) c) ;;;
                    handle_lines n' i done
          end
      end
  end.

(** src/ngircd/conn.c:1723-1889 Handle_Buffer: the number of bytes processed *)
Definition Handle_Buffer (i : connid) : M Z :=
  o <- Conn_GetClient i ;; h <- nonnull o ;;
  n <- max_commands i h ;;
  r <- handle_lines n i 0 ;;
  match r with
  | None => ret 0%Z
  | Some done =>
      c <- con i ;;
      whenM (negb (done =? 0)%Z && (2 <? List.length (co_rbuf c))) (Throttle_Connection i h) ;;;
      ret done
  end.

(** src/ngircd/conn.c:1595-1710 Read_Request, split by the outcome of read(2); the connection
    is only read when Conn_Handler (conn.c:723-766) has scheduled it for reading. *)
Definition can_read (t : Z) (c : conn) : bool :=
  co_open c && negb (co_connecting c) && (co_delaytime c <=? t)%Z && (List.length (co_rbuf c) <? COMMAND_LEN).

Definition Read_Data (i : connid) (data : bytes) : M unit :=
  cn <- con i ;;
  assertM (co_open cn) ;;;
  if READBUFFER_LEN <=? List.length (co_rbuf cn)
  then Conn_Close i (Some (B "Receive buffer space exhausted")) None false
  else match data with
  | [] => Conn_Close i None (Some (B "Client closed connection")) false
  | _ =>
      upd_con i (fun c => set_co_bytes_in (co_bytes_in c + Z.of_nat (List.length data))%Z
                          (set_co_rbuf (co_rbuf c ++ data) c)) ;;;
      n <- Handle_Buffer i ;;
      upd_con i (fun c => set_co_bps (co_bps c + n) c) ;;;
      o <- Conn_GetClient i ;;
      match o with
      | None => ret tt
      | Some h =>
          ty <- Client_Type h ;;
          t <- now ;;
          whenM (is_registered ty)
            (upd_con i (fun c =>
               set_co_lastping (if (t <? co_lastping c)%Z then t else co_lastping c)
                 (set_co_lastdata t (if negb (co_lastdata c =? t)%Z then set_co_bps 0 c else c)))) ;;;
          c <- con i ;;
          whenM (256 <=? co_bps c)%Z (Throttle_Connection i h)
      end
  end.

(** src/ngircd/conn.c:1896-1950 Check_Connections *)
Definition Check_Connection (i : connid) : M unit :=
  cn <- con i ;;
  if negb (co_open cn) then ret tt
  else
    t <- now ;; ping <- cf cf_pingtimeout ;; pong <- cf cf_pongtimeout ;;
    o <- Conn_GetClient i ;;
    reg <- (match o with Some h => ty <- Client_Type h ;; ret (is_registered ty) | None => ret false end) ;;
    if reg : bool then
      if (co_lastdata cn <? co_lastping cn)%Z then
        whenM (co_lastping cn <? t - pong)%Z
          (Conn_Close i None (Some (firstn 63 (sfmt "Ping timeout: %d seconds" [FD pong]))) true)
      else
        whenM (co_lastdata cn <? t - ping)%Z
          (Conn_UpdatePing i t ;;;
           void (Conn_WriteStr i "PING :%s" [aID This_Server]))
    else
      whenM (co_lastdata cn <? t - pong)%Z
        (Conn_Close i None (Some (B "Timeout")) false).
Definition Check_Connections : M unit := l <- gets (fun s => map fst (s_conns s)) ;; mfor l Check_Connection.

(** src/ngircd/conn.c:2009-2126 New_Server: connection attempt [i] to the configured server [n] *)
Definition New_Server (n : nat) (i : connid) (ip : bytes) : M unit :=
  sv <- sv_at n ;;
  match sv_conn sv with
  | Some _ => ret tt
  | None =>
      c <- Client_NewLocal i (Some ip) T_UNKNOWNSERVER false ;;
      Account_Connection ;;;
      Client_SetIntroducer c c ;;;
      Client_SetToken c (-2) ;;;
      t <- now ;;
      upd_sv n (set_sv_conn (Some i)) ;;;
      Register_Connection i (open_conn t ip (sv_host sv) c true)
  end.

(** src/ngircd/conn.c:178-240 cb_connserver and 256-271 server_login; [ok]: result of connect(2) *)
Definition Server_Connected (i : connid) (ok : bool) : M unit :=
  o <- Conf_GetServer i ;;
  match o with
  | None => Conn_Close i (Some (B "Connection aborted")) None false
  | Some n =>
      if negb ok then Conn_Close i (Some (B "Can't connect")) None false
      else
        sv <- sv_at n ;;
        upd_con i (set_co_connecting false) ;;;
        ocm <- cf cf_opercanmode ;; name <- cf cf_servername ;; info <- cf cf_serverinfo ;;
        void (Conn_WriteStr i "PASS %s %s" [aS (sv_pwd_out sv); aS (NGIRCd_ProtoID ocm)]) ;;;
        void (Conn_WriteStr i "SERVER %s :%s" [aS name; aS info])
  end.

(** What can happen to the server from outside. *)
Inductive event :=
| E_Time (t r : Z)                          (* time(NULL) is [t] now, rand() will return [r] *)
| E_Accept (i : connid) (ip : bytes) (v6 : bool)   (* a client connects on socket [i] *)
| E_Resolved (i : connid) (host : bytes)    (* the resolver has finished *)
| E_Data (i : connid) (data : bytes)        (* read(2) returned these bytes; none: end of file *)
| E_ReadError (i : connid)
| E_WriteError (i : connid)
| E_Loop                                    (* one round of the main loop *)
| E_NewServer (n : nat) (i : connid) (ip : bytes)  (* a configured server has been resolved *)
| E_ServerUp (i : connid) (ok : bool).      (* connect(2) has finished *)

Definition unused (i : connid) : M bool := gets (fun s => negb (is_some (assoc i (s_conns s)))).
Definition is_open (i : connid) : M bool := c <- con i ;; ret (co_open c).

(** conn.c:677-699 (without Check_Servers): one round of the main loop; received data waiting in
    a read buffer is handled *)
Definition Main_Loop : M unit :=
  Check_Connections ;;;
  Class_Expire ;;;
  l <- gets (fun s => map fst (s_conns s)) ;;
  mfor l (fun i =>
    c <- con i ;;
    whenM (co_open c && (0 <? List.length (co_rbuf c))) (void (Handle_Buffer i))).

(** The reaction to an event.  Impossible events (data on a socket that is not polled, a
    socket number in use, ...) do nothing. *)
Definition step (e : event) : M unit :=
  match e with
  | E_Time t r => modify (fun s => set_s_rnd r (set_s_now t s))
  | E_Accept i ip v6 => u <- unused i ;; whenM u (New_Connection i ip v6)
  | E_Resolved i host => o <- is_open i ;; whenM o (Resolver_Result i (firstn 255 (cut0 host)))
  | E_Data i data =>
      c <- con i ;; t <- now ;;
      whenM (can_read t c && (List.length data <=? READBUFFER_LEN)) (Read_Data i data)
  | E_ReadError i =>
      c <- con i ;; t <- now ;;
      whenM (can_read t c) (Conn_Close i (Some (B "Read error")) (Some (B "Client closed connection")) false)
  | E_WriteError i => o <- is_open i ;; whenM o (Conn_Close i (Some (B "Write error")) None false)
  | E_Loop => Main_Loop
  | E_NewServer n i ip =>
      u <- unused i ;; m <- gets (fun s => List.length (s_servers s)) ;;
      whenM (u && (n <? m)) (New_Server n i ip)
  | E_ServerUp i ok =>
      c <- con i ;; whenM (co_open c && co_connecting c) (Server_Connected i ok)
  end.

Definition run (l : list event) : M unit := mfor l step.

(** src/ngircd/client.c:72-104 Client_Init (gethostname: cf_hostname) and the initial values of
    the global variables *)
Definition MAX_SERVERS : nat := 64.
Definition init_state (c : conf) (servers : list cserver) (t r : Z) : state :=
  let me := set_cl_host (cf_hostname c) (set_cl_hops 0 (set_cl_mytoken 1
              (set_cl_introducer (Some This_Server) (set_cl_type T_SERVER new_client)))) in
  let me := set_id (cf_cloakusertonick c) (cf_servername c) me in
  let me := set_info (cf_cloakusertonick c) (cf_serverinfo c) me in
  mkState c t r [(This_Server, me)] [This_Server] 1 [] 0 [] [] 0 0 0 [] [] []
    (firstn MAX_SERVERS (servers ++ repeat new_cserver MAX_SERVERS))
    (repeat (mkWhowas 0 [] [] [] [] []) 64) (-1) 0 0 false false false 0 t [].

(** src/ngircd/ngircd.c:282-321: the state in which the main loop is entered *)
Definition boot (c : conf) (servers : list cserver) (t r : Z) : res unit :=
  Channel_InitPredefined (init_state c servers t r).

(** What conf.c guarantees about a configuration the server runs with: src/ngircd/conf.c:1266-1285
    (MaxNickLength), 2149-2170 (server name; [Conf_ServerName] has CLIENT_ID_LEN bytes), conf.h:218
    (Conf_DefaultUserModes); gethostname(2) fills [host] of CLIENT_HOST_LEN bytes (client.c:92). *)
Definition name_char (c : ascii) : bool := isalnum c || Ascii.eqb c "." || Ascii.eqb c "-".
Definition conf_ok (c : conf) : Prop :=
  2 <= cf_maxnick c <= CLIENT_NICK_LEN /\
  List.length (cf_servername c) < CLIENT_ID_LEN /\
  forallb name_char (cf_servername c) = true /\ isalnum (hd0 (cf_servername c)) = true /\
  memb "." (cf_servername c) = true /\
  List.length (cf_hostname c) < CLIENT_HOST_LEN /\
  List.length (cf_defusermodes c) < CLIENT_MODE_LEN.

(** Everything the server can do: the states reached from a configuration by any sequence of
    events, provided that nothing has gone wrong ([Bad]) on the way. *)
Inductive reachable : state -> Prop :=
| R_boot : forall c servers t r s, conf_ok c -> boot c servers t r = Ok tt s -> reachable s
| R_step : forall s e s', reachable s -> step e s = Ok tt s' -> reachable s'.

(** What the server does while it handles the data received on its connections: it executes a line,
    or does one of the following chores: closes a connection, updates the buffer, the counters and the
    times of a connection (all fields but the five listed), slows a connection down, sends a PING,
    removes expired bans. *)
Inductive chore : state -> state -> Prop :=
| A_close : forall i log fwd inform s s', Conn_Close i log fwd inform s = Ok tt s' -> chore s s'
| A_conn : forall i f s s', (forall c, co_open (f c) = co_open c /\ co_closing (f c) = co_closing c /\ co_client (f c) = co_client c /\
                                       co_ip (f c) = co_ip c /\ co_delaytime (f c) = co_delaytime c) ->
                            upd_con i f s = Ok tt s' -> chore s s'
| A_throttle : forall i h s s', Throttle_Connection i h s = Ok tt s' -> chore s s'
| A_ping : forall i b s s', Conn_WriteStr i "PING :%s" [aID This_Server] s = Ok b s' -> chore s s'
| A_expire : forall s s', Class_Expire s = Ok tt s' -> chore s s'.
Inductive action : state -> state -> Prop :=
| A_line : forall i text b s s', Parse_Request i text s = Ok b s' -> action s s'
| A_chore : forall s s', chore s s' -> action s s'.
(** The states at every moment at which a line may be executed: between events, and while an event
    is handled (see Live.v: the reaction to an event is a sequence of actions between live states). *)
Inductive live : state -> Prop :=
| V_reach : forall s, reachable s -> live s
| V_action : forall s s', live s -> action s s' -> live s'.
