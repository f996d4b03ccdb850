(** Model of src/ngircd/parse.c: validation of the prefix, numerics from servers, the command
    table and its dispatcher. *)
From Coq Require Import List Ascii String ZArith NArith Bool.
From Verif Require Import Bytes Match Lists Hash ParseReq State Messages Monad Core Write Info Chan Mode Msg Login Oper Server.
Import ListNotations.
Local Open Scope m_scope.

(** src/ngircd/parse.h:38-50 COMMAND (without the counters of STATS m); [cm_types = None]:
    CLIENT_ANY; [cm_max = None]: -1 *)
Record command := mkCommand {
  cm_name : string;
  cm_fun : handle -> request -> M bool;
  cm_types : option (list ctype);
  cm_min : nat;
  cm_max : option nat;
  cm_penalty : Z
}.

Definition US : option (list ctype) := Some [T_USER; T_SERVER].
Definition US_U : option (list ctype) := Some [T_USER].
Definition US_S : option (list ctype) := Some [T_SERVER].
Definition US_NEW : option (list ctype) := Some [T_UNKNOWN].
Definition US_ANY : option (list ctype) := None.

(** src/ngircd/parse.c:55-132 My_Commands (IRCPLUS, not STRICT_RFC, no ICONV) *)
Definition My_Commands : list command :=
  [ mkCommand "ADMIN" IRC_ADMIN US 0 (Some 1) 1;
    mkCommand "AWAY" IRC_AWAY US_U 0 (Some 1) 0;
    mkCommand "CAP" IRC_CAP US_ANY 1 (Some 2) 0;
    mkCommand "CONNECT" IRC_CONNECT US 0 None 0;
    mkCommand "DIE" IRC_DIE US_U 0 (Some 1) 0;
    mkCommand "DISCONNECT" IRC_DISCONNECT US_U 1 (Some 1) 0;
    mkCommand "ERROR" IRC_ERROR US_ANY 0 None 0;
    mkCommand "GLINE" IRC_xLINE US 0 None 0;
    mkCommand "HELP" IRC_HELP US_U 0 (Some 1) 2;
    mkCommand "INFO" IRC_INFO US 0 (Some 1) 2;
    mkCommand "INVITE" IRC_INVITE US 2 (Some 2) 1;
    mkCommand "ISON" IRC_ISON US_U 1 None 0;
    mkCommand "JOIN" IRC_JOIN US 1 (Some 2) 0;
    mkCommand "KICK" IRC_KICK US 2 (Some 3) 0;
    mkCommand "KILL" IRC_KILL US 2 (Some 2) 0;
    mkCommand "KLINE" IRC_xLINE US 0 None 0;
    mkCommand "LINKS" IRC_LINKS US 0 (Some 2) 1;
    mkCommand "LIST" IRC_LIST US 0 (Some 2) 2;
    mkCommand "LUSERS" IRC_LUSERS US 0 (Some 2) 1;
    mkCommand "METADATA" IRC_METADATA US_S 3 (Some 3) 0;
    mkCommand "MODE" IRC_MODE US 1 None 1;
    mkCommand "MOTD" IRC_MOTD US 0 (Some 1) 3;
    mkCommand "NAMES" IRC_NAMES US 0 (Some 2) 1;
    mkCommand "NICK" IRC_NICK US_ANY 0 None 0;
    mkCommand "NJOIN" IRC_NJOIN US_S 2 (Some 2) 0;
    mkCommand "NOTICE" IRC_NOTICE US_ANY 0 None 0;
    mkCommand "OPER" IRC_OPER US_U 2 (Some 2) 0;
    mkCommand "PART" IRC_PART US 1 (Some 2) 0;
    mkCommand "PASS" IRC_PASS US_ANY 0 None 0;
    mkCommand "PING" IRC_PING US 0 None 0;
    mkCommand "PONG" IRC_PONG US_ANY 0 None 0;
    mkCommand "PRIVMSG" IRC_PRIVMSG US 0 (Some 2) 0;
    mkCommand "QUIT" IRC_QUIT US_ANY 0 (Some 1) 0;
    mkCommand "REHASH" IRC_REHASH US_U 0 (Some 0) 0;
    mkCommand "RESTART" IRC_RESTART US_U 0 (Some 0) 0;
    mkCommand "SERVER" IRC_SERVER US_ANY 0 None 0;
    mkCommand "SERVICE" IRC_SERVICE US_ANY 6 (Some 6) 0;
    mkCommand "SERVLIST" IRC_SERVLIST US_U 0 (Some 2) 1;
    mkCommand "SQUERY" IRC_SQUERY US 0 (Some 2) 0;
    mkCommand "SQUIT" IRC_SQUIT US 2 (Some 2) 0;
    mkCommand "STATS" IRC_STATS US 0 (Some 2) 2;
    mkCommand "SVSNICK" IRC_SVSNICK US_S 2 (Some 2) 0;
    mkCommand "SUMMON" IRC_SUMMON US 0 None 0;
    mkCommand "TIME" IRC_TIME US 0 (Some 1) 1;
    mkCommand "TOPIC" IRC_TOPIC US 1 (Some 2) 1;
    mkCommand "TRACE" IRC_TRACE US 0 (Some 1) 3;
    mkCommand "USER" IRC_USER US_ANY 0 None 0;
    mkCommand "USERHOST" IRC_USERHOST US_U 1 None 1;
    mkCommand "USERS" IRC_USERS US 0 None 0;
    mkCommand "VERSION" IRC_VERSION US 0 (Some 1) 1;
    mkCommand "WALLOPS" IRC_WALLOPS US 1 (Some 1) 0;
    mkCommand "WEBIRC" IRC_WEBIRC US_NEW 4 (Some 5) 0;
    mkCommand "WHO" IRC_WHO US_U 0 (Some 2) 1;
    mkCommand "WHOIS" IRC_WHOIS US 0 None 1;
    mkCommand "WHOWAS" IRC_WHOWAS US 0 None 0;
    mkCommand "CHANINFO" IRC_CHANINFO US_S 0 None 0;
    mkCommand "GET" IRC_QUIT_HTTP US_NEW 0 None 0;
    mkCommand "POST" IRC_QUIT_HTTP US_NEW 0 None 0 ].

(** client_type & cmd->type *)
Definition type_in (t : ctype) (o : option (list ctype)) : bool :=
  match o with None => true | Some l => existsb (ctype_eqb t) l end.

Definition is_registered (t : ctype) : bool :=
  match t with T_USER | T_SERVER | T_SERVICE => true | _ => false end.

(** src/ngircd/parse.c:289-363 Validate_Prefix: [inl closed] is "return false", [inr r] is
    "return true" with the request as it is then.  Only failing writes set *Closed besides
    the spoofed prefix. *)
Definition Validate_Prefix (i : connid) (req : request) : M (bool + request) :=
  o <- Conn_GetClient i ;; client <- nonnull o ;;
  t <- Client_Type client ;;
  cn <- con i ;;
  match rq_prefix req with
  | None =>
      if ctype_eqb t T_SERVER && negb (co_rfc1459 cn)
         && negb (caseeq (rq_command req) (B "ERROR")) && negb (caseeq (rq_command req) (B "PING"))
      then ok <- Conn_WriteStr i "ERROR :Prefix missing" [] ;; ret (inl (negb ok))
      else ret (inr req)
  | Some p =>
      if negb (is_registered t) then ret (inr (mkReq None (rq_command req) (rq_args req)))
      else
        c <- Client_Search p ;;
        match c with
        | None =>
            if negb (ctype_eqb t T_SERVER) then
              ok <- Conn_WriteStr i "ERROR :Invalid prefix ""%s""" [aS p] ;;
              IRC_SetPenalty client 2 ;;;
              ret (inl (negb ok))
            else ret (inl false)
        | Some c =>
            nh <- Client_NextHop c ;;
            if negb (heq nh client) then
              if negb (ctype_eqb t T_SERVER)
              then Conn_Close i None (Some (B "Spoofed prefix")) true ;;; ret (inl true)
              else ret (inl false)
            else ret (inr req)
        end
  end.

(** src/ngircd/parse.c:479-488: the numeric as it is forwarded *)
Fixpoint numeric_args (l : list bytes) (str : bytes) : bytes :=
  match l with
  | [] => str
  | [a] => strlcat COMMAND_LEN (strlcat COMMAND_LEN str (B " :")) a
  | a :: r => numeric_args r (strlcat COMMAND_LEN (strlcat COMMAND_LEN str (B " ")) a)
  end.

(** src/ngircd/parse.c:417-490 Handle_Numeric *)
Definition Handle_Numeric (client : handle) (req : request) : M bool :=
  target <- (if 0 <? argc req then
               if beq (arg req 0) (B "*") then ret (Some This_Server) else Client_Search (arg req 0)
             else ret None) ;;
  match target with
  | None => ret true
  | Some target =>
      if heq target This_Server then
        let num := atoi (rq_command req) in
        if (num =? 5)%Z then IRC_Num_ISUPPORT client req
        else if (num =? 20)%Z then ret CONNECTED
        else if (num =? 376)%Z then IRC_Num_ENDOFMOTD client
        else ret true
      else
        match rq_prefix req with
        | None => ret true
        | Some p =>
            o <- Client_Search p ;;
            match o with
            | None => ret true
            | Some prefix =>
                IRC_WriteStrClientPrefix target prefix "%s"
                  [aS (numeric_args (rq_args req) (strlcpy COMMAND_LEN (rq_command req)))]
            end
        end
  end.

(** src/ngircd/parse.c:511-554: a command from the table *)
Definition run_command (client : handle) (t : ctype) (cmd : command) (req : request) : M bool :=
  if negb (type_in t (cm_types cmd)) then
    if ctype_eqb t T_USER && type_in T_SERVER (cm_types cmd)
    then IRC_WriteErrClient client ERR_NOTREGISTEREDSERVER_MSG [aID client]
    else IRC_WriteErrClient client ERR_NOTREGISTERED_MSG [aID client]
  else
    whenM (negb (cm_penalty cmd =? 0)%Z) (IRC_SetPenalty client (cm_penalty cmd)) ;;;
    if (argc req <? cm_min cmd) || match cm_max cmd with Some m => m <? argc req | None => false end
    then need_more client req
    else
      modify (set_s_wcounter 0) ;;;
      cm_fun cmd client req.

(** src/ngircd/parse.c:492-573 Handle_Request *)
Definition Handle_Request (i : connid) (req : request) : M bool :=
  o <- Conn_GetClient i ;; client <- nonnull o ;;
  t <- Client_Type client ;;
  if (ctype_eqb t T_SERVER || ctype_eqb t T_UNKNOWNSERVER)
     && (List.length (rq_command req) =? 3) && (1 <? atoi (rq_command req))%Z
  then Handle_Numeric client req
  else
    match find (fun c => caseeq (rq_command req) (B (cm_name c))) My_Commands with
    | Some cmd => run_command client t cmd req
    | None =>
        if negb (is_registered t) then ret true
        else if negb (ctype_eqb t T_SERVER)
        then IRC_WriteErrClient client ERR_UNKNOWNCOMMAND_MSG [aID client; aS (rq_command req)]
        else ret CONNECTED
    end.

(** src/ngircd/parse.c:175-268 Parse_Request; Validate_Command and Validate_Args (365-413) always
    return true. *)
Definition Parse_Request (i : connid) (text : bytes) : M bool :=
  let text := trim text in
  scrub <- cf cf_scrubctcp ;;
  if scrub && ScrubCTCP text then ret true
  else match parse_line text with
       | None => Conn_WriteStr i "ERROR :Prefix without command" []
       | Some req =>
           v <- Validate_Prefix i req ;;
           match v with
           | inl closed => ret (negb closed)
           | inr req => Handle_Request i req
           end
       end.
