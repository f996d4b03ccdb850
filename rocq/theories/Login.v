(** Model of src/ngircd/login.c, irc-login.c, irc-cap.c, client-cap.c and irc-metadata.c. *)
From Coq Require Import List Ascii String ZArith NArith Bool.
From Verif Require Import Bytes Match Lists Hash ParseReq State Messages Monad Core Write Info Chan Mode Msg.
Import ListNotations.
Local Open Scope m_scope.

(** src/ngircd/irc-macros.h:74-78 _IRC_REQUIRE_PREFIX_OR_RETURN_ *)
Definition with_prefix (client : handle) (req : request) (k : bytes -> M bool) : M bool :=
  match rq_prefix req with Some p => k p | None => need_more client req end.

(** ---------- login.c ---------- *)

(** src/ngircd/login.c:217-238 Login_Autojoin *)
Definition Login_Autojoin (client : handle) : M unit :=
  l <- cf cf_channels ;;
  mfor l (fun cc =>
    if negb (cc_autojoin cc) then ret tt
    else
      o <- Channel_Search (cc_name cc) ;;
      match o with
      | None => ret tt
      | Some _ =>
          me <- Client_ID This_Server ;;
          void (IRC_JOIN client (mkReq (Some me) (B "JOIN") [cc_name cc]))
      end).

(** src/ngircd/login.c:194-203: the default user modes *)
Definition Login_Modes (client : handle) : M unit :=
  dm <- cf cf_defusermodes ;;
  match dm with
  | [] => IRC_SetPenalty client 1
  | _ =>
      me <- Client_ID This_Server ;; id <- Client_ID client ;;
      void (IRC_MODE client (mkReq (Some me) (B "MODE") [id; firstn CLIENT_MODE_LEN ("+"%char :: dm)]))
  end.

(** src/ngircd/login.c:153-209 Login_User_PostAuth *)
Definition Login_User_PostAuth (client : handle) : M bool :=
  ok <- Class_HandleServerBans client ;;
  if negb ok then ret DISCONNECTED
  else
    Client_Introduce None client T_USER ;;;
    (IRC_WriteStrClient client RPL_WELCOME_MSG [aID client; aMask client]) >>>
    (IRC_WriteStrClient client RPL_YOURHOST_MSG
       [aID client; aID This_Server; aS PACKAGE_VERSION; aS HOST_CPU; aS HOST_VENDOR; aS HOST_OS]) >>>
    (d <- cf cf_startdate ;; IRC_WriteStrClient client RPL_CREATED_MSG [aID client; aS d]) >>>
    (IRC_WriteStrClient client RPL_MYINFO_MSG
       [aID client; aID This_Server; aS PACKAGE_VERSION; aS USERMODES; aS CHANMODES]) >>>
    (IRC_Send_ISUPPORT client) >>>
    (IRC_Send_LUSERS client) >>>
    (IRC_Show_MOTD client) >>>
    (Login_Modes client ;;; Login_Autojoin client ;;; ret CONNECTED).

(** src/ngircd/login.c:61-142 Login_User (without PAM) *)
Definition Login_User (client : handle) : M bool :=
  o <- Client_Conn client ;; i <- nonnull o ;;
  ap <- cf cf_authping ;; cn <- con i ;;
  if ap && negb (co_auth_ping cn =? 0)%Z then
    Client_SetType client T_WAITAUTHPING ;;; ret CONNECTED
  else
    c <- cli client ;;
    if cl_cap_pending c then
      Client_SetType client T_WAITCAPEND ;;; ret CONNECTED
    else
      pwd <- Conn_Password i ;; spwd <- cf cf_serverpwd ;;
      if negb (beq pwd spwd) then
        Client_Reject client (B "Bad server password") false ;;; ret DISCONNECTED
      else Login_User_PostAuth client.

(** ---------- irc-login.c ---------- *)

(** src/ngircd/irc-login.c:111-159: the flags a PASS command (RFC 2813) announces; PROTOIRCPLUS
    is "-IRC+" (defines.h:178) *)
Definition pass_flags (req : request) : bytes :=
  let a1 := arg req 1 in
  let impl := arg req 2 in
  if (4 <? List.length a1) && beq (skipn 4 a1) (B "-IRC+") then
    match strchr ":" (match strchr "|" impl with Some (_, r) => tl r | None => impl end) with
    | Some (_, r) => tl r
    | None => []
    end
  else if (4 <=? argc req) && memb "Z" (arg req 3) then B "Z" else [].

(** src/ngircd/irc-login.c:49-162 IRC_PASS *)
Definition IRC_PASS (client : handle) (req : request) : M bool :=
  c <- cli client ;;
  match cl_conn c with
  | None => IRC_WriteErrClient client ERR_UNKNOWNCOMMAND_MSG [aID client; aS (rq_command req)]
  | Some i =>
      let unk := ctype_eqb (cl_type c) T_UNKNOWN in
      let unksrv := ctype_eqb (cl_type c) T_UNKNOWNSERVER in
      if (unk && (argc req =? 1)) || ((unk || unksrv) && ((argc req =? 3) || (argc req =? 4))) then
        Conn_SetPassword i (arg req 0) ;;;
        Client_SetType client (if (2 <=? argc req) && (4 <=? List.length (arg req 1))
                               then T_GOTPASS_2813 else T_GOTPASS) ;;;
        whenM (3 <=? argc req) (Client_SetFlags client (pass_flags req)) ;;;
        ret CONNECTED
      else if unk || unksrv then need_more client req
      else IRC_WriteErrClient client ERR_ALREADYREGISTRED_MSG [aID client]
  end.

(** src/ngircd/irc-login.c:901-931 Change_Nick *)
Definition Change_Nick (origin target : handle) (new : bytes) (inform : bool) : M unit :=
  o <- Client_Conn target ;;
  opt o Conn_UpdateIdle ;;;
  (if inform then
     void (IRC_WriteStrClientPrefix target target "NICK :%s" [aS new]) ;;;
     IRC_WriteStrServersPrefix None target "NICK :%s" [aS new]
   else IRC_WriteStrServersPrefix (Some origin) target "NICK :%s" [aS new]) ;;;
  IRC_WriteStrRelatedPrefix target target false "NICK :%s" [aS new] ;;;
  Client_RegisterWhowas target ;;;
  Client_SetID target new.

(** src/ngircd/irc-login.c:231-261: NICK of a client which is not yet registered *)
Definition nick_new (client target : handle) (new : bytes) : M bool :=
  Client_SetID target new ;;;
  ap <- cf cf_authping ;;
  whenM ap
    (o <- Client_Conn client ;; i <- nonnull o ;;
     r <- gets s_rnd ;;
     upd_con i (set_co_auth_ping r) ;;;
     void (Conn_WriteStr i "PING :%ld" [aD r])) ;;;
  gu <- is_type client T_GOTUSER ;;
  if gu then Login_User client
  else Client_SetType client T_GOTNICK ;;; ret CONNECTED.

(** src/ngircd/irc-login.c:262-283: change of the nickname *)
Definition nick_change (client target : handle) (new : bytes) : M bool :=
  usr <- is_type client T_USER ;;
  op <- Client_HasMode client "o" ;;
  l <- Chans ;;
  n <- (if usr && negb op
        then mfind (fun ch => andM (Channel_HasMode ch "N") (Channel_IsMemberOf ch client)) l
        else ret None) ;;
  match n with
  | Some ch => IRC_WriteErrClient client ERR_NONICKCHANGE_MSG [aID client; aChan ch]
  | None =>
      Change_Nick client target new usr ;;;
      IRC_SetPenalty target 2 ;;;
      ret CONNECTED
  end.

(** src/ngircd/irc-login.c:215-285: NICK with one argument, after its target was found *)
Definition nick_target (client target : handle) (new : bytes) : M bool :=
  id <- Client_ID target ;;
  if beq id new then ret CONNECTED
  else
    ok <- (if negb (caseeq id new) then Client_CheckNick target new else ret true) ;;
    if negb ok then ret CONNECTED
    else
      t <- Client_Type target ;;
      match t with
      | T_USER | T_SERVICE | T_SERVER => nick_change client target new
      | _ => nick_new client target new
      end.

(** src/ngircd/irc-login.c:286-361: a server introduces a client.  argv[5] + 1 leaves an empty
    string. *)
Definition nick_introduce (client : handle) (req : request) : M bool :=
  if negb (argc req =? 2) && negb (argc req =? 7) then need_more client req
  else
    let full := argc req =? 7 in
    let nick := arg req 0 in
    let token := atoi (if full then arg req 4 else arg req 1) in
    id <- Client_ID client ;;
    o <- Client_Search nick ;;
    match o with
    | Some _ => IRC_KillClient (Some client) None nick (B "Nick collision")
    | None =>
        oi <- Client_GetFromToken client token ;;
        match oi with
        | None => IRC_KillClient (Some client) None nick (B "Unknown server")
        | Some intro =>
            if full then
              modes <- (match arg req 5 with [] => bad W_OverRead | _ :: m => ret m end) ;;
              c <- Client_NewRemoteUser intro nick (atoi (arg req 1)) (arg req 2) (arg req 3) token modes
                     (arg req 6) true ;;
              Client_Introduce (Some client) c T_USER ;;; ret CONNECTED
            else
              c <- Client_NewRemoteUser intro nick 1 nick id token [] nick true ;;
              Client_SetType c T_GOTNICK ;;; ret CONNECTED
        end
    end.

(** src/ngircd/irc-login.c:171-366 IRC_NICK *)
Definition IRC_NICK (client : handle) (req : request) : M bool :=
  t <- Client_Type client ;;
  let one (k : M bool) : M bool := if argc req =? 1 then k else need_more client req in
  let self : M bool :=
    r <- Client_HasMode client "r" ;;
    if r then IRC_WriteErrClient client ERR_RESTRICTED_MSG [aID client]
    else nick_target client client (arg req 0) in
  match t with
  | T_UNKNOWN | T_GOTPASS | T_GOTNICK | T_GOTUSER | T_USER | T_SERVICE => one self
  | T_SERVER =>
      if argc req =? 1 then
        with_prefix client req (fun p =>
          o <- Client_Search p ;;
          match o with
          | None => no_sender client (arg req 0)
          | Some target => nick_target client target (arg req 0)
          end)
      else nick_introduce client req
  | _ => IRC_WriteErrClient client ERR_ALREADYREGISTRED_MSG [aID client]
  end.

(** src/ngircd/irc-login.c:375-411 IRC_SVSNICK *)
Definition IRC_SVSNICK (client : handle) (req : request) : M bool :=
  with_prefix client req (fun p =>
    o <- Client_Search p ;;
    let from := match o with Some f => f | None => client end in
    ot <- Client_Search (arg req 0) ;;
    ok <- (match ot with Some t => is_type t T_USER | None => ret false end) ;;
    match ok, ot with
    | true, Some target =>
        oc <- Client_Conn target ;;
        match oc with
        | None =>
            nh <- Client_NextHop target ;;
            IRC_WriteStrClientPrefix nh from "SVSNICK %s %s" [aS (arg req 0); aS (arg req 1)]
        | Some _ =>
            ok <- Client_CheckNick from (arg req 1) ;;
            if negb ok then ret CONNECTED
            else Change_Nick from target (arg req 1) true ;;; ret CONNECTED
        end
    | _, _ => no_sender client (arg req 0)
    end).

(** isalnum(3) in the "C" locale *)
Definition isalnum (c : ascii) : bool :=
  let n := N_of_ascii c in
  (isdigit c || ((65 <=? n) && (n <=? 90)) || ((97 <=? n) && (n <=? 122)))%N.
(** src/ngircd/irc-login.c:438-450 *)
Definition userchar_ok (c : ascii) : bool := isalnum c || memb c (B "+-@._").

(** src/ngircd/irc-login.c:420-518 IRC_USER *)
Definition IRC_USER (client : handle) (req : request) : M bool :=
  t <- Client_Type client ;;
  match t with
  | T_GOTNICK | T_UNKNOWN | T_GOTPASS =>
      if negb (argc req =? 4) then need_more client req
      else if negb (forallb userchar_ok (arg req 0)) then
        o <- Client_Conn client ;; i <- nonnull o ;;
        Conn_Close i None (Some (B "Invalid user name")) true ;;; ret DISCONNECTED
      else
        Client_SetUser client (fst (split1 "@" (arg req 0))) false ;;;
        Client_SetInfo client (match arg req 3 with [] => B "-" | x => x end) ;;;
        if ctype_eqb t T_GOTNICK then Login_User client
        else Client_SetType client T_GOTUSER ;;; ret CONNECTED
  | T_SERVER | T_SERVICE =>
      if negb (argc req =? 4) then need_more client req
      else with_prefix client req (fun p =>
        o <- Client_Search p ;;
        match o with
        | None => no_sender client p
        | Some c =>
            Client_SetUser c (arg req 0) true ;;;
            Client_SetHostname c (arg req 1) ;;;
            Client_SetInfo c (arg req 3) ;;;
            g <- is_type c T_GOTNICK ;;
            whenM g (Client_Introduce (Some client) c T_USER) ;;;
            ret CONNECTED
        end)
  | T_USER => IRC_WriteErrClient client ERR_ALREADYREGISTRED_MSG [aID client]
  | _ => IRC_WriteErrClient client ERR_NOTREGISTERED_MSG [aID client]
  end.

(** src/ngircd/irc-login.c:531-609 IRC_SERVICE *)
Definition IRC_SERVICE (client : handle) (req : request) : M bool :=
  t <- Client_Type client ;;
  match t with
  | T_GOTPASS => IRC_WriteErrClient client ERR_ERRONEUSNICKNAME_MSG [aID client; aS (arg req 0)]
  | T_SERVER =>
      let nick := arg req 0 in
      let token := atoi (arg req 1) in
      o <- Client_Search nick ;;
      match o with
      | Some _ => IRC_KillClient (Some client) None nick (B "Nick collision")
      | None =>
          oi <- Client_GetFromToken client token ;;
          match oi with
          | None => IRC_KillClient (Some client) None nick (B "Unknown server")
          | Some intro =>
              let '(nick, host) := split1 "@" nick in
              ihost <- Client_Hostname intro ;;
              let host := match host with Some h => h | None => ihost end in
              let '(nick, user) := split1 "!" nick in
              let user := match user with Some u => u | None => nick end in
              let modes := match arg req 3 with m :: r => if Ascii.eqb m "+" then r else [] | [] => [] end in
              c <- Client_NewRemoteUser intro nick (atoi (arg req 4)) user host token modes (arg req 5) true ;;
              Client_Introduce (Some client) c T_SERVICE ;;; ret CONNECTED
          end
      end
  | _ => IRC_WriteErrClient client ERR_ALREADYREGISTRED_MSG [aID client]
  end.

(** src/ngircd/irc-login.c:618-637 IRC_WEBIRC *)
Definition IRC_WEBIRC (client : handle) (req : request) : M bool :=
  pw <- cf cf_webircpwd ;;
  if beq pw [] || negb (beq (arg req 0) pw) then IRC_WriteErrClient client ERR_PASSWDMISMATCH_MSG [aID client]
  else
    dns <- cf cf_dns ;;
    Client_SetUser client (arg req 1) true ;;;
    Client_SetHostname client (if dns then arg req 2 else arg req 3) ;;;
    Client_SetIPAText client (arg req 3) ;;;
    ret CONNECTED.

(** src/ngircd/irc-login.c:679-685: the quit message of a user, in quotation marks *)
Definition quit_quote (m : bytes) : bytes :=
  let q := strlcpy COMMAND_LEN m in
  if Ascii.eqb (hd0 q) """" then q
  else strlcat COMMAND_LEN (strlcat (COMMAND_LEN - 1) (B """") m) (B """").

(** src/ngircd/irc-login.c:646-693 IRC_QUIT *)
Definition IRC_QUIT (client : handle) (req : request) : M bool :=
  let why := B "Got QUIT command" in
  let close (h : handle) (m : option bytes) : M bool :=
    o <- Client_Conn h ;; i <- nonnull o ;; Conn_Close i (Some why) m true ;;; ret DISCONNECTED in
  srv <- is_type client T_SERVER ;;
  if srv then
    let msg := if argc req =? 1 then Some (strlcpy COMMAND_LEN (arg req 0)) else None in
    with_prefix client req (fun p =>
      o <- Client_Search p ;;
      match o with
      | None => ret CONNECTED
      | Some target =>
          if negb (heq target client) then Client_Destroy target (Some why) msg true ;;; ret CONNECTED
          else close client msg
      end)
  else close client (if argc req =? 1 then Some (quit_quote (arg req 0)) else None).

(** src/ngircd/irc-login.c:707-713 IRC_QUIT_HTTP *)
Definition IRC_QUIT_HTTP (client : handle) (req : request) : M bool :=
  IRC_QUIT client (mkReq (rq_prefix req) (rq_command req) [B "Oops, HTTP request received? This is IRC!"]).

(** src/ngircd/irc-login.c:724-789 IRC_PING *)
Definition IRC_PING (client : handle) (req : request) : M bool :=
  let nosrv (t : bytes) : M bool := IRC_WriteErrClient client ERR_NOSUCHSERVER_MSG [aID client; aS t] in
  let pre := match rq_prefix req with Some p => p | None => [] end in
  if argc req <? 1 then IRC_WriteErrClient client ERR_NOORIGIN_MSG [aID client]
  else
    srv <- is_type client T_SERVER ;;
    let pong : M bool :=
      o <- (if srv then match rq_prefix req with Some p => Client_Search p | None => ret (Some client) end
            else ret (Some This_Server)) ;;
      match o with
      | None => nosrv pre
      | Some from => IRC_WriteStrClient client "PONG %s :%s" [aID from; aS (arg req 0)]
      end in
    if 1 <? argc req then
      o <- Client_Search (arg req 1) ;;
      ok <- (match o with Some t => is_type t T_SERVER | None => ret false end) ;;
      match ok, o with
      | true, Some target =>
          if heq target This_Server then pong
          else if srv then
            with_prefix client req (fun p =>
              of <- Client_Search p ;;
              match of with
              | None => nosrv p
              | Some from => IRC_WriteStrClientPrefix target from "PING %s :%s" [aS (arg req 0); aS (arg req 1)]
              end)
          else IRC_WriteStrClientPrefix target client "PING %s :%s" [aS (arg req 0); aS (arg req 1)]
      | _, _ => nosrv (arg req 1)
      end
    else pong.

(** src/ngircd/irc-login.c:853-891: a PONG for this server.  The result of Login_User is ignored
    and the client is used again afterwards (line 873). *)
Definition pong_here (client : handle) (req : request) : M bool :=
  o <- Client_Conn client ;; i <- nonnull o ;;
  cn <- con i ;;
  let ap := co_auth_ping cn in
  ok <- (if negb (ap =? 0)%Z then
           if (ap =? atol (arg req 0))%Z then
             upd_con i (set_co_auth_ping 0) ;;;
             w <- is_type client T_WAITAUTHPING ;;
             whenM w (void (Login_User client)) ;;;
             ret true
           else IRC_WriteStrClient client "NOTICE %s :To connect, type /QUOTE PONG %ld" [aID client; aD ap]
         else ret true) ;;
  if negb ok then ret DISCONNECTED
  else
    void (Client_Type client) ;;;
    Conn_UpdatePing i 1 ;;;
    ret CONNECTED.

(** src/ngircd/irc-login.c:798-892 IRC_PONG *)
Definition IRC_PONG (client : handle) (req : request) : M bool :=
  t <- Client_Type client ;;
  let nosrv (x : bytes) : M bool := IRC_WriteErrClient client ERR_NOSUCHSERVER_MSG [aID client; aS x] in
  if argc req <? 1 then
    if ctype_eqb t T_USER then IRC_WriteErrClient client ERR_NOORIGIN_MSG [aID client] else ret CONNECTED
  else if ctype_eqb t T_USER && (2 <? argc req) then need_more client req
  else if (argc req =? 2) && ctype_eqb t T_SERVER then
    with_prefix client req (fun p =>
      o <- Client_Search (arg req 0) ;;
      match o with
      | None => nosrv (arg req 0)
      | Some target =>
          of <- Client_Search p ;;
          if heq target This_Server || oheq of target then pong_here client req
          else match of with
               | None => nosrv p
               | Some from =>
                   nh <- Client_NextHop target ;;
                   b <- is_type nh T_SERVER ;;
                   s <- (if b then ret (arg req 0) else Client_ID from) ;;
                   IRC_WriteStrClientPrefix target from "PONG %s :%s" [aS s; aS (arg req 1)]
               end
      end)
  else pong_here client req.

(** ---------- irc-cap.c ---------- *)

(** src/ngircd/irc-cap.c:41-49 Set_CAP_Negotiation; CLIENT_CAP_SUPPORTED is never read *)
Definition Set_CAP_Negotiation (client : handle) : M unit :=
  u <- is_type client T_USER ;;
  whenM (negb u) (upd_cli client (set_cl_cap_pending true)).

(** src/ngircd/irc-cap.c:57-87 Parse_CAP: only "multi-prefix" is known; None: error *)
Fixpoint parse_cap (l : list bytes) (multi : bool) : option bool :=
  match l with
  | [] => Some multi
  | t :: r =>
      if beq t (B "-multi-prefix") then parse_cap r false
      else if beq t (B "multi-prefix") then parse_cap r true
      else None
  end.
(** src/ngircd/irc-cap.c:98-109 Get_CAP_String *)
Definition Get_CAP_String (multi : bool) : bytes := if multi then B "multi-prefix " else [].

(** src/ngircd/irc-cap.c:118-128 Handle_CAP_LS *)
Definition Handle_CAP_LS (client : handle) : M bool :=
  Set_CAP_Negotiation client ;;;
  IRC_WriteStrClient client "CAP %s LS :multi-prefix" [aID client].
(** src/ngircd/irc-cap.c:137-144 Handle_CAP_LIST *)
Definition Handle_CAP_LIST (client : handle) : M bool :=
  c <- cli client ;;
  IRC_WriteStrClient client "CAP %s LIST :%s" [aID client; aS (Get_CAP_String (cl_cap_multi c))].
(** src/ngircd/irc-cap.c:153-172 Handle_CAP_REQ *)
Definition Handle_CAP_REQ (client : handle) (a : bytes) : M bool :=
  Set_CAP_Negotiation client ;;;
  c <- cli client ;;
  match parse_cap (strtok " " (strlcpy COMMAND_LEN a)) (cl_cap_multi c) with
  | None => IRC_WriteStrClient client "CAP %s NAK :%s" [aID client; aS a]
  | Some m =>
      upd_cli client (set_cl_cap_multi m) ;;;
      IRC_WriteStrClient client "CAP %s ACK :%s" [aID client; aS a]
  end.
(** src/ngircd/irc-cap.c:196-209 Handle_CAP_CLEAR *)
Definition Handle_CAP_CLEAR (client : handle) : M bool :=
  c <- cli client ;;
  upd_cli client (set_cl_cap_multi false) ;;;
  IRC_WriteStrClient client "CAP %s ACK :%s" [aID client; aS (Get_CAP_String (cl_cap_multi c))].
(** src/ngircd/irc-cap.c:217-233 Handle_CAP_END *)
Definition Handle_CAP_END (client : handle) : M bool :=
  t <- Client_Type client ;;
  if ctype_eqb t T_USER then ret CONNECTED
  else
    upd_cli client (set_cl_cap_pending false) ;;;
    if ctype_eqb t T_WAITCAPEND then Login_User client else ret CONNECTED.

(** src/ngircd/irc-cap.c:244-274 IRC_CAP *)
Definition IRC_CAP (client : handle) (req : request) : M bool :=
  let is (s : string) : bool := caseeq (arg req 0) (B s) in
  let n := argc req in
  if (n =? 1) && is "CLEAR"%string then Handle_CAP_CLEAR client
  else if (n =? 1) && is "END"%string then Handle_CAP_END client
  else if (1 <=? n) && (n <=? 2) && is "LS"%string then Handle_CAP_LS client
  else if (1 <=? n) && (n <=? 2) && is "LIST"%string then Handle_CAP_LIST client
  else if (n =? 2) && is "REQ"%string then Handle_CAP_REQ client (arg req 1)
  else if (n =? 2) && is "ACK"%string then ret CONNECTED
  else IRC_WriteErrClient client ERR_INVALIDCAP_MSG [aID client; aS (arg req 0)].

(** ---------- irc-metadata.c ---------- *)

(** src/ngircd/irc-metadata.c:42-110 IRC_METADATA; Conn_SetCertFp does nothing without SSL *)
Definition IRC_METADATA (client : handle) (req : request) : M bool :=
  with_prefix client req (fun p =>
    o <- Client_Search p ;;
    match o with
    | None => no_sender client p
    | Some pref =>
        ot <- Client_Search (arg req 0) ;;
        match ot with
        | None => no_sender client (arg req 0)
        | Some target =>
            let key := arg req 1 in
            let value := arg req 2 in
            let is (s : string) : bool := caseeq key (B s) in
            c <- cli target ;;
            whenM (negb (memb "M" (cl_flags c)))
              (Client_SetFlags target (firstn (COMMAND_LEN - 1) (cl_flags c ++ B "M"))) ;;;
            if is "cloakhost"%string then
              Client_UpdateCloakedHostname target (Some pref) (match value with [] => None | _ => Some value end) ;;;
              c <- cli target ;;
              whenM (is_some (cl_conn c) && memb "x" (cl_modes c))
                (void (IRC_WriteStrClientPrefix target pref RPL_HOSTHIDDEN_MSG [aID target; aHostD target])) ;;;
              ret CONNECTED
            else
              (if negb (beq value []) && is "host"%string then
                 Client_SetHostname target value ;;;
                 c <- cli target ;;
                 whenM (is_some (cl_conn c) && negb (memb "x" (cl_modes c)))
                   (void (IRC_WriteStrClientPrefix target pref RPL_HOSTHIDDEN_MSG [aID target; aHostD target]))
               else if is "info"%string then Client_SetInfo target value
               else if negb (beq value []) && is "user"%string then Client_SetUser target value true
               else if is "accountname"%string then Client_SetAccountName target value
               else ret tt) ;;;
              IRC_WriteStrServersPrefixFlag (Some client) pref (Some "M"%char) "METADATA %s %s :%s"
                [aID target; aS key; aS value] ;;;
              ret CONNECTED
        end
    end).
