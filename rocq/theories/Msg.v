(** Model of src/ngircd/irc.c: ERROR, KILL, NOTICE, PRIVMSG, SQUERY, TRACE, HELP. *)
From Coq Require Import List Ascii String ZArith NArith Bool.
From Verif Require Import Bytes Match Lists Hash ParseReq State Messages Monad Core Write Info.
Import ListNotations.
Local Open Scope m_scope.

(** src/ngircd/irc.c:85-120 IRC_ERROR *)
Definition IRC_ERROR (client : handle) (req : request) : M bool :=
  t <- Client_Type client ;;
  match t with
  | T_GOTPASS | T_GOTPASS_2813 | T_UNKNOWNSERVER | T_SERVER | T_SERVICE =>
      let msg := if argc req <? 1 then B "Got ERROR command" else arg req 0 in
      o <- Client_Conn client ;;
      match o with
      | Some i => Conn_Close i None (Some msg) false ;;; ret DISCONNECTED
      | None => ret CONNECTED
      end
  | _ => IRC_SetPenalty client 2 ;;; ret CONNECTED
  end.

(** src/ngircd/irc.c:348-412 IRC_KillClient; client and from may be NULL *)
Definition IRC_KillClient (client from : option handle) (nick reason : bytes) : M bool :=
  o <- Client_Search nick ;;
  match o with
  | None => ret CONNECTED
  | Some c =>
      t <- Client_Type c ;;
      let regular := ctype_eqb t T_USER || ctype_eqb t T_GOTNICK || ctype_eqb t T_SERVICE in
      if negb regular && negb (oheq client This_Server) then
        me <- nonnull client ;;
        IRC_WriteErrClient me (if ctype_eqb t T_SERVER then ERR_CANTKILLSERVER_MSG else ERR_NOPRIVILEGES_MSG) [aID me]
      else
        IRC_WriteStrServersPrefix (match from with Some _ => client | None => None end)
          (match from with Some f => f | None => This_Server end) "KILL %s :%s" [aS nick; aS reason] ;;;
        my <- (match client with Some h => Client_Conn h | None => ret None end) ;;
        k <- Client_Conn c ;;
        (match k with
         | Some i => Conn_Close i None (Some reason) true
         | None => Client_Destroy c None (Some reason) false
         end) ;;;
        match my with
        | Some i => x <- Conn_GetClient i ;; ret (is_some x)
        | None => ret DISCONNECTED
        end
  end.

(** src/ngircd/irc.c:138-179 IRC_KILL *)
Definition IRC_KILL (client : handle) (req : request) : M bool :=
  t <- Client_Type client ;;
  allowed <- (if ctype_eqb t T_SERVER then ret true else o <- Op_Check client req ;; ret (is_some o)) ;;
  if negb allowed then Op_NoPrivileges client req
  else
    o <- (match rq_prefix req with Some p => Client_Search p | None => ret (Some client) end) ;;
    let pref := match o with Some p => p | None => This_Server end in
    whenM (negb (heq client This_Server))
      (Log_snotice "Got KILL command from ""%s"" for ""%s"": ""%s""." [aMask pref; aS (arg req 0); aS (arg req 1)]) ;;;
    reason <- (if ctype_eqb t T_USER then line "KILLed by %s: %s" [aID client; aS (arg req 1)]
               else ret (strlcpy COMMAND_LEN (arg req 1))) ;;
    IRC_KillClient (Some client) (Some pref) (arg req 0) reason.

(** ---------- PRIVMSG, NOTICE, SQUERY ---------- *)

(** src/ngircd/irc.c:620-640: the parts of a target "nick!user@host", "user%host@server" *)
Record mtarget := mkMt { mt_nick : option bytes; mt_user : bytes; mt_host : option bytes; mt_server : option bytes }.
Definition split1 (c : ascii) (s : bytes) : bytes * option bytes :=
  match strchr c s with Some (a, r) => (a, Some (tl r)) | None => (s, None) end.
Definition msg_target (t : bytes) : mtarget :=
  let '(t, server) := split1 "@" (strlcpy COMMAND_LEN t) in
  let '(t, host) := split1 "%" t in
  match split1 "!" t with
  | (nick, Some user) => mkMt (Some nick) user server server
  | (user, None) => mkMt None user host server
  end.

(** src/ngircd/irc.c:642-663: does this client have such a "nick!user@host" etc.? *)
Definition target_match (mt : mtarget) (c : handle) : M bool :=
  x <- cli c ;;
  if negb (ctype_eqb (cl_type x) T_USER) && negb (ctype_eqb (cl_type x) T_SERVICE) then ret false
  else
    let host_ok (h : bytes) : M bool := d <- Client_HostnameDisplayed c ;; ret (caseeq h d) in
    match mt_nick mt, mt_host mt with
    | Some nick, Some host =>
        andM (id <- Client_ID c ;; ret (caseeq nick id))
       (andM (u <- Client_User c ;; ret (caseeq (mt_user mt) u)) (host_ok host))
    | _, _ =>
        andM (u <- Client_User c ;; ret (caseeq (mt_user mt) u))
       (andM (match mt_host mt with Some h => host_ok h | None => ret true end)
             (match mt_server mt with
              | Some s => i <- Client_Introducer c ;; id <- Client_ID i ;; ret (caseeq s id)
              | None => ret true
              end))
    end.

(** src/ngircd/irc.c:602-664: the client a message target names *)
Definition find_target (t : bytes) : M (option handle) :=
  o <- (if memb "!" t then ret None else Client_Search t) ;;
  match o with
  | Some c => ret (Some c)
  | None => l <- Clients ;; mfind (target_match (msg_target t)) l
  end.

(** strrchr(s, '.') *)
Definition from_last_dot (s : bytes) : option bytes :=
  match strchr "." (rev s) with Some (a, _) => Some ("."%char :: rev a) | None => None end.

(** src/ngircd/irc.c:791-847 Send_Message_Mask *)
Definition Send_Message_Mask (from : handle) (command mask message : bytes) (errors : bool) : M bool :=
  op <- Client_HasMode from "o" ;;
  if negb op then
    if negb errors then ret true else IRC_WriteErrClient from ERR_NOPRIVILEGES_MSG [aID from]
  else if match from_last_dot mask with Some r => existsb (fun c => memb c (B "*?")) r | None => true end then
    if negb errors then ret true else IRC_WriteErrClient from ERR_WILDTOPLEVEL_MSG [aS mask]
  else
    assertM (Ascii.eqb (hd0 mask) "#" || Ascii.eqb (hd0 mask) "$") ;;;
    l <- Clients ;;
    mall l (fun c =>
      x <- cli c ;;
      if negb (ctype_eqb (cl_type x) T_USER) then ret true
      else
        m <- (if Ascii.eqb (hd0 mask) "#" then ret (MatchCaseInsensitive (tl mask) (cl_host x))
              else i <- Client_Introducer c ;; id <- Client_ID i ;; ret (MatchCaseInsensitive (tl mask) id)) ;;
        if m then IRC_WriteStrClientPrefix c from "%s %s :%s" [aS command; aID c; aS message] else ret true).

(** src/ngircd/irc.c:666-739: a message for a client.  [false]: return DISCONNECTED; the command
    may be changed (for all following targets, too). *)
Definition send_to_client (client from c : handle) (forcetype : ctype) (errors : bool) (command target message : bytes)
    : M (bool * bytes) :=
  ty <- Client_Type c ;;
  if negb (ctype_eqb ty forcetype)
     && negb (ctype_eqb forcetype T_USER && (ctype_eqb ty T_USER || ctype_eqb ty T_SERVICE)) then
    ok <- (if errors then IRC_WriteErrClient from ERR_NOSUCHNICK_MSG [aID from; aS target] else ret true) ;;
    ret (ok, command)
  else
    rfc1459 <- (if ctype_eqb forcetype T_SERVICE then
                  nh <- Client_NextHop c ;; o <- Client_Conn nh ;; i <- nonnull o ;; cn <- con i ;; ret (co_rfc1459 cn)
                else ret false) ;;
    let command := if rfc1459 then B "PRIVMSG" else command in
    x <- cli c ;; f <- cli from ;;
    let machine := ctype_eqb (cl_type f) T_SERVER || ctype_eqb (cl_type f) T_SERVICE in
    if memb "b" (cl_modes x) && negb (memb "R" (cl_modes f)) && negb (memb "o" (cl_modes f)) && negb machine then
      ok <- (if errors then IRC_WriteErrClient from ERR_NONONREG_MSG [aID from; aID c] else ret true) ;;
      ret (ok, command)
    else
      blocked <- (if memb "C" (cl_modes x) && negb (memb "o" (cl_modes f)) && negb machine
                  then notM (on_same_channel c from) else ret false) ;;
      if blocked then
        ok <- (if errors then IRC_WriteErrClient from ERR_NOTONSAMECHANNEL_MSG [aID from; aID c] else ret true) ;;
        ret (ok, command)
      else
        cs <- is_type client T_SERVER ;;
        ok <- (if errors && negb cs && memb "a" (cl_modes x) then
                 IRC_WriteStrClient from RPL_AWAY_MSG
                   [aID from; aID c; aS (match cl_away x with Some t => t | None => B "(null)" end)]
               else ret true) ;;
        if negb ok then ret (false, command)
        else
          opt (cl_conn f) Conn_UpdateIdle ;;;
          ok <- IRC_WriteStrClientPrefix c from "%s %s :%s" [aS command; aID c; aS message] ;;
          ret (ok, command).

(** src/ngircd/irc.c:596-759: one target.  [Some b]: return b. *)
Definition send_one (client from : handle) (forcetype : ctype) (errors : bool) (command target message : bytes)
    : M (option bool * bytes) :=
  let cont (b : bool) : option bool * bytes := (if b then None else Some DISCONNECTED, command) in
  o <- find_target target ;;
  match o with
  | Some c =>
      '(ok, command) <- send_to_client client from c forcetype errors command target message ;;
      ret (if ok then None else Some DISCONNECTED, command)
  | None =>
      let nosvc := negb (ctype_eqb forcetype T_SERVICE) in
      ch <- (if nosvc then Channel_Search target else ret None) ;;
      match ch with
      | Some ch => ok <- Channel_Write ch from client command errors message ;; ret (cont ok)
      | None =>
          if nosvc && strchr0 (hd0 target) (B "$#") && memb "." target then
            ok <- Send_Message_Mask from command target message errors ;; ret (cont ok)
          else if negb errors then ret (Some CONNECTED, command)
          else ok <- IRC_WriteErrClient from ERR_NOSUCHNICK_MSG [aID from; aS target] ;; ret (cont ok)
      end
  end.

Definition MAX_HNDL_TARGETS : nat := 25.   (* defines.h *)
(** src/ngircd/irc.c:588-774: the loop over the targets; [seen]: targets[] *)
Fixpoint send_loop (client from : handle) (forcetype : ctype) (errors : bool) (command message : bytes)
    (seen targets : list bytes) : M bool :=
  match targets with
  | [] => ret CONNECTED
  | t :: r =>
      '(x, command) <- (if existsb (caseeq t) seen then ret (None, command)
                        else send_one client from forcetype errors command t message) ;;
      match x with
      | Some b => ret b
      | None =>
          let seen := seen ++ [t] in
          match r with
          | [] => ret CONNECTED
          | nxt :: _ =>
              o <- Client_Conn client ;; i <- nonnull o ;;
              Conn_SetPenalty i 1 ;;;
              if MAX_HNDL_TARGETS <=? List.length seen then
                IRC_WriteErrClient client ERR_TOOMANYTARGETS_MSG [aS nxt]
              else send_loop client from forcetype errors command message seen r
          end
      end
  end.

(** src/ngircd/irc.c:526-777 Send_Message *)
Definition Send_Message (client : handle) (req : request) (forcetype : ctype) (errors : bool) : M bool :=
  let err (m : M bool) : M bool := if negb errors then ret CONNECTED else m in
  match argc req with
  | 0 => err (IRC_WriteErrClient client ERR_NORECIPIENT_MSG [aID client; aS (rq_command req)])
  | 1 => err (IRC_WriteErrClient client ERR_NOTEXTTOSEND_MSG [aID client])
  | 2 =>
      srv <- is_type client T_SERVER ;;
      o <- (match rq_prefix req with Some p => if srv then Client_Search p else ret (Some client) | None => ret (Some client) end) ;;
      match o with
      | None => no_sender client (match rq_prefix req with Some p => p | None => [] end)
      | Some from =>
          if beq (arg req 1) [] then err (IRC_WriteErrClient client ERR_NOTEXTTOSEND_MSG [aID client])
          else send_loop client from forcetype errors (upper (rq_command req)) (arg req 1) [] (strtok "," (arg req 0))
      end
  | _ => err (need_more client req)
  end.

Definition IRC_NOTICE (client : handle) (req : request) : M bool := Send_Message client req T_USER false.    (* irc.c:188-192 *)
Definition IRC_PRIVMSG (client : handle) (req : request) : M bool := Send_Message client req T_USER true.    (* irc.c:201-205 *)
Definition IRC_SQUERY (client : handle) (req : request) : M bool := Send_Message client req T_SERVICE true.  (* irc.c:214-218 *)

(** ---------- TRACE and HELP ---------- *)

(** src/ngircd/irc.c:227-295 IRC_TRACE; Option_String is "" without SSL and ZLIB; Conn_SendQ is
    not modelled (0) *)
Definition IRC_TRACE (client : handle) (req : request) : M bool :=
  with_sender client req (fun from =>
  with_target req 0 from (fun target =>
    if negb (heq target This_Server) then
      o <- Client_Conn client ;; nonnull o ;;;
      nh <- Client_NextHop target ;;
      o2 <- Client_Conn nh ;; i2 <- nonnull o2 ;;
      c2 <- con i2 ;; t <- now ;;
      ok <- IRC_WriteStrClient from RPL_TRACELINK_MSG
              [aID from; aS PACKAGE_NAME; aS PACKAGE_VERSION; aID target; aID nh; aS [];
               (match co_client c2 with Some h => x <- cli h ;; ret (FD (t - cl_starttime x)) | None => ret (FD t) end);
               aD 0; aD 0] ;;
      if negb ok then ret DISCONNECTED
      else void (IRC_WriteStrClientPrefix target from "TRACE %s" [aS (arg req 0)]) ;;; ret CONNECTED
    else
      l <- Clients ;;
      (mall l (fun c =>
        x <- cli c ;;
        if negb (is_some (cl_conn x)) then ret true
        else
          (whenB (ctype_eqb (cl_type x) T_SERVER)
            (u <- Client_User c ;;
             let user := strlcpy CLIENT_USER_LEN u in
             let user := if Ascii.eqb (hd0 user) "~" then B "unknown" else user in
             IRC_WriteStrClient from RPL_TRACESERVER_MSG
               [aID from; aID c; aS user; aHost c; aMask This_Server; aS []])) >>>
          (whenB (ctype_eqb (cl_type x) T_USER && memb "o" (cl_modes x))
            (IRC_WriteStrClient from RPL_TRACEOPERATOR_MSG [aID from; aID c])))) >>>
      (name <- cf cf_servername ;;
       IRC_WriteStrClient from RPL_TRACEEND_MSG
         [aID from; aS name; aS PACKAGE_NAME; aS PACKAGE_VERSION; aS NGIRCd_DebugLevel]))).

(** src/ngircd/irc.c:421-477 Help; the help text is a list of lines *)
Fixpoint help_lines (client : handle) (topic : bytes) (l : list bytes) (in_article : bool) (n : nat) : M bool :=
  let notfound := IRC_WriteStrClient client "NOTICE %s :No help for ""%s"" found!" [aID client; aS topic] in
  match l with
  | [] => notfound
  | x :: r =>
      if in_article then
        if negb (Ascii.eqb (hd0 x) TAB) then (if 0 <? n then ret CONNECTED else notfound)
        else
          (IRC_WriteStrClient client "NOTICE %s :%s"
             [aID client; aS (if beq (tl x) (B ".") then [] else tl x)]) >>>
          (help_lines client topic r true (S n))
      else
        let hit := match x with a :: b :: t => Ascii.eqb a "-" && Ascii.eqb b " " && caseeq t topic | _ => false end in
        help_lines client topic r hit n
  end.
Definition Help (client : handle) (topic : bytes) : M bool :=
  l <- cf cf_help ;; help_lines client topic l false 0.

(** src/ngircd/parse.c:55-130: the names of the commands *)
Definition Command_Names : list string :=
  ["ADMIN"; "AWAY"; "CAP"; "CONNECT"; "DIE"; "DISCONNECT"; "ERROR"; "GLINE"; "HELP"; "INFO"; "INVITE"; "ISON";
   "JOIN"; "KICK"; "KILL"; "KLINE"; "LINKS"; "LIST"; "LUSERS"; "METADATA"; "MODE"; "MOTD"; "NAMES"; "NICK";
   "NJOIN"; "NOTICE"; "OPER"; "PART"; "PASS"; "PING"; "PONG"; "PRIVMSG"; "QUIT"; "REHASH"; "RESTART"; "SERVER";
   "SERVICE"; "SERVLIST"; "SQUERY"; "SQUIT"; "STATS"; "SVSNICK"; "SUMMON"; "TIME"; "TOPIC"; "TRACE"; "USER";
   "USERHOST"; "USERS"; "VERSION"; "WALLOPS"; "WEBIRC"; "WHO"; "WHOIS"; "WHOWAS"; "CHANINFO"; "GET"; "POST"]%string.

(** src/ngircd/irc.c:304-331 IRC_HELP *)
Definition IRC_HELP (client : handle) (req : request) : M bool :=
  l <- cf cf_help ;;
  if ((argc req =? 0) && negb (match l with [] => true | _ => false end))
     || ((1 <=? argc req) && negb (caseeq (arg req 0) (B "Commands"))) then
    if 1 <=? argc req then Help client (arg req 0)
    else Help client (B "Intro")
  else
    mall Command_Names (fun n => IRC_WriteStrClient client "NOTICE %s :%s" [aID client; aS (B n)]).
