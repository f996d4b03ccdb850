(** Model of src/ngircd/irc-op.c, irc-oper.c and of the server configuration in conf.c. *)
From Coq Require Import List Ascii String ZArith NArith Bool.
From Verif Require Import Bytes Match Lists Hash ParseReq State Messages Monad Core Write Info Chan Mode Msg Login.
Import ListNotations.
Local Open Scope m_scope.

(** ---------- irc-op.c ---------- *)

(** The parts of a string between the separators (empty parts are kept). *)
Fixpoint split_on (c : ascii) (s : bytes) : list bytes :=
  match s with
  | [] => [[]]
  | x :: r =>
      if Ascii.eqb x c then [] :: split_on c r
      else match split_on c r with a :: t => (x :: a) :: t | [] => [[x]] end
  end.

(** src/ngircd/irc-op.c:35-47 try_kick *)
Definition try_kick (peer from : handle) (nick channel reason : bytes) : M bool :=
  o <- Client_Search nick ;;
  match o with
  | None => no_sender from nick
  | Some target => Channel_Kick peer target from channel reason ;;; ret true
  end.

(** src/ngircd/irc-op.c:58-125 IRC_KICK *)
Definition IRC_KICK (client : handle) (req : request) : M bool :=
  with_sender client req (fun from =>
    let chans := split_on "," (arg req 0) in
    let nicks := split_on "," (arg req 1) in
    id <- Client_ID from ;;
    let reason := if argc req =? 3 then arg req 2 else id in
    match chans with
    | [ch] => mall nicks (fun n => try_kick client from n ch reason)
    | _ =>
        if List.length chans =? List.length nicks
        then mall (combine nicks chans) (fun p => try_kick client from (fst p) (snd p) reason)
        else need_more client req
    end).

(** src/ngircd/irc-op.c:161-206: the checks on an existing channel.  [Some b]: return b. *)
Definition invite_check (client from target : handle) (req : request) (ch : chandle) : M (option bool) :=
  let err (m : M bool) : M (option bool) := b <- m ;; ret (Some b) in
  mem <- Channel_IsMemberOf ch from ;;
  if negb mem then err (IRC_WriteErrClient from ERR_NOTONCHANNEL_MSG [aID client; aS (arg req 1)])
  else
    v <- Channel_HasMode ch "V" ;;
    if v then err (IRC_WriteErrClient from ERR_NOINVITE_MSG [aID from; aChan ch])
    else
      i <- Channel_HasMode ch "i" ;;
      priv <- (if i then orM (Channel_UserHasMode ch from "q") (orM (Channel_UserHasMode ch from "a")
                        (orM (Channel_UserHasMode ch from "o") (Channel_UserHasMode ch from "h")))
               else ret true) ;;
      if negb priv then err (IRC_WriteErrClient from ERR_CHANOPRIVSNEEDED_MSG [aID from; aChan ch])
      else
        tm <- Channel_IsMemberOf ch target ;;
        if tm then err (IRC_WriteErrClient from ERR_USERONCHANNEL_MSG [aID from; aS (arg req 0); aS (arg req 1)])
        else
          b <- Check_Bans ch target ;;
          whenM (i || b)
            (mask <- Client_MaskCloaked target ;; who <- Client_ID from ;;
             Channel_AddInvite ch mask true who) ;;;
          ret None.

(** src/ngircd/irc-op.c:134-236 IRC_INVITE *)
Definition IRC_INVITE (client : handle) (req : request) : M bool :=
  with_sender client req (fun from =>
    let nick := arg req 0 in
    let name := arg req 1 in
    o <- Client_Search nick ;;
    ok <- (match o with Some t => is_type t T_USER | None => ret false end) ;;
    match ok, o with
    | true, Some target =>
        tc <- Client_Conn target ;;
        if Ascii.eqb (hd0 name) "&" && negb (is_some tc) then
          IRC_WriteErrClient from ERR_USERNOTONSERV_MSG [aID client; aS nick]
        else
          oc <- Channel_Search name ;;
          r <- (match oc with Some ch => invite_check client from target req ch | None => ret None end) ;;
          match r with
          | Some b => ret b
          | None =>
              let colon := if memb " " name then B ":" else [] in
              void (IRC_WriteStrClientPrefix target from "INVITE %s %s%s" [aS nick; aS colon; aS name]) ;;;
              if is_some tc then
                (IRC_WriteStrClient from RPL_INVITING_MSG [aID from; aS nick; aS colon; aS name]) >>>
                (t <- cli target ;;
                 whenB (memb "a" (cl_modes t))
                   (IRC_WriteStrClient from RPL_AWAY_MSG
                      [aID from; aID target; aS (match cl_away t with Some x => x | None => B "(null)" end)]))
              else ret CONNECTED
          end
    | _, _ => IRC_WriteErrClient from ERR_NOSUCHNICK_MSG [aID client; aS nick]
    end).

(** ---------- conf.c: configured servers ---------- *)

(** Conf_Server[] is an array of MAX_SERVERS entries; unused ones have an empty name. *)
Definition sv_named (name : bytes) (sv : cserver) : bool := caseeq (sv_name sv) name.
Definition find_server (f : cserver -> bool) : M (option nat) := gets (fun s => find_idx f (s_servers s)).

(** src/ngircd/conf.c:565-582 Conf_SetServer *)
Definition Conf_SetServer (n : nat) (i : connid) : M bool :=
  sv <- sv_at n ;;
  if match sv_conn sv with Some j => negb (Nat.eqb j i) | None => false end then
    Conn_Close i None (Some (B "Server configuration already in use")) true ;;; ret false
  else upd_sv n (set_sv_conn (Some i)) ;;; ret true.

(** src/ngircd/conf.c:606-621 Conf_EnableServer *)
Definition Conf_EnableServer (name : bytes) (port : Z) : M bool :=
  o <- find_server (sv_named name) ;;
  match o with
  | None => ret false
  | Some n =>
      upd_sv n (fun sv => set_sv_disabled false (set_sv_port port sv)) ;;;
      sv <- sv_at n ;; ret (negb (port =? 0)%Z && negb (beq (sv_host sv) []))
  end.
(** src/ngircd/conf.c:632-648 Conf_EnablePassiveServer *)
Definition Conf_EnablePassiveServer (name : bytes) : M bool :=
  o <- find_server (fun sv => sv_named name sv && (0 <? sv_port sv)%Z) ;;
  match o with
  | None => ret false
  | Some n => upd_sv n (fun sv => set_sv_lasttry 0 (set_sv_disabled false sv)) ;;; ret true
  end.
(** src/ngircd/conf.c:656-674 Conf_DisableServer *)
Definition Conf_DisableServer (name : bytes) : M bool :=
  o <- find_server (sv_named name) ;;
  match o with
  | None => ret false
  | Some n =>
      upd_sv n (set_sv_disabled true) ;;;
      sv <- sv_at n ;;
      opt (sv_conn sv) (fun i => Conn_Close i None (Some (B "Server link terminated on operator request")) true) ;;;
      ret true
  end.
(** src/ngircd/conf.c:686-713 Conf_AddServer; HOST_LEN 256, CLIENT_ID_LEN and CLIENT_PASS_LEN are
    the sizes of the fields (conf.h:42-45); lasttry (2384) is simplified to 0. *)
Definition Conf_AddServer (name : bytes) (port : Z) (host mypwd peerpwd : bytes) : M bool :=
  o <- find_server (fun sv => beq (sv_name sv) []) ;;
  match o with
  | None => ret false
  | Some n =>
      upd_sv n (fun _ => set_sv_once true (set_sv_port port (set_sv_pwd_in (strlcpy CLIENT_PASS_LEN peerpwd)
        (set_sv_pwd_out (strlcpy CLIENT_PASS_LEN mypwd) (set_sv_host (strlcpy 256 host)
        (set_sv_name (strlcpy CLIENT_ID_LEN name) new_cserver)))))) ;;;
      ret true
  end.

(** ---------- irc-oper.c ---------- *)

(** src/ngircd/irc-oper.c:47-56 Bad_OperPass *)
Definition Bad_OperPass (client : handle) (token msg : bytes) : M bool :=
  Log_snotice "Got invalid OPER from ""%s"": ""%s"" -- %s!" [aMask client; aS token; aS msg] ;;;
  IRC_SetPenalty client 10 ;;;
  IRC_WriteStrClient client ERR_PASSWDMISMATCH_MSG [aID client].

(** src/ngircd/irc-oper.c:65-101 IRC_OPER *)
Definition IRC_OPER (client : handle) (req : request) : M bool :=
  l <- cf cf_opers ;;
  match find (fun op => beq (op_name op) (arg req 0)) l with
  | None => Bad_OperPass client (arg req 0) (B "not configured")
  | Some op =>
      if negb (beq (op_pwd op) (arg req 1)) then Bad_OperPass client (op_name op) (B "bad password")
      else
        mask <- Client_Mask client ;;
        if match op_mask op with Some m => negb (Match m mask) | None => false end then
          Bad_OperPass client (match op_mask op with Some m => m | None => [] end) (B "hostmask check failed")
        else
          o <- Client_HasMode client "o" ;;
          (if negb o then
             void (Client_ModeAdd client "o") ;;;
             (IRC_WriteStrClient client "MODE %s :+o" [aID client]) >>>
             (IRC_WriteStrServersPrefix None client "MODE %s :+o" [aID client] ;;; ret true)
           else ret true) >>>
          (Log_snotice "Got valid OPER for ""%s"" from ""%s"", user is an IRC operator now."
             [aS (arg req 0); aMask client] ;;;
           IRC_WriteStrClient client RPL_YOUREOPER_MSG [aID client])
  end.

(** if (!Op_Check(Client, Req)) return Op_NoPrivileges(Client, Req); *)
Definition oper_only (client : handle) (req : request) (k : M bool) : M bool :=
  o <- Op_Check client req ;;
  match o with None => Op_NoPrivileges client req | Some _ => k end.

(** src/ngircd/irc-oper.c:110-141 IRC_DIE *)
Definition IRC_DIE (client : handle) (req : request) : M bool :=
  oper_only client req
    (whenM (0 <? argc req)
       (l <- Conn_All ;;
        mfor l (fun i =>
          o <- Conn_GetClient i ;; h <- nonnull o ;;
          u <- is_type h T_USER ;;
          whenM u (void (IRC_WriteStrClient h "NOTICE %s :%s" [aID h; aS (arg req 0)])))) ;;;
     Log_snotice "Got DIE command from ""%s"" ..." [aMask client] ;;;
     modify (set_s_sigquit true) ;;;
     ret CONNECTED).

(** src/ngircd/irc-oper.c:150-168 IRC_REHASH; raise(SIGHUP) only notes the signal *)
Definition IRC_REHASH (client : handle) (req : request) : M bool :=
  oper_only client req
    (Log_snotice "Got REHASH command from ""%s"" ..." [aMask client] ;;;
     void (IRC_WriteStrClient client RPL_REHASHING_MSG [aID client]) ;;;
     modify (set_s_sigrehash true) ;;;
     ret CONNECTED).

(** src/ngircd/irc-oper.c:177-193 IRC_RESTART *)
Definition IRC_RESTART (client : handle) (req : request) : M bool :=
  oper_only client req
    (Log_snotice "Got RESTART command from ""%s"" ..." [aMask client] ;;;
     modify (set_s_sigrestart true) ;;;
     ret CONNECTED).

(** src/ngircd/irc-oper.c:225-255: who sent this CONNECT, and which server has to handle it.
    [inl b]: return b. *)
Definition connect_target (client : handle) (req : request) : M (bool + handle * handle) :=
  if (argc req =? 3) || (argc req =? 6) then
    srv <- is_type client T_SERVER ;;
    of <- (if srv then match rq_prefix req with Some p => Client_Search p | None => ret (Some client) end
           else ret (Some client)) ;;
    match of with
    | None => b <- no_sender client (match rq_prefix req with Some p => p | None => [] end) ;; ret (inl b)
    | Some from =>
        ot <- Client_Search (arg req (if argc req =? 3 then 2 else 5)) ;;
        ok <- (match ot with Some t => is_type t T_SERVER | None => ret false end) ;;
        match ok, ot with
        | true, Some target => ret (inr (from, target))
        | _, _ => b <- IRC_WriteErrClient from ERR_NOSUCHSERVER_MSG [aID from; aS (arg req 0)] ;; ret (inl b)
        end
    end
  else ret (inr (client, This_Server)).

(** (UINT16)atoi(...) *)
Definition uint16 (s : bytes) : Z := (atoi s mod 65536)%Z.

(** src/ngircd/irc-oper.c:202-294 IRC_CONNECT *)
Definition IRC_CONNECT (client : handle) (req : request) : M bool :=
  let n := argc req in
  if negb ((n =? 1) || (n =? 2) || (n =? 3) || (n =? 5) || (n =? 6)) then need_more client req
  else if (1 <? n) && (atoi (arg req 1) <? 1)%Z then need_more client req
  else
    c <- cli client ;;
    if negb (ctype_eqb (cl_type c) T_SERVER) && negb (memb "o" (cl_modes c)) then Op_NoPrivileges client req
    else
      r <- connect_target client req ;;
      match r with
      | inl b => ret b
      | inr (from, target) =>
          if negb (heq target This_Server) then
            (if n =? 3 then
               void (IRC_WriteStrClientPrefix target from "CONNECT %s %s :%s"
                       [aS (arg req 0); aS (arg req 1); aS (arg req 2)])
             else
               void (IRC_WriteStrClientPrefix target from "CONNECT %s %s %s %s %s :%s"
                       [aS (arg req 0); aS (arg req 1); aS (arg req 2); aS (arg req 3); aS (arg req 4); aS (arg req 5)])) ;;;
            ret CONNECTED
          else
            o <- Op_Check from req ;;
            match o with
            | None => Op_NoPrivileges client req
            | Some _ =>
                ok <- (if n =? 1 then Conf_EnablePassiveServer (arg req 0)
                       else if (n =? 2) || (n =? 3) then Conf_EnableServer (arg req 0) (uint16 (arg req 1))
                       else Conf_AddServer (arg req 0) (uint16 (arg req 1)) (arg req 2) (arg req 3) (arg req 4)) ;;
                if negb ok then IRC_WriteErrClient from ERR_NOSUCHSERVER_MSG [aID from; aS (arg req 0)]
                else
                  Log_snotice "Got CONNECT command from ""%s"" for ""%s""." [aMask from; aS (arg req 0)] ;;;
                  IRC_SendWallops This_Server This_Server "Received CONNECT %s from %s" [aS (arg req 0); aID from] ;;;
                  ret CONNECTED
            end
      end.

(** src/ngircd/irc-oper.c:306-338 IRC_DISCONNECT *)
Definition IRC_DISCONNECT (client : handle) (req : request) : M bool :=
  oper_only client req
    (IRC_SendWallops This_Server This_Server "Received DISCONNECT %s from %s" [aS (arg req 0); aID client] ;;;
     Log_snotice "Got DISCONNECT command from ""%s"" for ""%s""." [aMask client; aS (arg req 0)] ;;;
     o <- Client_Conn client ;; my <- nonnull o ;;
     ok <- Conf_DisableServer (arg req 0) ;;
     if negb ok then IRC_WriteErrClient client ERR_NOSUCHSERVER_MSG [aID client; aS (arg req 0)]
     else c <- Conn_GetClient my ;; ret (is_some c)).

(** src/ngircd/irc-oper.c:347-375 IRC_WALLOPS *)
Definition IRC_WALLOPS (client : handle) (req : request) : M bool :=
  t <- Client_Type client ;;
  let go (from : handle) : M bool := IRC_SendWallops client from "%s" [aS (arg req 0)] ;;; ret CONNECTED in
  match t with
  | T_USER => oper_only client req (go client)
  | T_SERVER =>
      with_prefix client req (fun p =>
        o <- Client_Search p ;;
        match o with Some from => go from | None => no_sender client p end)
  | _ => ret CONNECTED
  end.

(** src/ngircd/irc-oper.c:414-428 *)
Definition xline_class (command : bytes) : option class :=
  let c := tolower (hd0 command) in
  if Ascii.eqb c "g" then Some CLASS_GLINE else if Ascii.eqb c "k" then Some CLASS_KLINE else None.
Definition class_char (c : class) : ascii := match c with CLASS_GLINE => "G"%char | CLASS_KLINE => "K"%char end.
Definition is_gline (c : class) : bool := match c with CLASS_GLINE => true | CLASS_KLINE => false end.

(** src/ngircd/irc-oper.c:463-475: disconnect the clients the new line matches.  The loop reads
    the next client before it kills the current one. *)
Definition xline_kill (client : handle) (cls : class) (reason : bytes) : M unit :=
  l <- Clients ;;
  mfor l (fun c =>
    o <- Client_Conn c ;;
    hit <- (if is_gline cls || is_some o
            then r <- Check_List (class_list cls) (set_class cls) c ;; ret (is_some r) else ret false) ;;
    whenM hit (id <- Client_ID c ;; void (IRC_KillClient (Some client) None id reason))).

(** src/ngircd/irc-oper.c:384-480 IRC_xLINE *)
Definition IRC_xLINE (client : handle) (req : request) : M bool :=
  if negb (argc req =? 1) && negb (argc req =? 3) then need_more client req
  else
    aro <- cf cf_allowremoteoper ;; srv <- is_type client T_SERVER ;;
    o <- (if negb aro && srv then ret None else Op_Check client req) ;;
    match o with
    | None => Op_NoPrivileges client req
    | Some from =>
        match xline_class (rq_command req) with
        | None => ret CONNECTED
        | Some cls =>
            let mask := arg req 0 in
            if argc req =? 1 then
              Class_DeleteMask cls mask ;;;
              Log_snotice """%s"" deleted ""%s"" from %c-Line list." [aMask from; aS mask; aC (class_char cls)] ;;;
              whenM (is_gline cls)
                (IRC_WriteStrServersPrefix (Some client) from "%s %s" [aS (rq_command req); aS mask]) ;;;
              ret CONNECTED
            else
              t <- now ;;
              let timeout := atol (arg req 1) in
              let timeout := if (0 <? timeout)%Z then (timeout + t)%Z else timeout in
              Class_AddMask cls mask timeout (arg req 2) ;;;
              fs <- is_type from T_SERVER ;;
              whenM (negb fs)
                (Log_snotice """%s"" added ""%s"" to %c-Line list: ""%s"" (%ld seconds)."
                   [aMask from; aS mask; aC (class_char cls); aS (arg req 2); aD (atol (arg req 1))]) ;;;
              whenM (is_gline cls)
                (IRC_WriteStrServersPrefix (Some client) from "%s %s %s :%s"
                   [aS (rq_command req); aS mask; aS (arg req 1); aS (arg req 2)]) ;;;
              reason <- line "%c-Line by ""%s"": ""%s""" [aC (class_char cls); aID from; aS (arg req 2)] ;;
              xline_kill client cls reason ;;;
              ret CONNECTED
        end
    end.
