(** Model of src/ngircd/irc-macros.h, op.c, class.c, irc-info.c and of the list limit of irc.c. *)
From Coq Require Import List Ascii String ZArith NArith Bool.
From Verif Require Import Bytes Match Lists Hash ParseReq State Messages Monad Core Write.
Import ListNotations.
Local Open Scope m_scope.

(** [a >>> b]: "if (!a) return DISCONNECTED; return b". *)
Notation "a >>> b" := (andM a b) (at level 61, right associativity) : m_scope.
(** Loop left with "return DISCONNECTED" as soon as the body returns false. *)
Fixpoint mall {A} (l : list A) (f : A -> M bool) : M bool :=
  match l with
  | [] => ret true
  | a :: r => f a >>> mall r f
  end.
(** "(void)f(...)" *)
Definition void {A} (m : M A) : M unit := m ;;; ret tt.

(** src/ngircd/irc-macros.h:26-78: wrong number of parameters or missing prefix *)
Definition need_more (client : handle) (req : request) : M bool :=
  IRC_WriteErrClient client ERR_NEEDMOREPARAMS_MSG [aID client; aS (rq_command req)].

(** src/ngircd/irc-macros.h:87-98 _IRC_GET_SENDER_OR_RETURN_ *)
Definition no_sender (client : handle) (p : bytes) : M bool :=
  IRC_WriteErrClient client ERR_NOSUCHNICK_MSG [aID client; aS p].
Definition with_sender (client : handle) (req : request) (k : handle -> M bool) : M bool :=
  srv <- is_type client T_SERVER ;;
  if srv then
    match rq_prefix req with
    | None => need_more client req
    | Some p => o <- Client_Search p ;;
                match o with Some from => k from | None => no_sender client p end
    end
  else k client.

(** src/ngircd/irc-macros.h:110-121 _IRC_GET_TARGET_SERVER_OR_RETURN_ *)
Definition with_target (req : request) (n : nat) (from : handle) (k : handle -> M bool) : M bool :=
  if n <? argc req then
    o <- Client_Search (arg req n) ;;
    o <- (match o with Some t => ret (Some t) | None => Client_SearchServer (arg req n) end) ;;
    match o with
    | None => IRC_WriteErrClient from ERR_NOSUCHSERVER_MSG [aID from; aS (arg req n)]
    | Some t =>
        srv <- is_type t T_SERVER ;;
        if srv then k t else i <- Client_Introducer t ;; k i
    end
  else k This_Server.

(** src/ngircd/irc.c:59-76 IRC_CheckListTooBig *)
Definition IRC_CheckListTooBig (from : handle) (count limit : Z) (name : bytes) : M bool :=
  assertM (0 <? limit)%Z ;;;
  if (count <? limit)%Z then ret false
  else
    void (IRC_WriteStrClient from "NOTICE %s :%s list limit (%d) reached!" [aID from; aS name; aD limit]) ;;;
    IRC_SetPenalty from 2 ;;;
    ret true.

(** ---------- op.c ---------- *)

(** src/ngircd/op.c:34-55 Op_NoPrivileges *)
Definition Op_NoPrivileges (client : handle) (req : request) : M bool :=
  from <- (match rq_prefix req with Some p => Client_Search p | None => ret None end) ;;
  match from with
  | Some f =>
      Log_snotice "No privileges: client ""%s"" (%s), command ""%s""!"
        [aS (match rq_prefix req with Some p => p | None => [] end); aMask client; aS (rq_command req)] ;;;
      IRC_WriteErrClient f ERR_NOPRIVILEGES_MSG [aID f]
  | None =>
      Log_snotice "No privileges: client ""%s"", command ""%s""!" [aMask client; aS (rq_command req)] ;;;
      IRC_WriteErrClient client ERR_NOPRIVILEGES_MSG [aID client]
  end.

(** src/ngircd/op.c:66-92 Op_Check *)
Definition Op_Check (client : handle) (req : request) : M (option handle) :=
  srv <- is_type client T_SERVER ;;
  o <- (match rq_prefix req with
        | Some p => if srv then Client_Search p else ret (Some client)
        | None => ret (Some client)
        end) ;;
  match o with
  | None => ret None
  | Some c =>
      csrv <- is_type c T_SERVER ;;
      if srv && csrv then ret (Some c)
      else
        op <- Client_HasMode c "o" ;;
        if negb op then ret None
        else
          i <- Client_Conn c ;; rem <- cf cf_allowremoteoper ;;
          if negb (is_some i) && negb rem then ret None else ret (Some c)
  end.

(** ---------- class.c ---------- *)

Inductive class := CLASS_GLINE | CLASS_KLINE.   (* class.h *)
Definition class_list (c : class) : M mlist := gets (match c with CLASS_GLINE => s_glines | CLASS_KLINE => s_klines end).
Definition set_class (c : class) (l : mlist) : M unit :=
  modify (match c with CLASS_GLINE => set_s_glines l | CLASS_KLINE => set_s_klines l end).

(** src/ngircd/class.c:44-69 Class_GetMemberReason *)
Definition Class_GetMemberReason (c : class) (h : handle) : M (option bytes) :=
  r <- Check_List (class_list c) (set_class c) h ;;
  ret (option_map (fun x =>
    let str := match x with Some t => strlcpy 513 t | None => B "listed" end in
    firstn 512 (sfmt (match c with CLASS_GLINE => """%s"" (G-Line)" | CLASS_KLINE => """%s"" (K-Line)" end) [FS str])) r).

(** src/ngircd/class.c:79-93 Class_HandleServerBans *)
Definition Class_HandleServerBans (h : handle) : M bool :=
  g <- Class_GetMemberReason CLASS_GLINE h ;;
  r <- (match g with Some t => ret (Some t) | None => Class_GetMemberReason CLASS_KLINE h end) ;;
  match r with
  | Some reject => Client_Reject h reject true ;;; ret DISCONNECTED
  | None => ret CONNECTED
  end.

(** src/ngircd/class.c:96-109 Class_AddMask *)
Definition Class_AddMask (c : class) (pattern : bytes) (valid : Z) (reason : bytes) : M unit :=
  l <- class_list c ;;
  set_class c (Lists_Add l (Lists_MakeMask pattern MASK_LEN) valid (Some reason) false).
(** src/ngircd/class.c:111-121 Class_DeleteMask *)
Definition Class_DeleteMask (c : class) (pattern : bytes) : M unit :=
  l <- class_list c ;; set_class c (Lists_Del l (Lists_MakeMask pattern MASK_LEN)).
(** src/ngircd/class.c:131-136 Class_Expire, lists.c:367-398 *)
Definition Class_Expire_one (c : class) (name : bytes) : M unit :=
  l <- class_list c ;; t <- now ;;
  let '(keep, del) := Lists_Expire t l in
  set_class c keep.
Definition Class_Expire : M unit :=
  Class_Expire_one CLASS_GLINE (B "G-Line") ;;; Class_Expire_one CLASS_KLINE (B "K-Line").

(** ---------- irc-info.c ---------- *)

(** Compile time strings (configure.ac; arbitrary texts) *)
Definition PACKAGE_NAME : bytes := B "ngIRCd".
Definition PACKAGE_VERSION : bytes := B "27".
Definition HOST_CPU : bytes := B "x86_64".
Definition HOST_VENDOR : bytes := B "pc".
Definition HOST_OS : bytes := B "linux-gnu".
Definition NGIRCd_Version : bytes := B "ngIRCd 27-IRCPLUS+IPv6-x86_64/pc/linux-gnu".
Definition NGIRCd_VersionAddition : bytes := B "IRCPLUS+IPv6-x86_64/pc/linux-gnu".
Definition NGIRCd_DebugLevel : bytes := [].
Definition BIRTHDATE : bytes := B "Birth Date: Jan  1 2024 at 00:00:00".
Definition USERMODES : bytes := B "abBcCFiIoqrRswx".         (* defines.h *)
Definition CHANMODES : bytes := B "abehiIklmMnoOPqQrRstvVz". (* defines.h *)
Definition CHANTYPES : bytes := B "#&+".
Definition MAX_RPL_WHO : Z := 25.
Definition MAX_RPL_WHOIS : Z := 10.
Definition MAX_RPL_WHOWAS : Z := 25.
Definition DEF_RPL_WHOWAS : Z := 5.
Definition MAX_HNDL_MODES_ARG : Z := 5.
Definition MAX_HNDL_CHANNEL_LISTS : nat := 50.

(** snprintf into str[COMMAND_LEN] *)
Definition line (f : string) (args : list marg) : M bytes := vsn COMMAND_LEN f args.
(** strlcat to str[COMMAND_LEN] *)
Definition cat (d s : bytes) : bytes := strlcat COMMAND_LEN d s.
(** str[strlen(str) - 1] != ':' *)
Definition no_colon_end (s : bytes) : bool :=
  match rev s with c :: _ => negb (Ascii.eqb c ":") | [] => true end.

(** src/ngircd/irc-info.c:76-84 write_whoreply *)
Definition write_whoreply (client c : handle) (chan flags : bytes) : M bool :=
  i <- Client_Introducer c ;;
  n <- Client_Hops c ;;
  IRC_WriteStrClient client RPL_WHOREPLY_MSG
    [aID client; aS chan; aUser c; aHostD c; aID i; aID c; aS flags; aD n; aInfo c].

(** src/ngircd/irc-info.c:95-128 who_flags_qualifier: the text appended *)
Definition who_flags (multi : bool) (modes : bytes) : bytes :=
  if multi then
    (if memb "q" modes then B "~" else []) ++ (if memb "a" modes then B "&" else []) ++
    (if memb "o" modes then B "@" else []) ++ (if memb "h" modes then B "%" else []) ++
    (if memb "v" modes then B "+" else [])
  else if memb "q" modes then B "~" else if memb "a" modes then B "&"
  else if memb "o" modes then B "@" else if memb "h" modes then B "%"
  else if memb "v" modes then B "+" else [].
Definition who_flags_qualifier (client : handle) (modes str : bytes) (len : nat) : M bytes :=
  c <- cli client ;; ret (fold_left (fun s x => strlcat len s [x]) (who_flags (cl_cap_multi c) modes) str).

(** src/ngircd/irc-info.c:138-194 IRC_WHO_Channel *)
Definition IRC_WHO_Channel (client : handle) (ch : chandle) (onlyops : bool) : M bool :=
  is_member <- Channel_IsMemberOf ch client ;;
  is_oper <- Client_HasMode client "o" ;;
  secret <- Channel_HasMode ch "s" ;;
  if negb is_member && negb is_oper && secret
  then IRC_WriteStrClient client RPL_ENDOFWHO_MSG [aID client; aChan ch]
  else
    l <- Members ch ;;
    r <- mfold (fun (acc : option Z) c =>
      match acc with
      | None => ret None
      | Some count =>
          is_ircop <- Client_HasMode c "o" ;;
          if onlyops && negb is_ircop then ret acc
          else
            inv <- Client_HasMode c "i" ;;
            if is_member || negb inv || is_oper then
              away <- Client_HasMode c "a" ;;
              modes <- Channel_UserModes ch c ;;
              flags <- who_flags_qualifier client modes
                         ((if away then "G" else "H")%char :: (if is_ircop then B "*" else [])) 10 ;;
              name <- Channel_Name ch ;;
              ok <- write_whoreply client c name flags ;;
              ret (if ok then Some (count + 1)%Z else None)
            else ret acc
      end) l (Some 0%Z) ;;
    match r with
    | None => ret DISCONNECTED
    | Some count =>
        whenM (MAX_RPL_WHO <? count)%Z (IRC_SetPenalty client 1) ;;;
        IRC_WriteStrClient client RPL_ENDOFWHO_MSG [aID client; aChan ch]
    end.

(** Do two clients share a channel (irc-info.c:250-259, irc.c:708-714)? *)
Definition on_same_channel (a b : handle) : M bool :=
  l <- ChannelsOf a ;;
  o <- mfind (fun ch => Channel_IsMemberOf ch b) l ;; ret (is_some o).

(** src/ngircd/irc-info.c:204-284 IRC_WHO_Mask.  The loop state: the number of replies; a
    finished loop is [inr] (the value is "connected"). *)
Definition IRC_WHO_Mask (client : handle) (mask : option bytes) (onlyops : bool) : M bool :=
  let mask := option_map lower mask in
  IRC_SetPenalty client 3 ;;;
  l <- Clients ;;
  r <- mfold (fun (acc : Z + bool) c =>
    match acc with
    | inr _ => ret acc
    | inl count =>
        x <- cli c ;;
        if negb (ctype_eqb (cl_type x) T_USER) then ret acc
        else if onlyops && negb (memb "o" (cl_modes x)) then ret acc
        else
          m <- (match mask with
                | None => ret true
                | Some mk =>
                    orM (ret (MatchCaseInsensitive mk (cl_host x)))
                   (orM (i <- Client_Introducer c ;; id <- Client_ID i ;; ret (MatchCaseInsensitive mk id))
                   (orM (ret (MatchCaseInsensitive mk (cl_info x)))
                        (id <- Client_ID c ;; ret (MatchCaseInsensitive mk id))))
                end) ;;
          if negb m then ret acc
          else
            id <- Client_ID c ;;
            vis <- (if negb (memb "i" (cl_modes x)) then ret true
                    else if match mask with Some mk => caseeq id mk | None => false end then ret true
                    else on_same_channel client c) ;;
            if negb vis then ret acc
            else
              big <- IRC_CheckListTooBig client count MAX_RPL_WHO (B "WHO") ;;
              if big then ret (inr true)
              else
                let flags := (if memb "a" (cl_modes x) then "G" else "H")%char ::
                             (if memb "o" (cl_modes x) then B "*" else []) in
                ok <- write_whoreply client c (B "*") flags ;;
                ret (if ok then inl (count + 1)%Z else inr false)
    end) l (inl 0%Z) ;;
  match r with
  | inr false => ret DISCONNECTED
  | _ => IRC_WriteStrClient client RPL_ENDOFWHO_MSG [aID client; aS (match mask with Some m => m | None => B "*" end)]
  end.

(** src/ngircd/irc-info.c:318-360: the channel list of a WHOIS reply *)
Definition whois_channels (client from c : handle) : M bool :=
  start <- line RPL_WHOISCHANNELS_MSG [aID from; aID c] ;;
  l <- ChannelsOf c ;;
  r <- mfold (fun (acc : option bytes) ch =>
    match acc with
    | None => ret None
    | Some str =>
        hide <- orM (andM (Channel_HasMode ch "s") (notM (Channel_IsMemberOf ch client)))
                    (andM (is_type client T_SERVER) (Channel_IsLocal ch)) ;;
        if hide then ret acc
        else
          let str := if no_colon_end str then cat str (B " ") else str in
          modes <- Channel_UserModes ch c ;;
          str <- who_flags_qualifier client modes str COMMAND_LEN ;;
          name <- Channel_Name ch ;;
          let str := cat str name in
          if COMMAND_LEN - CHANNEL_NAME_LEN - 4 <? List.length str then
            ok <- IRC_WriteStrClient client "%s" [aS str] ;;
            if negb ok then ret None
            else s <- line RPL_WHOISCHANNELS_MSG [aID from; aID c] ;; ret (Some s)
          else ret (Some str)
    end) l (Some start) ;;
  match r with
  | None => ret DISCONNECTED
  | Some str => if no_colon_end str then IRC_WriteStrClient client "%s" [aS str] else ret CONNECTED
  end.

(** src/ngircd/irc-info.c:294-438 IRC_WHOIS_SendReply (no connection uses SSL) *)
Definition whenB (b : bool) (m : M bool) : M bool := if b then m else ret true.
Definition IRC_WHOIS_SendReply (client from c : handle) : M bool :=
  (IRC_WriteStrClient from RPL_WHOISUSER_MSG [aID from; aID c; aUser c; aHostD c; aInfo c]) >>>
  (i <- Client_Introducer c ;;
   IRC_WriteStrClient from RPL_WHOISSERVER_MSG [aID from; aID c; aID i; aInfo i]) >>>
  (show <- orM (notM (Client_HasMode c "I")) (Client_HasMode from "o") ;;
   whenB show (whois_channels client from c)) >>>
  (x <- cli c ;; op <- Client_HasMode from "o" ;; mp <- cf cf_moreprivacy ;;
   (whenB (ctype_eqb (cl_type x) T_SERVICE) (IRC_WriteStrClient from RPL_WHOISSERVICE_MSG [aID from; aID c])) >>>
   (whenB (negb (ctype_eqb (cl_type x) T_SERVICE) && memb "o" (cl_modes x))
     (IRC_WriteStrClient from RPL_WHOISOPERATOR_MSG [aID from; aID c])) >>>
   (whenB (memb "B" (cl_modes x)) (IRC_WriteStrClient from RPL_WHOISBOT_MSG [aID from; aID c])) >>>
   (whenB (memb "R" (cl_modes x)) (IRC_WriteStrClient from RPL_WHOISREGNICK_MSG [aID from; aID c])) >>>
   (match cl_account x with
    | Some a => IRC_WriteStrClient from RPL_WHOISLOGGEDIN_MSG [aID from; aID c; aS a]
    | None => ret true
    end) >>>
   (whenB (is_some (cl_conn x) && (heq from c || op))
     ((IRC_WriteStrClient from RPL_WHOISHOST_MSG [aID from; aID c; aHost c; (t <- Client_IPAText c ;; ret (FS t))]) >>>
      (IRC_WriteStrClient from RPL_WHOISMODES_MSG [aID from; aID c; aModes c]))) >>>
   (match cl_conn x with
    | Some i =>
        whenB (negb mp) (idle <- Conn_GetIdle i ;; so <- Conn_GetSignon i ;;
                         IRC_WriteStrClient from RPL_WHOISIDLE_MSG [aID from; aID c; aD idle; aD so])
    | None => ret true
    end) >>>
   (whenB (memb "a" (cl_modes x))
     (IRC_WriteStrClient from RPL_AWAY_MSG
        [aID from; aID c; aS (match cl_away x with Some t => t | None => B "(null)" end)]))).

(** src/ngircd/irc-info.c:440-454 WHOWAS_EntryWrite; strftime(3) is cf_timestr *)
Definition WHOWAS_EntryWrite (p : handle) (e : whowas) : M bool :=
  ts <- cf cf_timestr ;;
  (IRC_WriteStrClient p RPL_WHOWASUSER_MSG [aID p; aS (ww_id e); aS (ww_user e); aS (ww_host e); aS (ww_info e)]) >>>
  (IRC_WriteStrClient p RPL_WHOISSERVER_MSG [aID p; aS (ww_id e); aS (ww_server e); aS (ts (ww_time e))]).

(** Commands that are either forwarded to another server or answered here. *)
Definition forward_or (client : handle) (req : request) (n : nat)
    (fwd : handle -> handle -> M bool) (k : handle -> M bool) : M bool :=
  with_sender client req (fun from =>
  with_target req n from (fun target =>
    if negb (heq target This_Server) then void (fwd target from) ;;; ret CONNECTED else k from)).

(** src/ngircd/irc-info.c:498-530 IRC_ADMIN *)
Definition IRC_ADMIN (client : handle) (req : request) : M bool :=
  forward_or client req 0 (fun target p => IRC_WriteStrClientPrefix target p "ADMIN %s" [aID target]) (fun p =>
    sn <- cf cf_servername ;; a1 <- cf cf_admin1 ;; a2 <- cf cf_admin2 ;; am <- cf cf_adminmail ;;
    (IRC_WriteStrClient client RPL_ADMINME_MSG [aID p; aS sn]) >>>
    (IRC_WriteStrClient client RPL_ADMINLOC1_MSG [aID p; aS a1]) >>>
    (IRC_WriteStrClient client RPL_ADMINLOC2_MSG [aID p; aS a2]) >>>
    (IRC_WriteStrClient client RPL_ADMINEMAIL_MSG [aID p; aS am]) >>> ret CONNECTED).

(** src/ngircd/irc-info.c:539-585 IRC_INFO *)
Definition IRC_INFO (client : handle) (req : request) : M bool :=
  forward_or client req 0 (fun target p => IRC_WriteStrClientPrefix target p "INFO %s" [aID target]) (fun p =>
    sd <- cf cf_startdate ;;
    (IRC_WriteStrClient client RPL_INFO_MSG [aID p; aS NGIRCd_Version]) >>>
    (IRC_WriteStrClient client RPL_INFO_MSG [aID p; aS BIRTHDATE]) >>>
    (IRC_WriteStrClient client RPL_INFO_MSG [aID p; aS (strlcat 510 (B "On-line since ") sd)]) >>>
    (IRC_WriteStrClient client RPL_ENDOFINFO_MSG [aID p]) >>> ret CONNECTED).

(** ISON and USERHOST pass the assembled reply as format string (irc-info.c:622, 1070): apart
    from the "%s" it starts with it must not contain '%', otherwise printf(3) reads arguments
    that were not passed (the model stops with [W_OverRead] then). *)
Definition count_pct (s : bytes) : nat := List.length (filter (Ascii.eqb "%") s).
Definition write_as_format (client : handle) (rpl : bytes) : M bool :=
  if Nat.eqb (count_pct rpl) 1
  then IRC_WriteStrClient client (string_of_list_ascii rpl) [aID client]
  else bad W_OverRead.

(** src/ngircd/irc-info.c:594-623 IRC_ISON *)
Definition IRC_ISON (client : handle) (req : request) : M bool :=
  rpl <- mfold (fun rpl a =>
    mfold (fun rpl tok =>
      o <- Client_Search (trim tok) ;;
      match o with
      | None => ret rpl
      | Some c => u <- is_type c T_USER ;;
                  if u then id <- Client_ID c ;; ret (cat (cat rpl id) (B " ")) else ret rpl
      end) (strtok SP a) rpl) (rq_args req) (B RPL_ISON_MSG) ;;
  write_as_format client (trim_last SP rpl).

(** src/ngircd/irc-info.c:632-676 IRC_LINKS *)
Definition IRC_LINKS (client : handle) (req : request) : M bool :=
  with_sender client req (fun from =>
    let mask := if 0 <? argc req then arg req (argc req - 1) else B "*" in
    let local :=
      l <- Clients ;;
      (mall l (fun c =>
        x <- cli c ;;
        if ctype_eqb (cl_type x) T_SERVER then
          id <- Client_ID c ;;
          if MatchCaseInsensitive mask id then
            let top := match cl_topserver x with Some t => t | None => This_Server end in
            IRC_WriteStrClient from RPL_LINKS_MSG [aID from; aID c; aID top; aD (cl_hops x); aInfo c]
          else ret true
        else ret true)) >>>
      IRC_WriteStrClient from RPL_ENDOFLINKS_MSG [aID from; aS mask] in
    if Nat.eqb (argc req) 2 then
      with_target req 0 from (fun target =>
        if negb (heq target This_Server) then
          void (IRC_WriteStrClientPrefix target from "LINKS %s %s" [aID target; aS (arg req 1)]) ;;; ret CONNECTED
        else local)
    else local).

(** src/ngircd/irc-info.c:1381-1445 IRC_Send_LUSERS *)
Definition IRC_Send_LUSERS (h : handle) : M bool :=
  users <- Count T_USER ;; servs <- Count T_SERVICE ;; servers <- Count T_SERVER ;;
  (IRC_WriteStrClient h RPL_LUSERCLIENT_MSG [aID h; aD users; aD servs; aD servers]) >>>
  (n <- Client_OperCount ;; whenB (0 <? n)%Z (IRC_WriteStrClient h RPL_LUSEROP_MSG [aID h; aD n])) >>>
  (n <- Client_UnknownCount ;; whenB (0 <? n)%Z (IRC_WriteStrClient h RPL_LUSERUNKNOWN_MSG [aID h; aD n])) >>>
  (n <- Channel_CountVisible (Some h) ;; IRC_WriteStrClient h RPL_LUSERCHANNELS_MSG [aID h; aD n]) >>>
  (u <- MyCount T_USER ;; s <- MyCount T_SERVICE ;; v <- Client_MyServerCount ;;
   IRC_WriteStrClient h RPL_LUSERME_MSG [aID h; aD u; aD s; aD v]) >>>
  (c <- MyCount T_USER ;; m <- gets s_mymaxusers ;;
   IRC_WriteStrClient h RPL_LOCALUSERS_MSG [aID h; aD c; aD m; aD c; aD m]) >>>
  (c <- Count T_USER ;; m <- gets s_maxusers ;;
   IRC_WriteStrClient h RPL_NETUSERS_MSG [aID h; aD c; aD m; aD c; aD m]) >>>
  (m <- gets s_numconnmax ;; a <- gets s_accepted ;;
   IRC_WriteStrClient h RPL_STATSCONN_MSG [aID h; aD m; aD a]) >>> ret CONNECTED.

(** src/ngircd/irc-info.c:685-705 IRC_LUSERS *)
Definition IRC_LUSERS (client : handle) (req : request) : M bool :=
  forward_or client req 1
    (fun target from => IRC_WriteStrClientPrefix target from "LUSERS %s %s" [aS (arg req 0); aID target])
    IRC_Send_LUSERS.

(** src/ngircd/irc-info.c:714-740 IRC_SERVLIST *)
Definition IRC_SERVLIST (client : handle) (req : request) : M bool :=
  (whenB ((argc req <? 2) || beq (arg req 1) (B "0"))
    (l <- Clients ;;
     mall l (fun c =>
       x <- cli c ;;
       if negb (ctype_eqb (cl_type x) T_SERVICE) then ret true
       else
         id <- Client_ID c ;;
         if (0 <? argc req) && negb (MatchCaseInsensitive (arg req 0) id) then ret true
         else i <- Client_Introducer c ;;
              IRC_WriteStrClient client RPL_SERVLIST_MSG
                [aID client; aMask c; aMask i; aS (B "*"); aD 0; aD (cl_hops x); aInfo c]))) >>>
  (IRC_WriteStrClient client RPL_SERVLISTEND_MSG
     [aID client; aS (if 0 <? argc req then arg req 0 else B "*"); aS (if 1 <? argc req then arg req 1 else B "0")]).

(** src/ngircd/irc-info.c:1447-1487 IRC_Show_MOTD *)
Definition IRC_Show_MOTD (h : handle) : M bool :=
  motd <- cf cf_motd ;; ck <- cf cf_cloakhost ;;
  match motd with
  | [] => IRC_WriteErrClient h ERR_NOMOTD_MSG [aID h]
  | _ =>
      (IRC_WriteStrClient h RPL_MOTDSTART_MSG [aID h; aID This_Server]) >>>
      (mall motd (fun t => IRC_WriteStrClient h RPL_MOTD_MSG [aID h; aS t])) >>>
      (IRC_WriteStrClient h RPL_ENDOFMOTD_MSG [aID h]) >>>
      (whenB (negb (beq ck [])) (IRC_WriteStrClient h RPL_HOSTHIDDEN_MSG [aID h; aHost h]))
  end.

(** src/ngircd/irc-info.c:749-768 IRC_MOTD *)
Definition IRC_MOTD (client : handle) (req : request) : M bool :=
  forward_or client req 0 (fun target from => IRC_WriteStrClientPrefix target from "MOTD %s" [aID target]) IRC_Show_MOTD.

(** src/ngircd/irc-info.c:1496-1561 IRC_Send_NAMES *)
Definition IRC_Send_NAMES (client : handle) (ch : chandle) : M bool :=
  is_member <- Channel_IsMemberOf ch client ;;
  mp <- cf cf_moreprivacy ;;
  secret <- Channel_HasMode ch "s" ;;
  if mp && negb is_member then ret CONNECTED
  else if negb is_member && secret then ret CONNECTED
  else
    let sym := (if secret then "@" else "=")%char in
    let start := line RPL_NAMREPLY_MSG [aID client; aC sym; aChan ch] in
    s0 <- start ;;
    l <- Members ch ;;
    r <- mfold (fun (acc : option bytes) cl =>
      match acc with
      | None => ret None
      | Some str =>
          inv <- Client_HasMode cl "i" ;;
          if is_member || negb inv then
            let str := if no_colon_end str then cat str (B " ") else str in
            modes <- Channel_UserModes ch cl ;;
            str <- who_flags_qualifier client modes str COMMAND_LEN ;;
            id <- Client_ID cl ;;
            let str := cat str id in
            if COMMAND_LEN - CLIENT_NICK_LEN - 4 <? List.length str then
              ok <- IRC_WriteStrClient client "%s" [aS str] ;;
              if negb ok then ret None else s <- start ;; ret (Some s)
            else ret (Some str)
          else ret acc
      end) l (Some s0) ;;
    match r with
    | None => ret DISCONNECTED
    | Some str => if no_colon_end str then IRC_WriteStrClient client "%s" [aS str] else ret CONNECTED
    end.

(** src/ngircd/irc-info.c:777-846 IRC_NAMES *)
Definition IRC_NAMES (client : handle) (req : request) : M bool :=
  forward_or client req 1
    (fun target from => IRC_WriteStrClientPrefix target from "NAMES %s :%s" [aS (arg req 0); aID target])
    (fun from =>
      if 0 <? argc req then
        mall (strtok "," (arg req 0)) (fun name =>
          o <- Channel_Search name ;;
          (match o with Some ch => IRC_Send_NAMES from ch | None => ret true end) >>>
          (IRC_WriteStrClient from RPL_ENDOFNAMES_MSG [aID from; aS name]))
      else
        chs <- Chans ;;
        (mall chs (IRC_Send_NAMES from)) >>>
        (let start := line RPL_NAMREPLY_MSG [aID from; aC "*"; aS (B "*")] in
         s0 <- start ;;
         l <- Clients ;;
         r <- mfold (fun (acc : option bytes) c =>
           match acc with
           | None => ret None
           | Some rpl =>
               x <- cli c ;;
               n <- Channel_CountForUser c ;;
               if ctype_eqb (cl_type x) T_USER && (n =? 0)%Z && negb (memb "i" (cl_modes x)) then
                 let rpl := if no_colon_end rpl then cat rpl (B " ") else rpl in
                 id <- Client_ID c ;;
                 let rpl := cat rpl id in
                 if COMMAND_LEN - CLIENT_NICK_LEN - 4 <? List.length rpl then
                   ok <- IRC_WriteStrClient from "%s" [aS rpl] ;;
                   if negb ok then ret None else s <- start ;; ret (Some s)
                 else ret (Some rpl)
               else ret acc
           end) l (Some s0) ;;
         match r with
         | None => ret DISCONNECTED
         | Some rpl =>
             (whenB (no_colon_end rpl) (IRC_WriteStrClient from "%s" [aS rpl])) >>>
             (IRC_WriteStrClient from RPL_ENDOFNAMES_MSG [aID from; aS (B "*")])
         end)).

(** src/ngircd/irc-info.c:855-976 IRC_STATS.  Simplified: the usage counters of the command
    table (STATS m) are not modelled, nothing is listed for them; the length of the write
    buffer (STATS l) is not modelled and shown as 0. *)
Definition stats_lines (from : handle) (query : ascii) (l : mlist) : M bool :=
  mall l (fun e => IRC_WriteStrClient from RPL_STATSXLINE_MSG
    [aID from; aC query; aS (le_mask e); aD (le_valid e); aS (match le_reason e with Some r => r | None => [] end)]).
Definition stats_links (client from : handle) (more : bool) : M bool :=
  t <- now ;;
  l <- Conn_All ;;
  mall l (fun i =>
    c <- con i ;;
    match co_client c with
    | None => ret true
    | Some h =>
        ty <- Client_Type h ;;
        if ctype_eqb ty T_SERVER || heq h client || (more && ctype_eqb ty T_USER) then
          IRC_WriteStrClient from RPL_STATSLINKINFO_MSG
            [aID from; aMask h; aD 0; aD (co_msg_out c); aD (co_bytes_out c); aD (co_msg_in c); aD (co_bytes_in c);
             (x <- cli h ;; ret (FD (t - cl_starttime x)%Z))]
        else ret true
    end).
Definition in_chars (c : ascii) (s : string) : bool := memb c (B s).
Definition IRC_STATS (client : handle) (req : request) : M bool :=
  forward_or client req 1
    (fun target from => IRC_WriteStrClientPrefix target from "STATS %s %s" [aS (arg req 0); aID target])
    (fun from =>
      let query := if 0 <? argc req then match arg req 0 with c :: _ => c | [] => "*"%char end else "*"%char in
      let fin := IRC_WriteStrClient from RPL_ENDOFSTATS_MSG [aID from; aC query] in
      if in_chars query "gGkK" then
        op <- Client_HasMode from "o" ;;
        if negb op then IRC_WriteErrClient from ERR_NOPRIVILEGES_MSG [aID from]
        else
          l <- class_list (if in_chars query "gG" then CLASS_GLINE else CLASS_KLINE) ;;
          (stats_lines from query l) >>> fin
      else if in_chars query "L" then
        o <- Op_Check from req ;;
        match o with
        | None => Op_NoPrivileges from req
        | Some _ => (stats_links client from true) >>> fin
        end
      else if in_chars query "l" then (stats_links client from false) >>> fin
      else if in_chars query "uU" then
        t <- now ;; st <- gets s_start ;;
        let up := (t - st)%Z in
        let days := Z.quot up 86400 in let up := (up - days * 86400)%Z in
        let hrs := Z.quot up 3600 in let up := (up - hrs * 3600)%Z in
        let mins := Z.quot up 60 in let up := (up - mins * 60)%Z in
        (IRC_WriteStrClient from RPL_STATSUPTIME [aID from; aD days; aD hrs; aD mins; aD up]) >>> fin
      else fin).

(** src/ngircd/irc-info.c:985-992 IRC_SUMMON *)
Definition IRC_SUMMON (client : handle) (_ : request) : M bool :=
  IRC_WriteErrClient client ERR_SUMMONDISABLED_MSG [aID client].

(** src/ngircd/irc-info.c:1001-1025 IRC_TIME *)
Definition IRC_TIME (client : handle) (req : request) : M bool :=
  forward_or client req 0 (fun target from => IRC_WriteStrClientPrefix target from "TIME %s" [aID target]) (fun from =>
    t <- now ;; ts <- cf cf_timestr ;;
    IRC_WriteStrClient from RPL_TIME_MSG [aID from; aID This_Server; aS (ts t)]).

(** src/ngircd/irc-info.c:1035-1071 IRC_USERHOST *)
Definition IRC_USERHOST (client : handle) (req : request) : M bool :=
  rpl <- mfold (fun rpl a =>
    o <- Client_Search a ;;
    match o with
    | None => ret rpl
    | Some c =>
        x <- cli c ;;
        if ctype_eqb (cl_type x) T_USER then
          id <- Client_ID c ;; u <- Client_User c ;; d <- Client_HostnameDisplayed c ;;
          ret (fold_left cat [id; (if memb "o" (cl_modes x) then B "*" else []); B "=";
                              (if memb "a" (cl_modes x) then B "-" else B "+"); u; B "@"; d; B " "] rpl)
        else ret rpl
    end) (firstn 5 (rq_args req)) (B RPL_USERHOST_MSG) ;;
  write_as_format client (trim_last SP rpl).

(** src/ngircd/irc-info.c:1080-1087 IRC_USERS *)
Definition IRC_USERS (client : handle) (_ : request) : M bool :=
  IRC_WriteErrClient client ERR_USERSDISABLED_MSG [aID client].

(** src/ngircd/irc-info.c:1568-1583 IRC_Send_ISUPPORT *)
Definition IRC_Send_ISUPPORT (h : handle) : M bool :=
  net <- cf cf_network ;; mj <- cf cf_maxjoins ;; mn <- cf cf_maxnick ;;
  (whenB (negb (beq net [])) (IRC_WriteStrClient h RPL_ISUPPORTNET_MSG [aID h; aS net])) >>>
  (IRC_WriteStrClient h RPL_ISUPPORT1_MSG [aID h; aS CHANTYPES; aS CHANTYPES; aD mj]) >>>
  (IRC_WriteStrClient h RPL_ISUPPORT2_MSG
     [aID h; aD 50; aD (Z.of_nat mn - 1); aD 490; aD 127; aD 400; aD MAX_HNDL_MODES_ARG;
      aD (Z.of_nat MAX_HNDL_CHANNEL_LISTS)]).

(** src/ngircd/irc-info.c:1096-1128 IRC_VERSION *)
Definition IRC_VERSION (client : handle) (req : request) : M bool :=
  forward_or client req 0 (fun target p => IRC_WriteStrClientPrefix target p "VERSION %s" [aID target]) (fun p =>
    sn <- cf cf_servername ;;
    (IRC_WriteStrClient client RPL_VERSION_MSG
       [aID p; aS PACKAGE_NAME; aS PACKAGE_VERSION; aS NGIRCd_DebugLevel; aS sn; aS NGIRCd_VersionAddition]) >>>
    (IRC_Send_ISUPPORT p) >>> ret CONNECTED).

(** src/ngircd/irc-info.c:1137-1176 IRC_WHO *)
Definition IRC_WHO (client : handle) (req : request) : M bool :=
  let only_ops := Nat.eqb (argc req) 2 && beq (arg req 1) (B "o") in
  if 1 <=? argc req then
    o <- Channel_Search (arg req 0) ;;
    match o with
    | Some ch => IRC_WHO_Channel client ch only_ops
    | None => if negb (beq (arg req 0) (B "0")) then IRC_WHO_Mask client (Some (arg req 0)) only_ops
              else IRC_WHO_Mask client None only_ops
    end
  else IRC_WHO_Mask client None only_ops.

(** src/ngircd/irc-info.c:1261-1276: the loop over all clients for a wildcard query.  The loop
    state is the number of matches; [inr b]: left, b tells whether "break" or "return". *)
Definition whois_wild (client from : handle) (query : bytes) (n : Z) : M (Z * bool) :=
  l <- Clients ;;
  r <- mfold (fun (acc : Z * option bool) c =>
    match snd acc with
    | Some _ => ret acc
    | None =>
        big <- IRC_CheckListTooBig client (fst acc) MAX_RPL_WHOIS (B "WHOIS") ;;
        if big then ret (fst acc, Some true)
        else
          x <- cli c ;;
          if negb (ctype_eqb (cl_type x) T_USER) then ret acc
          else if memb "i" (cl_modes x) then ret acc
          else
            id <- Client_ID c ;;
            if negb (MatchCaseInsensitive query id) then ret acc
            else ok <- IRC_WHOIS_SendReply client from c ;;
                 ret (if ok then ((fst acc + 1)%Z, None) else (fst acc, Some false))
    end) l (n, None) ;;
  ret (fst r, match snd r with Some false => false | _ => true end).

(** src/ngircd/irc-info.c:1222-1282: the queries of a WHOIS command *)
Fixpoint whois_loop (client from : handle) (req : request) (remote : bool) (qs : list bytes) (got : bool) (n : Z) : M bool :=
  match qs with
  | [] => ret true
  | query :: qs =>
      let unknown := IRC_WriteErrClient client ERR_NOSUCHNICK_MSG [aID client; aS query] in
      let wild := memb "*" query || memb "?" query in
      if negb wild || remote then
        (o <- Client_Search query ;;
         match o with
         | Some c => t <- Client_Type c ;;
                     if ctype_eqb t T_USER || ctype_eqb t T_SERVICE
                     then IRC_WHOIS_SendReply client from c else unknown
         | None => unknown
         end) >>> whois_loop client from req remote qs got n
      else if got then unknown >>> whois_loop client from req remote qs got n
      else
        IRC_SetPenalty client 3 ;;;
        r <- whois_wild client from query n ;;
        if negb (snd r) then ret DISCONNECTED
        else
          whenM (fst r =? 0)%Z
            (void (IRC_WriteErrClient client ERR_NOSUCHNICK_MSG [aID client; aS (arg req (argc req - 1))])) ;;;
          whois_loop client from req remote qs true (fst r)
  end.

(** src/ngircd/irc-info.c:1185-1285 IRC_WHOIS *)
Definition IRC_WHOIS (client : handle) (req : request) : M bool :=
  if argc req <? 1 then IRC_WriteErrClient client ERR_NONICKNAMEGIVEN_MSG [aID client]
  else if 2 <? argc req then need_more client req
  else
    with_sender client req (fun from =>
      let k (target : handle) : M bool :=
        if negb (heq target This_Server) then
          void (IRC_WriteStrClientPrefix target from "WHOIS %s :%s" [aS (arg req 0); aS (arg req 1)]) ;;; ret CONNECTED
        else
          fc <- Client_Conn from ;;
          let last := arg req (argc req - 1) in
          (whois_loop client from req (negb (is_some fc))
             (firstn 3 (strtok "," (lower (strlcpy COMMAND_LEN last)))) false 0) >>>
          (IRC_WriteStrClient from RPL_ENDOFWHOIS_MSG [aID from; aS last]) in
      if 1 <? argc req then with_target req 0 client k else k This_Server).

(** src/ngircd/irc-info.c:1348-1365: search of the ring of entries, from index [i] down to
    (excluding) [last]; at most MAX_WHOWAS steps.  Result: next index, hits for this nick, hits. *)
Fixpoint whowas_scan (n : nat) (p : handle) (nick : bytes) (max last i nc count : Z) : M (option (Z * Z * Z)) :=
  match n with
  | O => bad W_Fuel
  | S n' =>
      o <- gets (fun s => nth_error (s_whowas s) (Z.to_nat i)) ;;
      e <- nonnull o ;;
      let hit := (0 <? ww_time e)%Z && caseeq nick (ww_id e) in
      ok <- (if hit then WHOWAS_EntryWrite p e else ret true) ;;
      if negb ok then ret None
      else
        let nc := if hit then (nc + 1)%Z else nc in
        let count := if hit then (count + 1)%Z else count in
        let i := if (i - 1 <? 0)%Z then (MAX_WHOWAS - 1)%Z else (i - 1)%Z in
        if (0 <? nc)%Z && (max <=? count)%Z then ret (Some (i, nc, count))
        else if (i =? last)%Z then ret (Some (i, nc, count))
        else whowas_scan n' p nick max last i nc count
  end.
Fixpoint whowas_loop (p : handle) (nicks : list bytes) (max last i count : Z) : M bool :=
  match nicks with
  | [] => ret true
  | nick :: r =>
      o <- whowas_scan 64 p nick max last i 0 count ;;
      match o with
      | None => ret DISCONNECTED
      | Some (i', nc, count') =>
          (whenB (nc =? 0)%Z (IRC_WriteErrClient p ERR_WASNOSUCHNICK_MSG [aID p; aS nick])) >>>
          whowas_loop p r max last i' count'
      end
  end.

(** src/ngircd/irc-info.c:1294-1373 IRC_WHOWAS *)
Definition IRC_WHOWAS (client : handle) (req : request) : M bool :=
  if argc req <? 1 then IRC_WriteErrClient client ERR_NONICKNAMEGIVEN_MSG [aID client]
  else if 3 <? argc req then need_more client req
  else
    with_sender client req (fun p =>
    with_target req 2 p (fun target =>
      mp <- cf cf_moreprivacy ;;
      if mp then ret CONNECTED
      else if negb (heq target This_Server) then
        void (IRC_WriteStrClientPrefix target p "WHOWAS %s %s %s" [aS (arg req 0); aS (arg req 1); aID target]) ;;;
        ret CONNECTED
      else
        l <- gets s_lastww ;;
        let last := if (l <? 0)%Z then 0%Z else l in
        let max := if 1 <? argc req
                   then let m := atoi (arg req 1) in if (m <? 1)%Z then MAX_RPL_WHOWAS else m
                   else DEF_RPL_WHOWAS in
        (whowas_loop p (strtok "," (strlcpy COMMAND_LEN (arg req 0))) max last last 0) >>>
        (IRC_WriteStrClient p RPL_ENDOFWHOWAS_MSG [aID p; aS (arg req 0)]))).
