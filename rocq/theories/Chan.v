(** Model of src/ngircd/irc-channel.c: JOIN, PART, TOPIC, LIST, CHANINFO. *)
From Coq Require Import List Ascii String ZArith NArith Bool.
From Verif Require Import Bytes Match Lists Hash ParseReq State Messages Monad Core Write Info.
Import ListNotations.
Local Open Scope m_scope.

Definition BEL : ascii := "007"%char.

(** Channel_FirstChannelOf (channel.c:609-614) and Channel_GetChannel *)
Definition Channel_FirstChannelOf (h : handle) : M (option chandle) :=
  l <- ChannelsOf h ;; ret (hd_error l).

(** src/ngircd/irc-channel.c:53-65 part_from_all_channels; one channel per round *)
Fixpoint part_all (n : nat) (client target : handle) : M bool :=
  match n with
  | O => bad W_Fuel
  | S n' =>
      o <- Channel_FirstChannelOf target ;;
      match o with
      | None => ret CONNECTED
      | Some ch =>
          name <- Channel_Name ch ;; id <- Client_ID target ;;
          void (Channel_Part target client name id) ;;;
          part_all n' client target
      end
  end.
Definition part_from_all_channels (client target : handle) : M bool :=
  l <- ChannelsOf target ;; part_all (S (List.length l)) client target.

(** src/ngircd/irc-channel.c:77-144 join_allowed; Conn_UsesSSL is false without SSL support *)
Definition join_allowed (client : handle) (ch : chandle) (channame : bytes) (key : option bytes) : M bool :=
  let deny (msg : string) : M bool := void (IRC_WriteErrClient client msg [aID client; aS channame]) ;;; ret false in
  op <- Client_HasMode client "o" ;;
  if op then ret true
  else
    is_banned <- Check_Bans ch client ;;
    is_exception <- Check_Excepts ch client ;;
    is_invited <- Check_Invites ch client ;;
    if is_banned && negb is_invited && negb is_exception then deny ERR_BANNEDFROMCHAN_MSG
    else
      i <- Channel_HasMode ch "i" ;;
      if i && negb is_invited then deny ERR_INVITEONLYCHAN_MSG
      else
        k <- Channel_CheckKey ch client (match key with Some t => t | None => [] end) ;;
        if negb k then deny ERR_BADCHANNELKEY_MSG
        else
          l <- Channel_HasMode ch "l" ;; mx <- Channel_MaxUsers ch ;; n <- Channel_MemberCount ch ;;
          if l && (mx <=? n)%Z then deny ERR_CHANNELISFULL_MSG
          else
            z <- Channel_HasMode ch "z" ;;
            if z then deny ERR_SECURECHANNEL_MSG
            else
              oo <- Channel_HasMode ch "O" ;;
              if oo && negb op then deny ERR_OPONLYCHANNEL_MSG
              else
                r <- Channel_HasMode ch "R" ;; reg <- Client_HasMode client "R" ;;
                if r && negb reg then deny ERR_REGONLYCHANNEL_MSG
                else ret true.

(** src/ngircd/irc-channel.c:153-168 join_set_channelmodes *)
Definition join_set_channelmodes (ch : chandle) (target : handle) (flags : option bytes) : M unit :=
  mfor (match flags with Some f => f | None => [] end) (fun c => void (Channel_UserModeAdd ch target c)) ;;;
  p <- Channel_HasMode ch "P" ;; auto <- cf cf_operchanpautoop ;; op <- Client_HasMode target "o" ;;
  whenM (p && auto && op) (void (Channel_UserModeAdd ch target "o")).

(** src/ngircd/irc-channel.c:183-204 cb_join_forward *)
Definition cb_join_forward (to pref : handle) (data : bytes) : M unit :=
  let str := strlcpy COMMAND_LEN data in
  o <- Client_Conn to ;; i <- nonnull o ;; cn <- con i ;;
  let '(str, ptr) := if co_rfc1459 cn
                     then match strchr BEL str with Some (a, r) => (a, tl r) | None => (str, []) end
                     else (str, []) in
  void (IRC_WriteStrClientPrefix to pref "JOIN %s" [aS str]) ;;;
  whenM (negb (beq ptr [])) (void (IRC_WriteStrClientPrefix to pref "MODE %s +%s %s" [aS str; aS ptr; aID pref])).

(** src/ngircd/irc-channel.c:217-248 join_forward *)
Definition join_forward (client target : handle) (ch : chandle) (channame : bytes) : M unit :=
  um <- Channel_UserModes ch target ;;
  let modes := strlcpy (CHANNEL_MODE_LEN - 1) um in
  let m7 := match modes with [] => [] | _ => BEL :: modes end in
  loc <- Channel_IsLocal ch ;;
  whenM (negb loc)
    (str <- line "%s%s" [aS channame; aS m7] ;;
     Servers_CB (Some client) None (fun to => cb_join_forward to target str)) ;;;
  IRC_WriteStrChannelPrefix client ch target false "JOIN :%s" [aS channame] ;;;
  whenM (negb (beq modes []))
    (IRC_WriteStrChannelPrefix client ch target false "MODE %s +%s %s" [aS channame; aS modes; aID target]).

(** src/ngircd/irc-channel.c:256-282 IRC_Send_Channel_Info *)
Definition IRC_Send_Channel_Info (client : handle) (ch : chandle) : M bool :=
  c <- chan ch ;;
  (whenB (negb (beq (ch_topic c) []))
     ((IRC_WriteStrClient client RPL_TOPIC_MSG [aID client; aChan ch; aS (ch_topic c)]) >>>
      (IRC_WriteStrClient client RPL_TOPICSETBY_MSG
         [aID client; aChan ch; aS (ch_topic_who c); aD (ch_topic_time c)]))) >>>
  (IRC_Send_NAMES client ch) >>>
  (IRC_WriteStrClient client RPL_ENDOFNAMES_MSG [aID client; aChan ch]).

(** src/ngircd/irc-channel.c:334-383: the checks for the originator of a JOIN.  [None] is
    "goto join_next" ([Some false]: return DISCONNECTED); [inr flags]: go on. *)
Definition join_check (client target : handle) (channame : bytes) (o : option chandle) (key flags : option bytes)
    : M (option bool + option bytes) :=
  ty <- Client_Type client ;;
  if ctype_eqb ty T_USER then
    let next : M (option bool + option bytes) := ret (inl None) in
    pre <- (match o with
            | Some ch => Channel_IsMemberOf ch client
            | None =>
                types <- cf cf_chantypes ;;
                if negb (strchr0 (hd0 channame) types) then
                  void (IRC_WriteErrClient client ERR_NOSUCHCHANNEL_MSG [aID client; aS channame]) ;;; ret true
                else ret false
            end) ;;
    if pre then next
    else
      mj <- cf cf_maxjoins ;; n <- Channel_CountForUser client ;;
      if ((0 <? mj) && (mj <=? n))%Z then
        ok <- IRC_WriteErrClient client ERR_TOOMANYCHANNELS_MSG [aID client; aS channame] ;;
        ret (inl (if ok then None else Some DISCONNECTED))
      else
        r <- (match o with
              | Some ch => ok <- join_allowed client ch channame key ;; ret (if ok then Some flags else None)
              | None => ret (Some (if negb (Ascii.eqb (hd0 channame) "+") then Some (B "o") else flags))
              end) ;;
        match r with
        | None => next
        | Some flags =>
            oi <- Client_Conn client ;; i <- nonnull oi ;; Conn_UpdateIdle i ;;; ret (inr flags)
        end
  else
    (match o with Some ch => void (Check_Invites ch target) | None => ret tt end) ;;;
    ret (inr flags).

(** src/ngircd/irc-channel.c:319-418: one round of the loop of IRC_JOIN *)
Definition join_one (client target : handle) (channame : bytes) (key : option bytes) : M (option bool) :=
  srv <- is_type client T_SERVER ;;
  let '(channame, flags) :=
    if srv then match strchr BEL channame with Some (a, r) => (a, Some (tl r)) | None => (channame, None) end
    else (channame, None) in
  o <- Channel_Search channame ;;
  r <- join_check client target channame o key flags ;;
  match r with
  | inl x => ret x
  | inr flags =>
      ok <- Channel_Join target channame ;;
      if negb ok then ret None
      else
        ch <- (match o with
               | Some ch => ret ch
               | None =>
                   o' <- Channel_Search channame ;; ch <- nonnull o' ;;
                   name <- Channel_Name ch ;;
                   whenM (Ascii.eqb (hd0 name) "+")
                     (void (Channel_ModeAdd ch "t") ;;; void (Channel_ModeAdd ch "n")) ;;;
                   ret ch
               end) ;;
        join_set_channelmodes ch target flags ;;;
        join_forward client target ch channame ;;;
        ty <- Client_Type client ;;
        if ctype_eqb ty T_USER then
          ok <- ((IRC_WriteStrClientPrefix client target "JOIN :%s" [aS channame]) >>>
                 (IRC_Send_Channel_Info client ch)) ;;
          ret (if ok then None else Some CONNECTED)
        else ret None
  end.
Fixpoint join_loop (client target : handle) (chans keys : list bytes) : M bool :=
  match chans with
  | [] => ret CONNECTED
  | c :: r =>
      x <- join_one client target c (hd_error keys) ;;
      match x with
      | Some b => ret b
      | None => join_loop client target r (tl keys)
      end
  end.

(** src/ngircd/irc-channel.c:291-420 IRC_JOIN *)
Definition IRC_JOIN (client : handle) (req : request) : M bool :=
  with_sender client req (fun target =>
    if (argc req =? 1) && beq (arg req 0) (B "0") then part_from_all_channels client target
    else
      match strtok "," (arg req 0) with
      | [] => need_more client req
      | chans => join_loop client target chans (if 1 <? argc req then strtok "," (arg req 1) else [])
      end).

(** src/ngircd/irc-channel.c:429-459 IRC_PART *)
Definition IRC_PART (client : handle) (req : request) : M bool :=
  with_sender client req (fun target =>
    match strtok "," (arg req 0) with
    | [] => need_more client req
    | chans =>
        mfor chans (fun ch => void (Channel_Part target client ch (arg req 1))) ;;;
        o <- Client_Conn client ;; opt o Conn_UpdateIdle ;;;
        ret CONNECTED
    end).

(** src/ngircd/irc-channel.c:468-561 IRC_TOPIC *)
Definition IRC_TOPIC (client : handle) (req : request) : M bool :=
  with_sender client req (fun from =>
    o <- Channel_Search (arg req 0) ;;
    match o with
    | None => IRC_WriteErrClient from ERR_NOSUCHCHANNEL_MSG [aID from; aS (arg req 0)]
    | Some ch =>
        srv <- is_type client T_SERVER ;;
        power <- (if srv then ret true else Client_HasMode from "o") ;;
        ocm <- cf cf_opercanmode ;;
        mem <- Channel_IsMemberOf ch from ;;
        if negb srv && negb mem && negb (ocm && power) then
          IRC_WriteErrClient from ERR_NOTONCHANNEL_MSG [aID from; aS (arg req 0)]
        else if argc req =? 1 then
          c <- chan ch ;;
          if negb (beq (ch_topic c) []) then
            (IRC_WriteStrClient from RPL_TOPIC_MSG [aID client; aChan ch; aS (ch_topic c)]) >>>
            (IRC_WriteStrClient from RPL_TOPICSETBY_MSG
               [aID client; aChan ch; aS (ch_topic_who c); aD (ch_topic_time c)])
          else IRC_WriteStrClient from RPL_NOTOPIC_MSG [aID from; aChan ch]
        else
          t <- Channel_HasMode ch "t" ;;
          deny <- (if t && negb power then
                     notM (orM (Channel_UserHasMode ch from "h")
                          (orM (Channel_UserHasMode ch from "o")
                          (orM (Channel_UserHasMode ch from "a")
                               (Channel_UserHasMode ch from "q"))))
                   else ret false) ;;
          if deny then IRC_WriteErrClient from ERR_CHANOPRIVSNEEDED_MSG [aID from; aChan ch]
          else
            osm <- cf cf_operservermode ;;
            let from := if osm then This_Server else from in
            loc <- Channel_IsLocal ch ;;
            whenM (negb loc) (IRC_WriteStrServersPrefix (Some client) from "TOPIC %s :%s" [aS (arg req 0); aS (arg req 1)]) ;;;
            old <- Channel_Topic ch ;;
            whenM (negb (beq (arg req 1) old))
              (IRC_WriteStrChannelPrefix client ch from false "TOPIC %s :%s" [aS (arg req 0); aS (arg req 1)]) ;;;
            Channel_SetTopic ch (Some from) (arg req 1) ;;;
            usr <- is_type client T_USER ;;
            if usr then IRC_WriteStrClientPrefix client client "TOPIC %s :%s" [aS (arg req 0); aS (arg req 1)]
            else ret CONNECTED
    end).

(** src/ngircd/irc-channel.c:609-644: the loop of IRC_LIST for one pattern.  [Some count]: go on
    with the next pattern (at the end and after "break"), [None]: return DISCONNECTED. *)
Fixpoint list_chans (from : handle) (pattern : bytes) (l : list chandle) (count : Z) : M (option Z) :=
  match l with
  | [] => ret (Some count)
  | ch :: r =>
      name <- Channel_Name ch ;;
      show <- (if MatchCaseInsensitive pattern name then
                 orM (notM (Channel_HasMode ch "s")) (orM (Channel_IsMemberOf ch from) (Client_HasMode from "o"))
               else ret false) ;;
      if negb show then list_chans from pattern r count
      else
        mx <- cf cf_maxlist ;;
        big <- (if (0 <? mx)%Z then IRC_CheckListTooBig from count mx (B "LIST") else ret false) ;;
        if big then ret (Some count)
        else
          n <- Channel_MemberCount ch ;; t <- Channel_Topic ch ;;
          ok <- IRC_WriteStrClient from RPL_LIST_MSG [aID from; aS name; aD n; aS t] ;;
          if negb ok then ret None else list_chans from pattern r (count + 1)%Z
  end.
Fixpoint list_pats (from : handle) (pats : list bytes) (count : Z) : M bool :=
  match pats with
  | [] => ret true
  | p :: r =>
      l <- Chans ;;
      x <- list_chans from p l count ;;
      match x with
      | None => ret false
      | Some count => list_pats from r count
      end
  end.

(** src/ngircd/irc-channel.c:570-647 IRC_LIST.  argv[0] is cut at its first separator when it is
    forwarded (strtok(3)). *)
Definition IRC_LIST (client : handle) (req : request) : M bool :=
  with_sender client req (fun from =>
    let pats := if 0 <? argc req then map lower (strtok "," (arg req 0)) else [B "*"] in
    let here := (IRC_WriteStrClient from RPL_LISTSTART_MSG [aID from]) >>>
                (list_pats from pats 0) >>>
                (IRC_WriteStrClient from RPL_LISTEND_MSG [aID from]) in
    if argc req =? 2 then
      o <- Client_Search (arg req 1) ;;
      o <- (match o with
            | Some t => b <- is_type t T_SERVER ;; ret (if b then Some t else None)
            | None => ret None
            end) ;;
      match o with
      | None => IRC_WriteErrClient from ERR_NOSUCHSERVER_MSG [aID client; aS (arg req 1)]
      | Some t =>
          if heq t This_Server then here
          else IRC_WriteStrClientPrefix t from "LIST %s :%s"
                 [aS (match strtok "," (arg req 0) with a :: _ => a | [] => arg req 0 end); aS (arg req 1)]
      end
    else here).

(** src/ngircd/irc-channel.c:688-692 (and the history variable) *)
Definition chaninfo_create (name : bytes) : M chandle :=
  ch <- gets s_chnext ;;
  odd true (O_Empty ch) ;;; odd (negb (valid_chan name)) (O_Chan ch) ;;;
  Channel_Create name.
(** src/ngircd/irc-channel.c:656-755 IRC_CHANINFO *)
Definition IRC_CHANINFO (client : handle) (req : request) : M bool :=
  let n := argc req in
  if (n <? 2) || (n =? 4) || (5 <? n) then need_more client req
  else
    with_sender client req (fun from =>
      o <- Channel_Search (arg req 0) ;;
      ch <- (match o with Some ch => ret ch | None => chaninfo_create (arg req 0) end) ;;
      (if Ascii.eqb (hd0 (arg req 1)) "+" then
         ms <- Channel_Modes ch ;;
         whenM (beq ms [])
           (Channel_SetModes ch (tl (arg req 1)) ;;;
            (if n =? 5 then
               k <- Channel_HasMode ch "k" ;; whenM k (Channel_SetKey ch (arg req 2)) ;;;
               l <- Channel_HasMode ch "l" ;; whenM l (Channel_SetMaxUsers ch (atol (arg req 3)))
             else
               void (Channel_ModeDel ch "l") ;;; void (Channel_ModeDel ch "k")) ;;;
            l <- Channel_HasMode ch "l" ;; mx <- Channel_MaxUsers ch ;;
            k <- Channel_HasMode ch "k" ;; key <- Channel_Key ch ;;
            let add := if l then firstn 15 (" "%char :: dec mx) else [] in
            let add := if k then cat (cat add (B " ")) key else add in
            IRC_WriteStrChannelPrefix client ch from false "MODE %s +%s%s"
              [aS (arg req 0); (x <- Channel_Modes ch ;; ret (FS x)); aS add])
       else ret tt) ;;;
      (match (if n =? 5 then Some (arg req 4) else if n =? 3 then Some (arg req 2) else None) with
       | Some topic =>
           old <- Channel_Topic ch ;;
           whenM (beq old [] && negb (beq topic []))
             (Channel_SetTopic ch (Some client) topic ;;;
              IRC_WriteStrChannelPrefix client ch from false "TOPIC %s :%s"
                [aS (arg req 0); (x <- Channel_Topic ch ;; ret (FS x))])
       | None => ret tt
       end) ;;;
      (if n =? 5 then
         IRC_WriteStrServersPrefixFlag (Some client) from (Some "C"%char) "CHANINFO %s %s %s %s :%s"
           [aS (arg req 0); aS (arg req 1); aS (arg req 2); aS (arg req 3); aS (arg req 4)]
       else if n =? 3 then
         IRC_WriteStrServersPrefixFlag (Some client) from (Some "C"%char) "CHANINFO %s %s :%s"
           [aS (arg req 0); aS (arg req 1); aS (arg req 2)]
       else
         IRC_WriteStrServersPrefixFlag (Some client) from (Some "C"%char) "CHANINFO %s %s"
           [aS (arg req 0); aS (arg req 1)]) ;;;
      ret CONNECTED).
