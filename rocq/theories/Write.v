(** Model of src/ngircd/irc-write.c, src/ngircd/channel.c, the notices of src/ngircd/log.c,
    and of the rest of src/ngircd/client.c (announcing and destroying clients). *)
From Coq Require Import List Ascii String ZArith NArith Bool.
From Verif Require Import Bytes Match Lists Hash State Messages Monad Core.
Import ListNotations.
Local Open Scope m_scope.

(** ---------- irc-write.c ---------- *)

(** src/ngircd/irc-write.c:541-557 IRC_SetPenalty *)
Definition IRC_SetPenalty (h : handle) (secs : Z) : M unit :=
  c <- cli h ;;
  if ctype_eqb (cl_type c) T_SERVER then ret tt
  else match cl_conn c with None => ret tt | Some i => Conn_SetPenalty i secs end.

(** src/ngircd/irc-write.c:123-152 IRC_WriteStrClientPrefix for a target behind a server link:
    Get_Prefix (559-569) is Client_ID(Prefix) then.  Used to break the recursion
    Client_MaskCloaked -> Client_UpdateCloakedHostname -> IRC_WriteStrServersPrefixFlag ->
    IRC_WriteStrClientPrefix -> Get_Prefix; servers are their own next hop. *)
Definition Write_Server (to pref : handle) (buf : bytes) : M bool :=
  nh <- Client_NextHop to ;;
  b <- is_type nh T_SERVER ;;
  (if b then ret tt else bad W_Fuel) ;;;
  o <- Client_Conn nh ;; i <- nonnull o ;;
  Conn_WriteStr i ":%s %s" [aID pref; aS buf].

(** src/ngircd/irc-write.c:388-404 IRC_WriteStrServersPrefixFlag_CB *)
Definition Servers_CB (except : option handle) (flag : option ascii) (cb : handle -> M unit) : M unit :=
  l <- Clients ;;
  mfor l (fun h =>
    c <- cli h ;;
    if ctype_eqb (cl_type c) T_SERVER && (match cl_conn c with Some _ => true | None => false end)
       && negb (heq h This_Server) && negb (oheq except h)
    then if match flag with None => true | Some f => strchr0 f (cl_flags c) end then cb h else ret tt
    else ret tt).

(** src/ngircd/irc-write.c:349-377 IRC_WriteStrServersPrefixFlag with its callback 571-575;
    the buffer is formatted once (vsnprintf to 1000 bytes). *)
Definition IRC_WriteStrServersPrefixFlag (except : option handle) (pref : handle) (flag : option ascii)
    (f : string) (args : list marg) : M unit :=
  buf <- vsn 1000 f args ;;
  Servers_CB except flag (fun h => Write_Server h pref buf ;;; ret tt).
(** src/ngircd/irc-write.c:309-336 *)
Definition IRC_WriteStrServersPrefix (except : option handle) (pref : handle) (f : string) (args : list marg) : M unit :=
  IRC_WriteStrServersPrefixFlag except pref None f args.
(** src/ngircd/irc-write.c:275-299 *)
Definition IRC_WriteStrServers (except : option handle) (f : string) (args : list marg) : M unit :=
  IRC_WriteStrServersPrefix except This_Server f args.

(** src/ngircd/client.c:815-852 Client_UpdateCloakedHostname *)
Definition Client_UpdateCloakedHostname (h : handle) (origin : option handle) (host : option bytes) : M unit :=
  c <- cli h ;;
  let origin := match origin with Some o => o | None => This_Server end in
  cx <- cf cf_cloakhostmodex ;; salt <- cf cf_cloaksalt ;;
  new <- (match host with
          | Some t => ret (strlcpy CLIENT_HOST_LEN t)
          | None =>
              if negb (beq cx []) then ret (cloak CLIENT_HOST_LEN cx (cl_host c) salt CLIENT_HOST_LEN)
              else i <- nonnull (cl_introducer c) ;; id <- Client_ID i ;; ret (strlcpy CLIENT_HOST_LEN id)
          end) ;;
  upd_cli h (set_cl_cloaked (Some new)) ;;;
  nh <- Client_NextHop origin ;;
  IRC_WriteStrServersPrefixFlag (Some nh) origin (Some "M"%char) "METADATA %s cloakhost :%s" [aID h; aS new].

(** src/ngircd/client.c:773-788 Client_HostnameDisplayed *)
Definition Client_HostnameDisplayed (h : handle) : M bytes :=
  c <- cli h ;;
  if negb (memb "x" (cl_modes c)) then ret (cl_host c)
  else match cl_cloaked c with
       | Some t => ret t
       | None => Client_UpdateCloakedHostname h None None ;;;
                 c' <- cli h ;; nonnull (cl_cloaked c')
       end.
Definition aHostD (h : handle) : marg := x <- Client_HostnameDisplayed h ;; ret (FS x).

(** src/ngircd/client.c:945-960 Client_MaskCloaked *)
Definition Client_MaskCloaked (h : handle) : M bytes :=
  c <- cli h ;;
  if negb (memb "x" (cl_modes c)) then Client_Mask h
  else d <- Client_HostnameDisplayed h ;; c' <- cli h ;; ret (mask_of c' d).
Definition aMaskC (h : handle) : marg := x <- Client_MaskCloaked h ;; ret (FS x).

(** src/ngircd/irc-write.c:559-569 Get_Prefix *)
Definition Get_Prefix (target h : handle) : M bytes :=
  b <- is_type target T_SERVER ;; if b then Client_ID h else Client_MaskCloaked h.

(** src/ngircd/irc-write.c:123-152 IRC_WriteStrClientPrefix *)
Definition IRC_WriteStrClientPrefix (to pref : handle) (f : string) (args : list marg) : M bool :=
  buf <- vsn 1000 f args ;;
  nh <- Client_NextHop to ;;
  o <- Client_Conn nh ;; i <- nonnull o ;;
  Conn_WriteStr i ":%s %s" [(p <- Get_Prefix nh pref ;; ret (FS p)); aS buf].
(** src/ngircd/irc-write.c:86-111 IRC_WriteStrClient *)
Definition IRC_WriteStrClient (to : handle) (f : string) (args : list marg) : M bool :=
  IRC_WriteStrClientPrefix to This_Server f args.
(** src/ngircd/irc-write.c:49-75 IRC_WriteErrClient *)
Definition IRC_WriteErrClient (to : handle) (f : string) (args : list marg) : M bool :=
  buf <- vsn 1000 f args ;;
  IRC_SetPenalty to 2 ;;;
  IRC_WriteStrClientPrefix to This_Server "%s" [aS buf].

(** src/ngircd/irc-write.c:583-601 Send_Marked_Connections *)
Definition SEND_TO_USER : nat := 1.
Definition SEND_TO_SERVER : nat := 2.
Definition Send_Marked_Connections (pref : handle) (buf : bytes) : M unit :=
  l <- Conn_All ;;
  mfor l (fun i =>
    c <- con i ;;
    if Nat.eqb (co_flag c) SEND_TO_SERVER then Conn_WriteStr i ":%s %s" [aID pref; aS buf] ;;; ret tt
    else if Nat.eqb (co_flag c) SEND_TO_USER then Conn_WriteStr i ":%s %s" [aMaskC pref; aS buf] ;;; ret tt
    else ret tt).

(** Channel_FirstMember/NextMember (channel.c:592-606, 1322-1344): the members of a channel *)
Definition Members (ch : chandle) : M (list handle) :=
  gets (fun s => map mb_client (filter (fun m => Nat.eqb (mb_chan m) ch) (s_members s))).
(** Channel_FirstChannelOf/NextChannelOf (channel.c:609-623): the channels of a client *)
Definition ChannelsOf (h : handle) : M (list chandle) :=
  gets (fun s => map mb_chan (filter (fun m => heq (mb_client m) h) (s_members s))).

(** src/ngircd/irc-write.c:244-264 and 459-476: mark the connections of the members of a
    channel *)
Definition Mark_Members (from : handle) (ch : chandle) (remote : bool) : M unit :=
  l <- Members ch ;;
  mfor l (fun h =>
    c <- cli h ;;
    if negb remote && ((match cl_conn c with None => true | Some _ => false end) || ctype_eqb (cl_type c) T_SERVER)
    then ret tt
    else
      nh <- Client_NextHop h ;;
      if heq nh from then ret tt
      else
        o <- Client_Conn nh ;; i <- nonnull o ;;
        b <- is_type nh T_SERVER ;;
        Conn_SetFlag i (if b then SEND_TO_SERVER else SEND_TO_USER)).

(** src/ngircd/irc-write.c:208-266 IRC_WriteStrChannelPrefix *)
Definition IRC_WriteStrChannelPrefix (from : handle) (ch : chandle) (pref : handle) (remote : bool)
    (f : string) (args : list marg) : M unit :=
  buf <- vsn 1000 f args ;;
  Conn_ClearFlags ;;;
  Mark_Members from ch remote ;;;
  Send_Marked_Connections pref buf.
(** src/ngircd/irc-write.c:165-194 IRC_WriteStrChannel *)
Definition IRC_WriteStrChannel (from : handle) (ch : chandle) (remote : bool) (f : string) (args : list marg) : M unit :=
  IRC_WriteStrChannelPrefix from ch This_Server remote f args.

(** src/ngircd/irc-write.c:420-481 IRC_WriteStrRelatedPrefix *)
Definition IRC_WriteStrRelatedPrefix (h pref : handle) (remote : bool) (f : string) (args : list marg) : M unit :=
  buf <- vsn 1000 f args ;;
  Conn_ClearFlags ;;;
  l <- ChannelsOf h ;;
  mfor l (fun ch => Mark_Members h ch remote) ;;;
  Send_Marked_Connections pref buf.

(** src/ngircd/irc-write.c:491-531 IRC_SendWallops; [from] is the prefix *)
Definition IRC_SendWallops (client from : handle) (f : string) (args : list marg) : M unit :=
  msg <- vsn 1000 f args ;;
  l <- Clients ;;
  mfor l (fun to =>
    c <- cli to ;;
    match cl_conn c with
    | None => ret tt
    | Some _ =>
        match cl_type c with
        | T_USER => if memb "w" (cl_modes c) then IRC_WriteStrClientPrefix to from "WALLOPS :%s" [aS msg] ;;; ret tt else ret tt
        | T_SERVER => if negb (heq to client) then IRC_WriteStrClientPrefix to from "WALLOPS :%s" [aS msg] ;;; ret tt else ret tt
        | _ => ret tt
        end
    end).

(** ---------- channel.c ---------- *)

Definition Chans : M (list chandle) := gets (fun s => map fst (s_chans s)).
Definition Channel_Name (ch : chandle) : M bytes := c <- chan ch ;; ret (ch_name c).     (* channel.c:512-517 *)
Definition Channel_Modes (ch : chandle) : M bytes := c <- chan ch ;; ret (ch_modes c).   (* channel.c:520-525 *)
Definition Channel_HasMode (ch : chandle) (m : ascii) : M bool := c <- chan ch ;; ret (strchr0 m (ch_modes c)). (* channel.c:528-533 *)
Definition Channel_Key (ch : chandle) : M bytes := c <- chan ch ;; ret (ch_key c).       (* channel.c:536-541 *)
Definition Channel_MaxUsers (ch : chandle) : M Z := c <- chan ch ;; ret (ch_maxusers c). (* channel.c:544-549 *)
Definition Channel_Topic (ch : chandle) : M bytes := c <- chan ch ;; ret (ch_topic c).   (* channel.c:818-825 *)
Definition Channel_IsLocal (ch : chandle) : M bool := c <- chan ch ;; ret (Ascii.eqb (hd0 (ch_name c)) "&"). (* channel.h:148 *)
Definition aChan (ch : chandle) : marg := x <- Channel_Name ch ;; ret (FS x).

(** src/ngircd/channel.c:567-589 Channel_Search *)
Definition chan_is (name : bytes) (c : channel) : bool := N.eqb (Hash name) (ch_hash c) && caseeq name (ch_name c).
Definition Channel_Search (name : bytes) : M (option chandle) :=
  gets (fun s => option_map fst (find (fun p => chan_is name (snd p)) (s_chans s))).

(** src/ngircd/channel.c:1024-1039 Get_Cl2Chan *)
Definition is_mb (ch : chandle) (h : handle) (m : member) : bool := Nat.eqb (mb_chan m) ch && heq (mb_client m) h.
Definition Get_Cl2Chan (ch : chandle) (h : handle) : M (option member) :=
  gets (fun s => find (is_mb ch h) (s_members s)).
(** src/ngircd/channel.c:807-815 *)
Definition Channel_IsMemberOf (ch : chandle) (h : handle) : M bool :=
  o <- Get_Cl2Chan ch h ;; ret (match o with Some _ => true | None => false end).
(** src/ngircd/channel.c:765-779 Channel_UserModes *)
Definition Channel_UserModes (ch : chandle) (h : handle) : M bytes :=
  o <- Get_Cl2Chan ch h ;; m <- nonnull o ;; ret (mb_modes m).
(** src/ngircd/channel.c:790-804 Channel_UserHasMode *)
Definition Channel_UserHasMode (ch : chandle) (h : handle) (m : ascii) : M bool :=
  ms <- Channel_UserModes ch h ;; ret (memb m ms).
(** src/ngircd/channel.c:473-488 Channel_MemberCount *)
Definition Channel_MemberCount (ch : chandle) : M Z :=
  gets (fun s => Z.of_nat (List.length (filter (fun m => Nat.eqb (mb_chan m) ch) (s_members s)))).
(** src/ngircd/channel.c:491-509 Channel_CountForUser *)
Definition Channel_CountForUser (h : handle) : M Z :=
  gets (fun s => Z.of_nat (List.length (filter (fun m => heq (mb_client m) h) (s_members s)))).
(** src/ngircd/channel.c:453-470 Channel_CountVisible *)
Definition Channel_CountVisible (o : option handle) : M Z :=
  l <- Chans ;;
  mcount (fun ch => match o with
                    | Some h => orM (notM (Channel_HasMode ch "s")) (Channel_IsMemberOf ch h)
                    | None => ret true
                    end) l.

(** src/ngircd/channel.c:642-657 Channel_IsValidName *)
Definition valid_chan (name : bytes) : bool :=
  strchr0 (hd0 name) (B "#&+")
  && (List.length name <? CHANNEL_NAME_LEN)
  && forallb (fun c => negb (memb c [" "; ","; ":"; "007"]%char)) name.

(** src/ngircd/channel.c:660-680 Channel_ModeAdd *)
Definition Channel_ModeAdd (ch : chandle) (m : ascii) : M bool :=
  c <- chan ch ;;
  let '(ms, b) := mode_add (ch_modes c) m in
  upd_chan ch (set_ch_modes ms) ;;; ret b.
(** src/ngircd/channel.c:683-704 Channel_ModeDel *)
Definition Channel_ModeDel (ch : chandle) (m : ascii) : M bool :=
  c <- chan ch ;;
  let '(ms, b) := mode_del (ch_modes c) m in
  mbs <- gets s_members ;; odd (Ascii.eqb m "P" && negb (existsb (fun x => Nat.eqb (mb_chan x) ch) mbs)) (O_Empty ch) ;;;
  upd_chan ch (set_ch_modes ms) ;;; ret b.

(** Change of the first (only) CL2CHAN structure of a pair *)
Fixpoint upd_mb (ch : chandle) (h : handle) (f : member -> member) (l : list member) : list member :=
  match l with
  | [] => []
  | m :: r => if is_mb ch h m then f m :: r else m :: upd_mb ch h f r
  end.
(** src/ngircd/channel.c:707-732 Channel_UserModeAdd *)
Definition Channel_UserModeAdd (ch : chandle) (h : handle) (m : ascii) : M bool :=
  o <- Get_Cl2Chan ch h ;; mb <- nonnull o ;;
  let '(ms, b) := mode_add (mb_modes mb) m in
  modify (fun s => set_s_members (upd_mb ch h (set_mb_modes ms) (s_members s)) s) ;;; ret b.
(** src/ngircd/channel.c:735-762 Channel_UserModeDel *)
Definition Channel_UserModeDel (ch : chandle) (h : handle) (m : ascii) : M bool :=
  o <- Get_Cl2Chan ch h ;; mb <- nonnull o ;;
  let '(ms, b) := mode_del (mb_modes mb) m in
  modify (fun s => set_s_members (upd_mb ch h (set_mb_modes ms) (s_members s)) s) ;;; ret b.

(** src/ngircd/channel.c:856-881 Channel_SetTopic.  A topic of 512 bytes or more is not stored
    (a shorter old topic stays); it cannot come from a request line. *)
Definition Channel_SetTopic (ch : chandle) (o : option handle) (topic : bytes) : M unit :=
  c <- chan ch ;; t <- now ;;
  (if List.length topic <? COMMAND_LEN then upd_chan ch (set_ch_topic topic)
   else whenM (List.length topic <? List.length (ch_topic c)) (upd_chan ch (set_ch_topic []))) ;;;
  who <- (match o with
          | Some h => b <- is_type h T_SERVER ;; if b then ret DEFAULT_TOPIC_ID else Client_ID h
          | None => ret DEFAULT_TOPIC_ID
          end) ;;
  upd_chan ch (fun c => set_ch_topic_time t (set_ch_topic_who (strlcpy CLIENT_NICK_LEN who) c)).
(** src/ngircd/channel.c:884-891 *)
Fixpoint nodupb (l : bytes) : bool := match l with [] => true | x :: r => negb (memb x r) && nodupb r end.
Definition Channel_SetModes (ch : chandle) (m : bytes) : M unit :=
  odd (negb (nodupb (strlcpy CHANNEL_MODE_LEN m))) (O_Modes ch) ;;;
  upd_chan ch (set_ch_modes (strlcpy CHANNEL_MODE_LEN m)).
(** src/ngircd/channel.c:894-902 *)
Definition Channel_SetKey (ch : chandle) (k : bytes) : M unit := upd_chan ch (set_ch_key (strlcpy CLIENT_PASS_LEN k)).
(** src/ngircd/channel.c:905-912; the parameter is an unsigned long *)
Definition Channel_SetMaxUsers (ch : chandle) (n : Z) : M unit :=
  upd_chan ch (set_ch_maxusers (n mod 18446744073709551616)%Z).

(** src/ngircd/channel.c:997-1021 Channel_Create *)
Definition new_channel (name : bytes) (t : Z) : channel :=
  let n := strlcpy CHANNEL_NAME_LEN name in
  mkChannel n (Hash n) [] [] t 0 [] [] 0 [] [] [] [].
Definition Channel_Create (name : bytes) : M chandle :=
  ch <- gets s_chnext ;; t <- now ;;
  modify (fun s => set_s_chnext (S ch) (set_s_chans ((ch, new_channel name t) :: s_chans s) s)) ;;;
  ret ch.
(** src/ngircd/channel.c:1042-1068 Add_Client (Client_Mask in the debug message dereferences) *)
Definition Add_Client (ch : chandle) (h : handle) : M unit :=
  c <- cli h ;; chan ch ;;;
  odd (negb (ctype_eqb (cl_type c) T_USER || ctype_eqb (cl_type c) T_SERVICE)) (O_Member ch h) ;;;
  modify (fun s => set_s_members (mkMember h ch [] :: s_members s) s).

(** src/ngircd/channel.c:250-283 Channel_Join *)
Definition Channel_Join (h : handle) (name : bytes) : M bool :=
  if negb (valid_chan name) then
    IRC_WriteErrClient h ERR_NOSUCHCHANNEL_MSG [aID h; aS name] ;;; ret false
  else
    o <- Channel_Search name ;;
    match o with
    | Some ch =>
        b <- Channel_IsMemberOf ch h ;;
        if b then ret false else Add_Client ch h ;;; ret true
    | None =>
        ch <- Channel_Create name ;;
        Add_Client ch h ;;; ret true
    end.

(** src/ngircd/channel.c:1350-1376 Delete_Channel *)
Definition Delete_Channel (ch : chandle) : M unit :=
  chan ch ;;; modify (fun s => set_s_chans (adel ch (s_chans s)) s).

(** unlink the first matching CL2CHAN: channel.c:1087-1103 *)
Fixpoint del_mb (ch : chandle) (h : handle) (l : list member) : list member :=
  match l with
  | [] => []
  | m :: r => if is_mb ch h m then r else m :: del_mb ch h r
  end.

Inductive remove_type := REMOVE_PART | REMOVE_QUIT | REMOVE_KICK.   (* channel.c:42-44 *)
(** src/ngircd/channel.c:1071-1158 Remove_Client *)
Definition Remove_Client (ty : remove_type) (ch : chandle) (h origin : handle) (reason : bytes) (inform : bool) : M bool :=
  loc <- Channel_IsLocal ch ;;
  let inform := inform && negb loc in
  b <- Channel_IsMemberOf ch h ;;
  if negb b then ret false
  else
    name <- Channel_Name ch ;;
    modify (fun s => set_s_members (del_mb ch h (s_members s)) s) ;;;
    (match ty with
     | REMOVE_QUIT => ret tt
     | REMOVE_KICK =>
         whenM inform (nh <- Client_NextHop origin ;;
           IRC_WriteStrServersPrefix (Some nh) origin "KICK %s %s :%s" [aS name; aID h; aS reason]) ;;;
         IRC_WriteStrChannelPrefix h ch origin false "KICK %s %s :%s" [aS name; aID h; aS reason] ;;;
         c <- cli h ;;
         whenM ((match cl_conn c with Some _ => true | None => false end) && ctype_eqb (cl_type c) T_USER)
           (IRC_WriteStrClientPrefix h origin "KICK %s %s :%s" [aS name; aID h; aS reason] ;;; ret tt)
     | REMOVE_PART =>
         mp <- cf cf_moreprivacy ;;
         let reason := if mp then [] else reason in
         whenM inform (IRC_WriteStrServersPrefix (Some origin) h "PART %s :%s" [aS name; aS reason]) ;;;
         IRC_WriteStrChannelPrefix origin ch h false "PART %s :%s" [aS name; aS reason] ;;;
         c <- cli origin ;;
         whenM ((match cl_conn c with Some _ => true | None => false end) && ctype_eqb (cl_type c) T_USER)
           (IRC_WriteStrClientPrefix origin h "PART %s :%s" [aS name; aS reason] ;;; ret tt)
     end) ;;;
    p <- Channel_HasMode ch "P" ;;
    (if p then ret tt
     else n <- Channel_MemberCount ch ;; whenM (n =? 0)%Z (Delete_Channel ch)) ;;;
    ret true.

(** src/ngircd/channel.c:293-325 Channel_Part *)
Definition Channel_Part (h origin : handle) (name reason : bytes) : M bool :=
  o <- Channel_Search name ;;
  match o with
  | None => IRC_WriteErrClient h ERR_NOSUCHCHANNEL_MSG [aID h; aS name] ;;; ret false
  | Some ch =>
      b <- Channel_IsMemberOf ch h ;;
      if negb b then IRC_WriteErrClient h ERR_NOTONCHANNEL_MSG [aID h; aS name] ;;; ret false
      else mp <- cf cf_moreprivacy ;;
           Remove_Client REMOVE_PART ch h origin (if mp then [] else reason) true
  end.

(** src/ngircd/channel.c:369-416: may a directly connected user kick? *)
Definition can_kick (ch : chandle) (peer target origin : handle) : M bool :=
  ocm <- cf cf_opercanmode ;;
  orM (Channel_UserHasMode ch peer "q")
 (orM (andM (Channel_UserHasMode ch peer "a") (notM (Channel_UserHasMode ch target "q")))
 (orM (andM (Channel_UserHasMode ch peer "o")
        (andM (notM (Channel_UserHasMode ch target "q")) (notM (Channel_UserHasMode ch target "a"))))
 (orM (andM (Channel_UserHasMode ch peer "h")
        (andM (notM (Channel_UserHasMode ch target "q"))
        (andM (notM (Channel_UserHasMode ch target "a")) (notM (Channel_UserHasMode ch target "o")))))
      (andM (Client_HasMode origin "o") (ret ocm))))).

(** src/ngircd/channel.c:331-420 Channel_Kick *)
Definition Channel_Kick (peer target origin : handle) (name reason : bytes) : M unit :=
  o <- Channel_Search name ;;
  match o with
  | None => IRC_WriteErrClient origin ERR_NOSUCHCHANNEL_MSG [aID origin; aS name] ;;; ret tt
  | Some ch =>
      pt <- Client_Type peer ;; ot <- Client_Type origin ;;
      notin <- (if negb (ctype_eqb pt T_SERVER) && negb (ctype_eqb ot T_SERVICE)
                then notM (Channel_IsMemberOf ch origin) else ret false) ;;
      if notin then IRC_WriteErrClient origin ERR_NOTONCHANNEL_MSG [aID origin; aS name] ;;; ret tt
      else
        b <- Channel_IsMemberOf ch target ;;
        if negb b then
          IRC_WriteErrClient origin ERR_USERNOTINCHANNEL_MSG [aID origin; aID target; aS name] ;;; ret tt
        else if ctype_eqb pt T_USER then
          prot <- andM (orM (Channel_HasMode ch "Q")
                       (orM (Client_HasMode target "q") (is_type target T_SERVICE)))
                       (notM (Client_HasMode origin "o")) ;;
          if prot then IRC_WriteErrClient origin ERR_KICKDENY_MSG [aID origin; aS name; aID target] ;;; ret tt
          else
            ok <- can_kick ch peer target origin ;;
            if negb ok then IRC_WriteErrClient origin ERR_CHANOPPRIVTOOLOW_MSG [aID origin; aS name] ;;; ret tt
            else Remove_Client REMOVE_KICK ch target origin reason true ;;; ret tt
        else Remove_Client REMOVE_KICK ch target origin reason true ;;; ret tt
  end.

(** src/ngircd/channel.c:423-443 Channel_Quit.  [next] is read before a channel may be freed. *)
Definition Channel_Quit (h : handle) (reason : bytes) : M unit :=
  mp <- cf cf_moreprivacy ;;
  let reason := if mp then [] else reason in
  IRC_WriteStrRelatedPrefix h h false "QUIT :%s" [aS reason] ;;;
  l <- Chans ;;
  mfor l (fun ch => Remove_Client REMOVE_QUIT ch h h reason false ;;; ret tt).

(** Lists_Check for a client: src/ngircd/lists.c:317-360 on a list stored in the state; the
    masks are only computed when the list is not empty. *)
Definition Check_List (get : M mlist) (put : mlist -> M unit) (h : handle) : M (option (option bytes)) :=
  l <- get ;;
  match l with
  | [] => ret None
  | _ => mc <- Client_MaskCloaked h ;; m <- Client_Mask h ;;
         let '(r, l') := Lists_CheckReason l mc m in
         put l' ;;; ret r
  end.
Definition is_some {A} (o : option A) : bool := match o with Some _ => true | None => false end.
Definition Check_Bans (ch : chandle) (h : handle) : M bool :=
  r <- Check_List (c <- chan ch ;; ret (ch_bans c)) (fun l => upd_chan ch (set_ch_bans l)) h ;; ret (is_some r).
Definition Check_Excepts (ch : chandle) (h : handle) : M bool :=
  r <- Check_List (c <- chan ch ;; ret (ch_excepts c)) (fun l => upd_chan ch (set_ch_excepts l)) h ;; ret (is_some r).
Definition Check_Invites (ch : chandle) (h : handle) : M bool :=
  r <- Check_List (c <- chan ch ;; ret (ch_invites c)) (fun l => upd_chan ch (set_ch_invites l)) h ;; ret (is_some r).

(** src/ngircd/channel.c:922-970 Can_Send_To_Channel *)
Definition Can_Send_To_Channel (ch : chandle) (from : handle) : M bool :=
  if heq This_Server from then ret true
  else
    o <- Get_Cl2Chan ch from ;;
    let is_member := is_some o in
    let priv := match o with
                | Some m => memb "v" (mb_modes m) || memb "h" (mb_modes m) || memb "o" (mb_modes m)
                            || memb "a" (mb_modes m) || memb "q" (mb_modes m)
                | None => false
                end in
    c <- chan ch ;; f <- cli from ;;
    if memb "n" (ch_modes c) && negb is_member then ret false
    else if memb "M" (ch_modes c) && negb (memb "R" (cl_modes f)) && negb (memb "o" (cl_modes f)) then ret false
    else if priv then ret true
    else if memb "m" (ch_modes c) then ret false
    else
      e <- Check_Excepts ch from ;;
      if e then ret true else notM (Check_Bans ch from).

(** src/ngircd/channel.c:973-994 Channel_Write *)
Definition Channel_Write (ch : chandle) (from client : handle) (cmd : bytes) (senderrors : bool) (text : bytes) : M bool :=
  ok <- Can_Send_To_Channel ch from ;;
  if negb ok then
    if negb senderrors then ret CONNECTED
    else
      m <- Channel_HasMode ch "M" ;;
      if m then IRC_WriteErrClient from ERR_NEEDREGGEDNICK_MSG [aID from; aChan ch]
      else IRC_WriteErrClient from ERR_CANNOTSENDTOCHAN_MSG [aID from; aChan ch]
  else
    o <- Client_Conn from ;;
    opt o Conn_UpdateIdle ;;;
    IRC_WriteStrChannelPrefix client ch from true "%s %s :%s" [aS cmd; aChan ch; aS text] ;;;
    ret CONNECTED.

(** src/ngircd/channel.c:1161-1185 Channel_AddBan, AddExcept, AddInvite *)
Definition Channel_AddBan (ch : chandle) (mask who : bytes) : M unit :=
  t <- now ;; upd_chan ch (fun c => set_ch_bans (Lists_Add (ch_bans c) mask t (Some who) false) c).
Definition Channel_AddExcept (ch : chandle) (mask who : bytes) : M unit :=
  t <- now ;; upd_chan ch (fun c => set_ch_excepts (Lists_Add (ch_excepts c) mask t (Some who) false) c).
Definition Channel_AddInvite (ch : chandle) (mask : bytes) (once : bool) (who : bytes) : M unit :=
  t <- now ;; upd_chan ch (fun c => set_ch_invites (Lists_Add (ch_invites c) mask t (Some who) once) c).

(** src/ngircd/channel.c:1188-1210 ShowChannelList; writes fail only on closed connections *)
Definition ShowChannelList (l : mlist) (h : handle) (ch : chandle) (msg msg_end : string) : M bool :=
  r <- mloop l (fun e =>
    ok <- IRC_WriteStrClient h msg [aID h; aChan ch; aS (le_mask e);
            aS (match le_reason e with Some r => r | None => [] end); aD (le_valid e)] ;;
    ret (if ok then None else Some tt)) ;;
  match r with
  | Some _ => ret DISCONNECTED
  | None => IRC_WriteStrClient h msg_end [aID h; aChan ch]
  end.
(** src/ngircd/channel.c:1213-1249 *)
Definition Channel_ShowBans (h : handle) (ch : chandle) : M bool :=
  c <- chan ch ;; ShowChannelList (ch_bans c) h ch RPL_BANLIST_MSG RPL_ENDOFBANLIST_MSG.
Definition Channel_ShowExcepts (h : handle) (ch : chandle) : M bool :=
  c <- chan ch ;; ShowChannelList (ch_excepts c) h ch RPL_EXCEPTLIST_MSG RPL_ENDOFEXCEPTLIST_MSG.
Definition Channel_ShowInvites (h : handle) (ch : chandle) : M bool :=
  c <- chan ch ;; ShowChannelList (ch_invites c) h ch RPL_INVITELIST_MSG RPL_ENDOFINVITELIST_MSG.

(** src/ngircd/channel.c:1255-1269 Channel_LogServer *)
Definition Channel_LogServer (msg : bytes) : M unit :=
  o <- Channel_Search (B "&SERVER") ;;
  match o with
  | None => ret tt
  | Some sc => Channel_Write sc This_Server This_Server (B "PRIVMSG") false msg ;;; ret tt
  end.

(** src/ngircd/channel.c:1272-1319 Channel_CheckKey; the key file is read through [cf_keyfile]
    (lines as delivered by fgets(3)). *)
Definition Channel_CheckKey (ch : chandle) (h : handle) (key : bytes) : M bool :=
  c <- chan ch ;;
  if negb (memb "k" (ch_modes c)) then ret true
  else if beq key [] then ret false
  else if beq (ch_key c) key then ret true
  else match ch_keyfile c with
       | [] => ret false
       | file =>
           lines <- cf cf_keyfile ;;
           user <- Client_User h ;; id <- Client_ID h ;;
           ret (existsb (fun line =>
             match strchr ":" (trim line) with
             | Some (u, r) =>
                 Match u user &&
                 match strchr ":" (tl r) with
                 | Some (n, r2) => Match n id && beq key (tl r2)
                 | None => false
                 end
             | None => false
             end) (lines file))
       end.

(** ---------- log.c ---------- *)

(** src/ngircd/log.c:264-294 Log_ServerNotice *)
Definition Log_ServerNotice (mode : ascii) (f : string) (args : list marg) : M unit :=
  msg <- vsn 1024 f args ;;
  l <- Clients ;;
  mfor l (fun h =>
    c <- cli h ;;
    if is_some (cl_conn c) && strchr0 mode (cl_modes c)
    then IRC_WriteStrClient h "NOTICE %s :%s%s" [aID h; aS []; aS msg] ;;; ret tt
    else ret tt).

(** src/ngircd/log.c:162-203 Log with LOG_snotice *)
Definition Log_snotice (f : string) (args : list marg) : M unit :=
  msg <- vsn 1024 f args ;;
  Log_ServerNotice "s" "%s" [aS msg] ;;;
  Channel_LogServer msg.

(** ---------- client.c: announcing and destroying ---------- *)

(** src/ngircd/client.c:1480-1515 Client_RegisterWhowas; My_Whowas is an array of MAX_WHOWAS
    entries, s_lastww is Last_Whowas. *)
Definition MAX_WHOWAS : Z := 64.
Definition Client_RegisterWhowas (h : handle) : M unit :=
  mp <- cf cf_moreprivacy ;;
  if mp then ret tt
  else
    c <- cli h ;; t <- now ;;
    if (t - cl_starttime c <? 30)%Z then ret tt
    else
      last <- gets s_lastww ;;
      let slot := if ((MAX_WHOWAS <=? last + 1) || (last + 1 <? 0))%Z then 0%Z else (last + 1)%Z in
      id <- Client_ID h ;; user <- Client_User h ;; host <- Client_HostnameDisplayed h ;;
      info <- Client_Info h ;; i <- Client_Introducer h ;; srv <- Client_ID i ;;
      let e := mkWhowas t (strlcpy CLIENT_NICK_LEN id) (strlcpy CLIENT_HOST_LEN host)
                 (strlcpy CLIENT_USER_LEN user) (strlcpy CLIENT_INFO_LEN info) (strlcpy CLIENT_HOST_LEN srv) in
      modify (fun s => set_s_lastww slot (set_s_whowas (upd_nth (Z.to_nat slot) (fun _ => e) (s_whowas s)) s)).

(** src/ngircd/client.c:1541-1585 Destroy_UserOrService *)
Definition Destroy_UserOrService (h : handle) (txt : bytes) (fwd : option bytes) (sendquit : bool) : M unit :=
  c <- cli h ;;
  (match cl_conn c with
   | Some _ =>
       Log_ServerNotice "c" "Client exiting: %s (%s@%s) [%s]" [aID h; aUser h; aHost h; aS txt] ;;;
       whenM sendquit
         (match fwd with
          | Some m => IRC_WriteStrServersPrefix None h "QUIT :%s" [aS m]
          | None => IRC_WriteStrServersPrefix None h "QUIT :" []
          end)
   | None =>
       whenM sendquit
         (nh <- Client_NextHop h ;;
          match fwd with
          | Some m => IRC_WriteStrServersPrefix (Some nh) h "QUIT :%s" [aS m]
          | None => IRC_WriteStrServersPrefix (Some nh) h "QUIT :" []
          end)
   end) ;;;
  Channel_Quit h (match fwd with Some m => m | None => cl_id c end) ;;;
  Client_RegisterWhowas h.

(** list without an element: unlinking from My_Clients (client.c:273-274) *)
Definition unlink (h : handle) (l : list handle) : list handle := filter (fun x => negb (heq x h)) l.
(** the part of My_Clients in front of an element *)
Fixpoint before (h : handle) (l : list handle) : list handle :=
  match l with
  | [] => []
  | x :: r => if heq x h then [] else x :: before h r
  end.

(** src/ngircd/client.c:227-322 Client_Destroy.  The C loop walks My_Clients, destroys every
    client introduced by the (server) client in front of it in the list, restarting at the head
    each time, and stops when it reaches the client itself. *)
Definition Free_Client (h : handle) : M unit :=
  cli h ;;; odd (heq h This_Server) O_Self ;;; modify (fun s => set_s_heap (adel h (s_heap s)) s).

Definition Destroy_Found (h : handle) (txt : bytes) (fwd : option bytes) (sendquit : bool) : M unit :=
  modify (fun s => set_s_clients (unlink h (s_clients s)) s) ;;;
  c <- cli h ;;
  (match cl_type c with
   | T_USER | T_SERVICE => Destroy_UserOrService h txt fwd sendquit
   | T_SERVER =>
       (if negb (heq h This_Server) then
          match cl_conn c with
          | Some i => Log_snotice "Server ""%s"" unregistered (connection %d): %s."
                        [aS (cl_id c); aD (Z.of_nat i); aS txt]
          | None => Log_snotice "Server ""%s"" unregistered: %s." [aS (cl_id c); aS txt]
          end
        else ret tt) ;;;
       q <- gets s_sigquit ;;
       if q then ret tt
       else
         nh <- Client_NextHop h ;;
         match fwd with
         | Some m => IRC_WriteStrServersPrefix (Some nh) h "SQUIT %s :%s" [aS (cl_id c); aS m]
         | None => IRC_WriteStrServersPrefix (Some nh) h "SQUIT %s :" [aS (cl_id c)]
         end
   | _ => ret tt
   end) ;;;
  Free_Client h.

Fixpoint destroy (n : nat) (h : handle) (log fwd : option bytes) (sendquit : bool) : M unit :=
  match n with
  | O => bad W_Fuel
  | S n' =>
      c <- cli h ;;
      let txt := match log, fwd with Some t, _ => t | None, Some t => t | None, None => B "Reason unknown" end in
      me <- cli This_Server ;;
      let msg := strlcat COMMAND_LEN (strlcat COMMAND_LEN (strlcpy COMMAND_LEN (cl_id me)) (B " ")) (cl_id c) in
      l <- Clients ;;
      child <- (if ctype_eqb (cl_type c) T_SERVER
                then mfind (fun x => cx <- cli x ;; ret (oheq (cl_introducer cx) h)) (before h l)
                else ret None) ;;
      match child with
      | Some x => destroy n' x None (Some msg) false ;;; destroy n' h log fwd sendquit
      | None => if existsb (heq h) l then Destroy_Found h txt fwd sendquit else ret tt
      end
  end.
(** Each recursive call removes a client: twice the number of clients is enough fuel. *)
Definition Client_Destroy (h : handle) (log fwd : option bytes) (sendquit : bool) : M unit :=
  n <- gets (fun s => List.length (s_clients s)) ;; destroy (S (n + n)) h log fwd sendquit.

(** src/ngircd/client.c:1615-1692 Client_Announce *)
Definition Client_Announce (to pref user : handle) : M bool :=
  u <- cli user ;; t <- cli to ;;
  uname <- Client_User user ;;
  i <- nonnull (cl_conn t) ;;
  cn <- con i ;;
  ok <- (if co_rfc1459 cn then
      a <- Conn_WriteStr i "NICK %s :%d" [aID user; aHops1 user] ;;
      if negb a then ret false else
      in_ <- Client_Introducer user ;;
      a <- Conn_WriteStr i ":%s USER %s %s %s :%s" [aID user; aS uname; aS (cl_host u); aID in_; aS (cl_info u)] ;;
      if negb a then ret false else
      if negb (beq (cl_modes u) []) then Conn_WriteStr i ":%s MODE %s +%s" [aID user; aID user; aS (cl_modes u)]
      else ret true
    else
      in_ <- Client_Introducer user ;;
      tok <- Client_MyToken in_ ;;
      if ctype_eqb (cl_type u) T_SERVICE && strchr0 "S" (cl_flags t) then
        IRC_WriteStrClientPrefix to pref "SERVICE %s %d * +%s %d :%s"
          [aMask user; aD tok; aS (cl_modes u); aHops1 user; aS (cl_info u)]
      else
        IRC_WriteStrClientPrefix to pref "NICK %s %d %s %s %d +%s :%s"
          [aID user; aHops1 user; aS uname; aS (cl_host u); aD tok; aS (cl_modes u); aS (cl_info u)]) ;;
  if negb ok then ret DISCONNECTED
  else if strchr0 "M" (cl_flags t) then
    a <- (match cl_cloaked u with
          | Some h => IRC_WriteStrClientPrefix to pref "METADATA %s cloakhost :%s" [aID user; aS h]
          | None => ret true
          end) ;;
    if negb a then ret DISCONNECTED else
    (match cl_account u with
     | Some h => IRC_WriteStrClientPrefix to pref "METADATA %s accountname :%s" [aID user; aS h]
     | None => ret true
     end)
  else ret CONNECTED.

(** src/ngircd/client.c:1313-1345 Client_Introduce *)
Definition Client_Introduce (from : option handle) (h : handle) (t : ctype) : M unit :=
  Client_SetType h t ;;;
  (match from with
   | Some f =>
       o <- Client_Conn f ;; i <- nonnull o ;;
       sv <- Conf_GetServer i ;;
       (match sv with
        | Some n => id <- Client_ID h ;; x <- sv_at n ;;
                    whenM (Conf_NickIsService x id) (Client_SetType h T_SERVICE)
        | None => ret tt
        end)
   | None =>
       o <- Client_Conn h ;; i <- nonnull o ;;
       Log_ServerNotice "c" "Client connecting: %s (%s@%s) [%s] - %s"
         [aID h; aUser h; aHost h; (x <- Conn_IPA i ;; ret (FS x)); (x <- Client_TypeText h ;; ret (FS x))]
   end) ;;;
  Servers_CB from None (fun to =>
    Client_Announce to (match from with Some f => f | None => This_Server end) h ;;; ret tt).

(** ---------- conn.c: closing a connection ---------- *)

(** src/ngircd/conn.c:1034-1181 Conn_Close.  LogMsg is only logged or used as the quit reason
    for notices.  The slot is freed at the end (removed from the list). *)
Definition Conn_Close (i : connid) (log fwd : option bytes) (inform : bool) : M unit :=
  c <- con i ;;
  if co_closing c then ret tt
  else
    assertM (co_open c) ;;;
    upd_con i (set_co_closing true) ;;;
    o <- Conn_GetClient i ;;
    whenM inform
      ((match o with
        | Some h =>
            b <- is_type h T_USER ;;
            (if b then
               c <- con i ;; r <- cf cf_rtext ;;
               Conn_WriteStr i ":%s NOTICE %s :%sConnection statistics: client %.1f kb, server %.1f kb."
                 [aID This_Server; aID h; aS []; aS (r (co_bytes_in c)); aS (r (co_bytes_out c))] ;;; ret tt
             else ret tt) ;;;
            Conn_WriteStr i "ERROR :Closing connection: %s[%s@%s] (%s)"
              [aID h; aUser h; aHost h; aS (match fwd with Some m => m | None => B """""" end)] ;;; ret tt
        | None => Conn_WriteStr i "ERROR :Closing connection" [] ;;; ret tt
        end)) ;;;
    upd_con i (set_co_open false) ;;;
    (match o with Some h => Client_Destroy h log fwd true | None => ret tt end) ;;;
    Conf_UnsetServer i ;;;
    n <- gets s_numconn ;;
    modify (fun s => set_s_conns (adel i (s_conns s)) s) ;;;
    assertM (0 <? n)%Z ;;;
    modify (fun s => set_s_numconn (s_numconn s - 1) s).

(** src/ngircd/client.c:1286-1303 Client_Reject *)
Definition Client_Reject (h : handle) (reason : bytes) (inform : bool) : M unit :=
  let info := if inform then firstn 512 (B "Access denied: " ++ reason) else B "Access denied: Bad password?" in
  o <- Client_Conn h ;; i <- nonnull o ;;
  Conn_Close i (Some reason) (Some info) true.

(** src/ngircd/client.c:1021-1056 Client_CheckNick *)
Definition Client_CheckNick (h : handle) (nick : bytes) : M bool :=
  v <- Client_IsValidNick nick ;;
  mx <- cf cf_maxnick ;;
  if negb v then
    (if mx <=? List.length nick
     then IRC_WriteErrClient h ERR_NICKNAMETOOLONG_MSG [aID h; aS nick; aD (Z.of_nat mx - 1)]
     else IRC_WriteErrClient h ERR_ERRONEUSNICKNAME_MSG [aID h; aS nick]) ;;; ret false
  else
    t <- Client_Type h ;;
    blk <- (if negb (ctype_eqb t T_SERVER) && negb (ctype_eqb t T_SERVICE)
            then Conf_NickIsBlocked nick else ret false) ;;
    if blk then IRC_WriteErrClient h ERR_FORBIDDENNICKNAME_MSG [aID h; aS nick] ;;; ret false
    else
      o <- Client_Search nick ;;
      match o with
      | Some _ => IRC_WriteErrClient h ERR_NICKNAMEINUSE_MSG [aID h; aS nick] ;;; ret false
      | None => ret true
      end.

(** src/ngircd/client.c:1059-1092 Client_CheckID *)
Definition Client_CheckID (h : handle) (id : bytes) : M bool :=
  c <- cli h ;; i <- nonnull (cl_conn c) ;;
  if CLIENT_ID_LEN <? List.length id then
    IRC_WriteErrClient h ERR_ERRONEUSNICKNAME_MSG [aID h; aS id] ;;; ret false
  else
    l <- Clients ;;
    o <- mfind (fun x => cx <- cli x ;; ret (caseeq (cl_id cx) id)) l ;;
    match o with
    | Some _ =>
        let str := firstn 512 (sfmt "ID ""%s"" already registered" [FS id]) in
        Conn_Close i (Some str) (Some str) true ;;; ret false
    | None => ret true
    end.
