(** Model of src/ngircd/irc-server.c, numeric.c and of Channel_InitPredefined (channel.c). *)
From Coq Require Import List Ascii String ZArith NArith Bool.
From Verif Require Import Bytes Match Lists Hash ParseReq State Messages Monad Core Write Info Chan Mode Msg Login Oper.
Import ListNotations.
Local Open Scope m_scope.

(** src/ngircd/ngircd.c:287-306 NGIRCd_ProtoID *)
Definition NGIRCd_ProtoID (opercanmode : bool) : bytes :=
  B "0210-IRC+ ngIRCd|" ++ PACKAGE_VERSION ++ B ":CHLMSX" ++ (if opercanmode then B "o" else []) ++ B " P".

(** ---------- numeric.c ---------- *)

(** src/ngircd/numeric.c:64-76: a nickname in the NJOIN list *)
Definition njoin_nick (xop : bool) (ch : chandle) (cl : handle) (str : bytes) : M bytes :=
  ms <- Channel_UserModes ch cl ;;
  id <- Client_ID cl ;;
  let has (c : ascii) (p : string) (s : bytes) : bytes := if memb c ms then cat s (B p) else s in
  let hasx (c : ascii) (p : string) (s : bytes) : bytes := if xop then has c p s else s in
  ret (cat (has "v"%char "+"%string (hasx "h"%char "%"%string (has "o"%char "@"%string
      (hasx "a"%char "&"%string (hasx "q"%char "~"%string str))))) id).

(** src/ngircd/numeric.c:54-102: the loop over the members; None: return DISCONNECTED *)
Fixpoint announce_members (client : handle) (ch : chandle) (njoin xop : bool) (name start : bytes)
    (l : list handle) (str : bytes) : M (option bytes) :=
  match l with
  | [] => ret (Some str)
  | cl :: r =>
      if njoin then
        let str := if Ascii.eqb (last_char str) ":" then str else cat str (B ",") in
        str <- njoin_nick xop ch cl str ;;
        if COMMAND_LEN - CLIENT_NICK_LEN - 8 <? List.length str then
          ok <- IRC_WriteStrClient client "%s" [aS str] ;;
          if negb ok then ret None else announce_members client ch njoin xop name start r start
        else announce_members client ch njoin xop name start r str
      else
        ok <- ((IRC_WriteStrClientPrefix client cl "JOIN %s" [aS name]) >>>
               (ms <- Channel_UserModes ch cl ;;
                mall ms (fun m => IRC_WriteStrClientPrefix client cl "MODE %s +%c %s" [aS name; aC m; aID cl]))) ;;
        if negb ok then ret None else announce_members client ch njoin xop name start r str
  end.

(** src/ngircd/numeric.c:39-112 Announce_Channel *)
Definition Announce_Channel (client : handle) (ch : chandle) : M bool :=
  o <- Client_Conn client ;; i <- nonnull o ;; cn <- con i ;;
  xop <- Client_HasFlag client "X" ;;
  name <- Channel_Name ch ;;
  l <- Members ch ;;
  let start := firstn (COMMAND_LEN - 1) (B "NJOIN " ++ name ++ B " :") in
  r <- announce_members client ch (negb (co_rfc1459 cn)) xop name start l start ;;
  match r with
  | None => ret DISCONNECTED
  | Some str => if Ascii.eqb (last_char str) ":" then ret CONNECTED else IRC_WriteStrClient client "%s" [aS str]
  end.

(** src/ngircd/numeric.c:119-143 Announce_Server *)
Definition server_args (h : handle) : list marg :=
  [aID h; aHops1 h; (t <- Client_MyToken h ;; ret (FD t)); aInfo h].
Definition Announce_Server (client server : handle) : M bool :=
  o <- Client_Conn server ;;
  (whenB (is_some o) (IRC_WriteStrClient server "SERVER %s %d %d :%s" (server_args client))) >>>
  (hops <- Client_Hops server ;;
   c <- (if (hops =? 1)%Z then ret This_Server else t <- Client_TopServer server ;; nonnull t) ;;
   IRC_WriteStrClientPrefix client c "SERVER %s %d %d :%s" (server_args server)).

(** src/ngircd/numeric.c:150-165 Send_List *)
Definition Send_List (client : handle) (ch : chandle) (l : mlist) (ty : ascii) : M bool :=
  mall l (fun e => IRC_WriteStrClient client "MODE %s +%c %s" [aChan ch; aC ty; aS (le_mask e)]).

(** src/ngircd/numeric.c:173-207 Synchronize_Lists *)
Definition Synchronize_Lists (client : handle) : M bool :=
  g <- gets s_glines ;; t <- now ;;
  (mall g (fun e =>
     let d := (le_valid e - t)%Z in
     IRC_WriteStrClient client "GLINE %s %ld :%s"
       [aS (le_mask e); aD (if (0 <? d)%Z then d else 0); aS (match le_reason e with Some r => r | None => [] end)])) >>>
  (l <- Chans ;;
   mall l (fun ch =>
     c <- chan ch ;;
     (Send_List client ch (ch_excepts c) "e") >>>
     (Send_List client ch (ch_bans c) "b") >>>
     (Send_List client ch (ch_invites c) "I"))).

(** src/ngircd/numeric.c:214-249 Send_CHANINFO *)
Definition Send_CHANINFO (client : handle) (ch : chandle) : M bool :=
  c <- chan ch ;;
  let modes := ch_modes c in
  let topic := ch_topic c in
  let has_k := memb "k" modes in
  let has_l := memb "l" modes in
  if beq modes [] && beq topic [] then ret CONNECTED
  else if negb has_k && negb has_l then
    if beq topic [] then IRC_WriteStrClient client "CHANINFO %s +%s" [aChan ch; aS modes]
    else IRC_WriteStrClient client "CHANINFO %s +%s :%s" [aChan ch; aS modes; aS topic]
  else
    IRC_WriteStrClient client "CHANINFO %s +%s %s %lu :%s"
      [aChan ch; aS modes; aS (if has_k && negb (beq (ch_key c) []) then ch_key c else B "*");
       aD (if has_l then ch_maxusers c else 0); aS topic].

(** 0, 1, ..., n - 1 *)
Definition zrange (n : Z) : list Z := map Z.of_nat (seq 0 (Z.to_nat n)).

(** src/ngircd/numeric.c:258-344 IRC_Num_ENDOFMOTD *)
Definition IRC_Num_ENDOFMOTD (client : handle) : M bool :=
  Client_SetType client T_SERVER ;;;
  o <- Client_Conn client ;;
  Log_snotice "Server ""%s"" registered (connection %d, 1 hop - direct link)."
    [aID client; aD (match o with Some i => Z.of_nat i | None => -1 end)] ;;;
  l <- Clients ;;
  max_hops <- mfold (fun m h => n <- Client_Hops h ;; ret (Z.max m n)) l 0%Z ;;
  (mall (zrange (max_hops + 1)) (fun i =>
     mall l (fun c =>
       x <- cli c ;;
       if ctype_eqb (cl_type x) T_SERVER && (cl_hops x =? i)%Z && negb (heq c client || heq c This_Server)
       then Announce_Server client c else ret true))) >>>
  (mall l (fun c =>
     x <- cli c ;;
     if ctype_eqb (cl_type x) T_USER || ctype_eqb (cl_type x) T_SERVICE
     then Client_Announce client This_Server c else ret true)) >>>
  (chs <- Chans ;;
   mall chs (fun ch =>
     loc <- Channel_IsLocal ch ;;
     if loc then ret true
     else
       hc <- Client_HasFlag client "C" ;;
       (whenB hc (Send_CHANINFO client ch)) >>> (Announce_Channel client ch))) >>>
  (hl <- Client_HasFlag client "L" ;; whenB hl (Synchronize_Lists client)) >>>
  (IRC_WriteStrClient client "PING :%s" [aID This_Server]).

(** src/ngircd/numeric.c:349-379 IRC_Num_ISUPPORT: parameters 1 .. argc - 2 *)
Definition bad_nicklen (maxnick : nat) (a : bytes) : bool :=
  let '(key, value) := split1 "=" a in
  beq key (B "NICKLEN")
  && negb ((atol (match value with Some v => v | None => [] end)) mod 4294967296 =? Z.of_nat maxnick - 1)%Z.
Definition IRC_Num_ISUPPORT (client : handle) (req : request) : M bool :=
  mx <- cf cf_maxnick ;;
  if existsb (bad_nicklen mx) (removelast (tl (rq_args req))) then
    o <- Client_Conn client ;; i <- nonnull o ;;
    Conn_Close i (Some (B "Incompatible nickname length")) None false ;;; ret DISCONNECTED
  else ret CONNECTED.

(** ---------- irc-server.c ---------- *)

(** src/ngircd/irc-server.c:117-172: a checked peer becomes a server; TOKEN_OUTBOUND is -2.
    [false]: return DISCONNECTED. *)
Definition server_become (client : handle) (i : connid) (sv : cserver) (req : request) : M bool :=
  Client_SetID client (arg req 0) ;;;
  Client_SetHops client 1 ;;;
  Client_SetInfo client (List.last (rq_args req) []) ;;;
  tok <- Client_Token client ;;
  ok <- (if negb (tok =? -2)%Z then
           ocm <- cf cf_opercanmode ;; name <- cf cf_servername ;; info <- cf cf_serverinfo ;;
           ok <- ((IRC_WriteStrClient client "PASS %s %s" [aS (sv_pwd_out sv); aS (NGIRCd_ProtoID ocm)]) >>>
                  (IRC_WriteStrClient client "SERVER %s 1 :%s" [aS name; aS info])) ;;
           if negb ok then Conn_Close i (Some (B "Unexpected server behavior!")) None false ;;; ret false
           else Client_SetIntroducer client client ;;; Client_SetToken client 1 ;;; ret true
         else Client_SetToken client (atoi (arg req 1)) ;;; ret true) ;;
  if negb ok then ret DISCONNECTED
  else
    gp <- is_type client T_GOTPASS ;;
    whenM gp (upd_con i (set_co_rfc1459 true)) ;;;
    Client_SetType client T_UNKNOWNSERVER ;;;
    ret true.

(** src/ngircd/irc-server.c:64-190: a peer registers itself as a server. *)
Definition server_register (client : handle) (i : connid) (req : request) : M bool :=
  let close (why : string) : M bool := Conn_Close i None (Some (B why)) true ;;; ret DISCONNECTED in
  if negb (argc req =? 2) && negb (argc req =? 3) then need_more client req
  else
    o <- find_server (fun sv => caseeq (arg req 0) (sv_name sv)) ;;
    match o with
    | None => close "Server not configured here"%string
    | Some n =>
        sv <- sv_at n ;;
        pwd <- Conn_Password i ;;
        if negb (beq pwd (sv_pwd_in sv)) then close "Bad password"%string
        else
          (Client_CheckID client (arg req 0)) >>>
          (Conf_SetServer n i) >>>
          (server_become client i sv req) >>>
          (hf <- Client_HasFlag client "H" ;;
           if hf then
             (IRC_Send_ISUPPORT client) >>> (IRC_WriteStrClient client RPL_ENDOFMOTD_MSG [aID client])
           else IRC_Num_ENDOFMOTD client)
    end.

(** src/ngircd/irc-server.c:191-251: a server introduces another server *)
Definition server_introduce (client : handle) (i : connid) (req : request) : M bool :=
  let close (why : string) : M bool := Conn_Close i None (Some (B why)) true ;;; ret DISCONNECTED in
  if negb (argc req =? 4) then need_more client req
  else
    (Client_CheckID client (arg req 0)) >>>
    (match rq_prefix req with
     | None => close "SERVER command without prefix"%string
     | Some p =>
         o <- Client_Search p ;;
         match o with
         | None => close "Unknown ID in prefix of SERVER"%string
         | Some from =>
             c <- Client_NewRemoteServer client (arg req 0) (Some from) (atoi (arg req 1)) (atoi (arg req 2))
                    (arg req 3) true ;;
             hops <- Client_Hops c ;;
             str <- (if (1 <? hops)%Z && negb (beq p [])
                     then vsn 100 "connected to %s, " [aID from] else ret []) ;;
             Log_snotice "Server ""%s"" registered (via %s, %s%d hop%s)."
               [aID c; aID client; aS str; aD hops; aS (if (1 <? hops)%Z then B "s" else [])] ;;;
             IRC_WriteStrServersPrefix (Some client) from "SERVER %s %d %d :%s" (server_args c) ;;;
             ret CONNECTED
         end
     end).

(** src/ngircd/irc-server.c:49-255 IRC_SERVER *)
Definition IRC_SERVER (client : handle) (req : request) : M bool :=
  c <- cli client ;;
  match cl_conn c with
  | None => IRC_WriteErrClient client ERR_UNKNOWNCOMMAND_MSG [aID client; aS (rq_command req)]
  | Some i =>
      match cl_type c with
      | T_GOTPASS | T_GOTPASS_2813 => server_register client i req
      | T_SERVER => server_introduce client i req
      | _ => need_more client req
      end
  end.

(** src/ngircd/irc-server.c:281-298: the prefixes of a nickname in NJOIN, as modes *)
Definition njoin_prefixes : list (ascii * ascii) :=
  [("~", "q"); ("&", "a"); ("@", "o"); ("%", "h"); ("+", "v")]%char.
Definition is_njoin_prefix (c : ascii) : bool := existsb (fun p => Ascii.eqb c (fst p)) njoin_prefixes.
Fixpoint take_while (f : ascii -> bool) (s : bytes) : bytes :=
  match s with c :: r => if f c then c :: take_while f r else [] | [] => [] end.
(** the prefixes given, in the order of the code (each once) *)
Definition njoin_given (p : bytes) : list (ascii * ascii) := filter (fun x => memb (fst x) p) njoin_prefixes.

(** src/ngircd/irc-server.c:281-368: one nickname; the result is the new nick_out *)
Definition njoin_one (client : handle) (channame ptr nick_out : bytes) : M bytes :=
  let given := njoin_given (take_while is_njoin_prefix ptr) in
  let nick := drop_while is_njoin_prefix ptr in
  o <- Client_Search nick ;;
  match o with
  | None => ret nick_out
  | Some c =>
      ok <- Channel_Join c channame ;;
      if negb ok then void (IRC_KillClient None None nick (B "Internal NJOIN error!")) ;;; ret nick_out
      else
        oc <- Channel_Search channame ;; ch <- nonnull oc ;;
        mfor given (fun p => void (Channel_UserModeAdd ch c (snd p))) ;;;
        IRC_WriteStrChannelPrefix client ch c false "JOIN :%s" [aS channame] ;;;
        ci <- Client_Conn c ;;
        whenM (is_some ci) (void (IRC_Send_Channel_Info c ch)) ;;;
        ms <- Channel_UserModes ch c ;;
        let modes := strlcpy 8 ms in
        whenM (negb (beq modes []))
          (IRC_WriteStrChannelPrefix client ch client false "MODE %s +%s %s" [aS channame; aS modes; aID c]) ;;;
        let out := match nick_out with [] => [] | _ => cat nick_out (B ",") end in
        ret (cat (fold_left (fun s p => cat s [fst p]) given out) nick)
  end.

(** src/ngircd/irc-server.c:264-376 IRC_NJOIN *)
Definition IRC_NJOIN (client : handle) (req : request) : M bool :=
  out <- mfold (fun out ptr => njoin_one client (arg req 0) ptr out)
           (strtok "," (strlcpy COMMAND_LEN (arg req 1))) [] ;;
  whenM (negb (beq out []))
    (IRC_WriteStrServersPrefix (Some client) This_Server "NJOIN %s :%s" [aS (arg req 0); aS out]) ;;;
  ret CONNECTED.

(** src/ngircd/irc-server.c:430-474: tear down the target *)
Definition squit_do (client from target : handle) (req : request) : M bool :=
  cc <- Client_Conn client ;; tc <- Client_Conn target ;;
  nh <- Client_NextHop from ;;
  msg <- (if negb (beq (arg req 1) []) then
            if negb (heq nh client) || is_some tc
            then line """%s"" (SQUIT from %s)" [aS (arg req 1); aID from]
            else ret (strlcpy COMMAND_LEN (arg req 1))
          else line "Got SQUIT from %s" [aID from]) ;;
  match tc with
  | Some i =>
      IRC_SendWallops This_Server This_Server "Received SQUIT %s from %s: %s"
        [aS (arg req 0); aID from; aS (match arg req 1 with [] => B "-" | x => x end)] ;;;
      Conn_Close i None (Some msg) true ;;;
      ret (if match cc with Some j => Nat.eqb i j | None => false end then DISCONNECTED else CONNECTED)
  | None =>
      fs <- is_type from T_SERVER ;;
      (if negb fs then
         nh <- Client_NextHop target ;;
         void (IRC_WriteStrClientPrefix nh from "SQUIT %s :%s" [aS (arg req 0); aS (arg req 1)])
       else
         logmsg <- (if memb "(" msg then ret msg else line """%s"" (SQUIT from %s)" [aS (arg req 1); aID from]) ;;
         Client_Destroy target (Some logmsg) (Some msg) false) ;;;
      ret CONNECTED
  end.

(** src/ngircd/irc-server.c:385-475 IRC_SQUIT.  Client_Type(from) fails its assert when the prefix
    is unknown. *)
Definition IRC_SQUIT (client : handle) (req : request) : M bool :=
  c <- cli client ;;
  let srv := ctype_eqb (cl_type c) T_SERVER in
  if negb srv && negb (memb "o" (cl_modes c)) then Op_NoPrivileges client req
  else
    r <- (match rq_prefix req with
          | Some p =>
              if srv then
                o <- Client_Search p ;; from <- nonnull o ;;
                fs <- is_type from T_SERVER ;;
                ok <- (if fs then ret true else oc <- Op_Check client req ;; ret (is_some oc)) ;;
                ret (if ok then Some from else None)
              else ret (Some client)
          | None => ret (Some client)
          end) ;;
    match r with
    | None => Op_NoPrivileges client req
    | Some from =>
        whenM (ctype_eqb (cl_type c) T_USER)
          (Log_snotice "Got SQUIT from %s for ""%s"": ""%s"" ..." [aID from; aS (arg req 0); aS (arg req 1)]) ;;;
        o <- Client_Search (arg req 0) ;;
        if negb srv && oheq o This_Server then Op_NoPrivileges client req
        else match o with
             | None => ret CONNECTED
             | Some target => squit_do client from target req
             end
    end.

(** ---------- channel.c ---------- *)

(** src/ngircd/channel.c:147-180: the configured modes of a predefined channel; [n]: 15 words *)
Definition predefined_modes (ch : chandle) (cc : cchan) : M unit :=
  me <- Client_ID This_Server ;;
  mfor (cc_modes cc) (fun m =>
    match firstn 14 (strtok " " (strlcpy COMMAND_LEN m)) with
    | [] => ret tt
    | a :: r =>
        whenM (memb "k" a) (Channel_SetKey ch (cc_key cc) ;;; void (Channel_ModeAdd ch "k")) ;;;
        whenM (memb "l" a) (Channel_SetMaxUsers ch (cc_maxusers cc) ;;; void (Channel_ModeAdd ch "l")) ;;;
        void (IRC_MODE This_Server (mkReq (Some me) (B "MODE") (strlcpy CHANNEL_NAME_LEN (cc_name cc) :: a :: r)))
    end).

(** src/ngircd/channel.c:94-202 Channel_InitPredefined *)
Definition Channel_InitPredefined : M unit :=
  l <- cf cf_channels ;;
  mfor l (fun cc =>
    if beq (cc_name cc) [] || negb (valid_chan (cc_name cc)) then ret tt
    else
      o <- Channel_Search (cc_name cc) ;;
      match o with
      | Some ch => upd_chan ch (set_ch_keyfile (cc_keyfile cc))
      | None =>
          ch <- Channel_Create (cc_name cc) ;;
          void (Channel_ModeAdd ch "P") ;;;
          whenM (negb (beq (cc_topic cc) [])) (Channel_SetTopic ch None (cc_topic cc)) ;;;
          predefined_modes ch cc ;;;
          upd_chan ch (set_ch_keyfile (cc_keyfile cc))
      end) ;;;
  o <- Channel_Search (B "&SERVER") ;;
  match o with
  | Some _ => ret tt
  | None =>
      ch <- Channel_Create (B "&SERVER") ;;
      Channel_SetModes ch (B "mnPt") ;;;
      Channel_SetTopic ch (Some This_Server) (B "Server Messages")
  end.
