(** Model of the lowest layer of the server: conn-func.c, Conn_WriteStr (conn.c), the accessors
    and setters of client.c, and the configured servers (conf.c).

    Not modelled: log output (syslog/console) apart from notices sent to clients; failing
    malloc(3); failing or partial socket writes (Conn_Write only fails on closed connections). *)
From Coq Require Import List Ascii String ZArith NArith Bool.
From Verif Require Import Bytes Match Lists Hash State Messages Monad.
Import ListNotations.
Local Open Scope m_scope.

(** src/ngircd/defines.h:101-151 *)
Definition CLIENT_ID_LEN : nat := 64.
Definition CLIENT_NICK_LEN : nat := 32.
Definition CLIENT_PASS_LEN : nat := 65.
Definition CLIENT_USER_LEN : nat := 20.
Definition CLIENT_HOST_LEN : nat := 64.
Definition CLIENT_MODE_LEN : nat := 21.
Definition CLIENT_INFO_LEN : nat := 128.
Definition CLIENT_AWAY_LEN : nat := 128.
Definition CLIENT_FLAGS_LEN : nat := 16.
Definition CHANNEL_NAME_LEN : nat := 51.
Definition CHANNEL_MODE_LEN : nat := 21.
(** src/ngircd/client.c:41 GETID_LEN *)
Definition GETID_LEN : nat := 116.
Definition DEFAULT_AWAY_MSG : bytes := B "Away".       (* defines.h:195 *)
Definition DEFAULT_TOPIC_ID : bytes := B "-Server-".   (* defines.h:198 *)
(** CONNECTED / DISCONNECTED: src/ngircd/defines.h / conn.h *)
Definition CONNECTED : bool := true.
Definition DISCONNECTED : bool := false.

(** A C string ends at its first NUL byte. *)
Fixpoint cut0 (s : bytes) : bytes :=
  match s with
  | [] => []
  | c :: r => if Ascii.eqb c NUL then [] else c :: cut0 r
  end.

(** Arguments of the printf-like functions are evaluated before the call. *)
Definition marg := M farg.
Definition aS (s : bytes) : marg := ret (FS s).
Definition aD (z : Z) : marg := ret (FD z).
Definition aC (c : ascii) : marg := ret (FC c).

(** vsnprintf(buffer, n, Format, ap) *)
Definition vsn (n : nat) (f : string) (args : list marg) : M bytes :=
  l <- mseq args ;; ret (firstn (n - 1) (cut0 (fmt (B f) l))).

(** ---------- conn-func.c and the output side of conn.c ---------- *)

(** src/ngircd/conn.c:856-907: the line as it is put on the wire. *)
Definition wire (t : bytes) : bytes :=
  let t := cut0 t in
  (if 511 <=? List.length t then firstn 505 t ++ B "[CUT]" else t) ++ [CR; LF].

(** src/ngircd/conn.c:948-1021 Conn_Write for an open connection, without flushing: data is
    appended to the stream of the connection. *)
Definition emit (i : connid) (l : bytes) : M unit :=
  modify (fun s => set_s_out ((i, l) :: s_out s)
                  (set_s_wcounter (s_wcounter s + Z.of_nat (List.length l)) s)) ;;;
  upd_con i (fun c => set_co_bytes_out (co_bytes_out c + Z.of_nat (List.length l)) c).

(** src/ngircd/conn.c:830-913 Conn_WriteStr, 948-1021 Conn_Write.  Conn_Write looks up the
    type of the client of the connection (line 967-973). *)
Definition Conn_WriteStr (i : connid) (f : string) (args : list marg) : M bool :=
  l <- mseq args ;;
  c <- con i ;;
  ok <- (if co_open c then
           (match co_client c with Some h => cli h ;;; ret tt | None => ret tt end) ;;;
           emit i (wire (fmt (B f) l)) ;;; ret true
         else ret false) ;;
  upd_con i (fun c => set_co_msg_out (co_msg_out c + 1) c) ;;;
  ret ok.

(** src/ngircd/conn.c:2425-2434 Conn_GetClient *)
Definition Conn_GetClient (i : connid) : M (option handle) := c <- con i ;; ret (co_client c).

(** src/ngircd/conn.c:915-923 Conn_Password *)
Definition Conn_Password (i : connid) : M bytes :=
  c <- con i ;; ret (match co_pwd c with Some p => p | None => [] end).
(** src/ngircd/conn.c:925-938 Conn_SetPassword *)
Definition Conn_SetPassword (i : connid) (p : bytes) : M unit := upd_con i (set_co_pwd (Some p)).
(** src/ngircd/conn.c:1253-1258 Conn_GetIPAInfo, conn-func.c:283-288 Conn_IPA *)
Definition Conn_IPA (i : connid) : M bytes := c <- con i ;; ret (co_ip c).
(** src/ngircd/conn-func.c:35-40 *)
Definition Conn_UpdateIdle (i : connid) : M unit := t <- now ;; upd_con i (set_co_lastprivmsg t).
(** src/ngircd/conn-func.c:51-56 *)
Definition Conn_UpdatePing (i : connid) (t : Z) : M unit := upd_con i (set_co_lastping t).
(** src/ngircd/conn-func.c:61-66 *)
Definition Conn_GetSignon (i : connid) : M Z := c <- con i ;; ret (co_signon c).
(** src/ngircd/conn-func.c:68-74 *)
Definition Conn_GetIdle (i : connid) : M Z := c <- con i ;; t <- now ;; ret (t - co_lastprivmsg c)%Z.
(** src/ngircd/conn-func.c:76-81 *)
Definition Conn_LastPing (i : connid) : M Z := c <- con i ;; ret (co_lastping c).

(** src/ngircd/conn-func.c:94-120 Conn_SetPenalty: the new delaytime. *)
Definition penalty (maxpen t old secs : Z) : Z :=
  let secs := if ((0 <=? maxpen) && (maxpen <? secs) && (secs <? 10))%Z then maxpen else secs in
  (Z.max old t + secs)%Z.
Definition Conn_SetPenalty (i : connid) (secs : Z) : M unit :=
  m <- cf cf_maxpenalty ;; t <- now ;;
  upd_con i (fun c => set_co_delaytime (penalty m t (co_delaytime c) secs) c).

(** src/ngircd/conn-func.c:122-128 *)
Definition Conn_ClearFlags : M unit :=
  modify (fun s => set_s_conns (map (fun p => (fst p, set_co_flag 0 (snd p))) (s_conns s)) s).
(** src/ngircd/conn-func.c:137-142 *)
Definition Conn_SetFlag (i : connid) (f : nat) : M unit := upd_con i (set_co_flag f).
(** src/ngircd/conn-func.c:144-168: Conn_First/Conn_Next enumerate the open connections (the
    order, by index in C, is the order of the list here). *)
Definition Conn_All : M (list connid) :=
  gets (fun s => map fst (filter (fun p => co_open (snd p)) (s_conns s))).

(** ---------- client.c: access ---------- *)

Definition Client_Type (h : handle) : M ctype := c <- cli h ;; ret (cl_type c).     (* client.c:680-685 *)
Definition is_type (h : handle) (t : ctype) : M bool := c <- cli h ;; ret (ctype_eqb (cl_type c) t).
Definition Client_Conn (h : handle) : M (option connid) := c <- cli h ;; ret (cl_conn c).  (* client.c:688-693 *)
(** src/ngircd/client.c:696-706 Client_ID *)
Definition Client_ID (h : handle) : M bytes :=
  c <- cli h ;; mx <- cf cf_maxnick ;;
  assertM (negb (ctype_eqb (cl_type c) T_USER) || (List.length (cl_id c) <? mx)) ;;;
  ret (match cl_id c with [] => B "*" | _ => cl_id c end).
Definition Client_Info (h : handle) : M bytes := c <- cli h ;; ret (cl_info c).     (* client.c:709-714 *)
(** src/ngircd/client.c:717-722 Client_User *)
Definition Client_User (h : handle) : M bytes :=
  c <- cli h ;; ret (match cl_user c with [] => B "~" | _ => cl_user c end).
Definition Client_Hostname (h : handle) : M bytes := c <- cli h ;; ret (cl_host c).  (* client.c:746-751 *)
Definition Client_Modes (h : handle) : M bytes := c <- cli h ;; ret (cl_modes c).    (* client.c:854-859 *)
Definition Client_Hops (h : handle) : M Z := c <- cli h ;; ret (cl_hops c).          (* client.c:870-875 *)
Definition Client_Token (h : handle) : M Z := c <- cli h ;; ret (cl_token c).        (* client.c:878-883 *)
Definition Client_MyToken (h : handle) : M Z := c <- cli h ;; ret (cl_mytoken c).    (* client.c:886-891 *)
Definition Client_Away (h : handle) : M (option bytes) := c <- cli h ;; ret (cl_away c).  (* client.c:995-1000 *)
Definition Client_AccountName (h : handle) : M (option bytes) := c <- cli h ;; ret (cl_account c). (* client.c:1003-1008 *)
(** src/ngircd/client.c:963-968 Client_Introducer; NULL fails the assert of whatever uses it *)
Definition Client_Introducer (h : handle) : M handle := c <- cli h ;; nonnull (cl_introducer c).
Definition Client_TopServer (h : handle) : M (option handle) := c <- cli h ;; ret (cl_topserver c). (* client.c:971-976 *)
(** src/ngircd/client.c:979-984 Client_HasMode; strchr(3) finds the terminating NUL, too. *)
Definition Client_HasMode (h : handle) (m : ascii) : M bool := c <- cli h ;; ret (strchr0 m (cl_modes c)).
Definition Client_HasFlag (h : handle) (m : ascii) : M bool := c <- cli h ;; ret (strchr0 m (cl_flags c)). (* client.c:987-992 *)
(** src/ngircd/client.c:790-803 Client_IPAText *)
Definition Client_IPAText (h : handle) : M bytes :=
  c <- cli h ;;
  match cl_conn c with
  | None => ret (B "0.0.0.0")
  | Some i => match cl_ipa c with Some t => ret t | None => Conn_IPA i end
  end.
(** src/ngircd/client.c:1518-1535 Client_TypeText *)
Definition Client_TypeText (h : handle) : M bytes :=
  t <- Client_Type h ;;
  ret (match t with T_USER => B "User" | T_SERVICE => B "Service" | T_SERVER => B "Server" | _ => B "Client" end).

(** Client_First()/Client_Next(): the list My_Clients (loops never unlink clients unless
    noted). *)
Definition Clients : M (list handle) := gets s_clients.

(** arguments for printf-like functions *)
Definition aID (h : handle) : marg := x <- Client_ID h ;; ret (FS x).
Definition aUser (h : handle) : marg := x <- Client_User h ;; ret (FS x).
Definition aHost (h : handle) : marg := x <- Client_Hostname h ;; ret (FS x).
Definition aInfo (h : handle) : marg := x <- Client_Info h ;; ret (FS x).
Definition aModes (h : handle) : marg := x <- Client_Modes h ;; ret (FS x).
Definition aHops1 (h : handle) : marg := x <- Client_Hops h ;; ret (FD (x + 1)%Z).

(** src/ngircd/client.c:894-906 Client_NextHop.  Introducers form a tree in every state
    reached; a cycle would be an endless loop (here: fuel). *)
Fixpoint NextHop (n : nat) (h : handle) : M handle :=
  match n with
  | O => bad W_Fuel
  | S n' =>
      c <- cli h ;;
      match cl_introducer c with
      | Some i => if heq i h || heq i This_Server then ret h else NextHop n' i
      | None => ret h
      end
  end.
Definition Client_NextHop (h : handle) : M handle :=
  n <- gets (fun s => List.length (s_heap s)) ;; NextHop (S n) h.

(** src/ngircd/client.c:917-931 Client_Mask *)
Definition mask_of (c : client) (host : bytes) : bytes :=
  firstn (GETID_LEN - 1) (cl_id c ++ "!"%char :: cl_user c ++ "@"%char :: host).
Definition Client_Mask (h : handle) : M bytes :=
  c <- cli h ;; ret (if ctype_eqb (cl_type c) T_SERVER then cl_id c else mask_of c (cl_host c)).
Definition aMask (h : handle) : marg := x <- Client_Mask h ;; ret (FS x).

(** src/ngircd/client.c:597-620 Client_Search *)
Definition search_id (nick : bytes) : bytes :=
  let s := strlcpy CLIENT_ID_LEN nick in
  match strchr "!" s with Some (p, _) => p | None => s end.
Definition Client_Search (nick : bytes) : M (option handle) :=
  let sid := search_id nick in
  let sh := Hash sid in
  l <- Clients ;;
  mfind (fun h => c <- cli h ;; ret (N.eqb (cl_hash c) sh && caseeq (cl_id c) sid)) l.

(** src/ngircd/client.c:631-652 Client_SearchServer *)
Definition Client_SearchServer (mask : bytes) : M (option handle) :=
  me <- Client_ID This_Server ;;
  if MatchCaseInsensitive mask me then ret (Some This_Server)
  else
    l <- Clients ;;
    mfind (fun h => c <- cli h ;; ret (ctype_eqb (cl_type c) T_SERVER && MatchCaseInsensitive mask (cl_id c))) l.

(** src/ngircd/client.c:659-677 Client_GetFromToken *)
Definition Client_GetFromToken (h : handle) (token : Z) : M (option handle) :=
  if (token =? 0)%Z then ret None
  else
    l <- Clients ;;
    mfind (fun x => c <- cli x ;;
             ret (ctype_eqb (cl_type c) T_SERVER && oheq (cl_introducer c) h && (cl_token c =? token)%Z)) l.

(** src/ngircd/client.c:1215-1238 Client_IsValidNick; char is signed. *)
Definition goodchars : bytes := B ";0123456789-".
Definition nickchar_ok (c : ascii) : bool :=
  negb ((sval c <? 65)%Z && negb (memb c goodchars)) && negb (125 <? sval c)%Z.
Definition valid_nick (maxnick : nat) (nick : bytes) : bool :=
  negb (strchr0 (hd0 nick) goodchars)
  && (List.length nick <? maxnick)
  && forallb nickchar_ok nick.
Definition Client_IsValidNick (nick : bytes) : M bool := mx <- cf cf_maxnick ;; ret (valid_nick mx nick).

(** ---------- client.c: changes ---------- *)

(** snprintf(buf, n, format, Hash(...)) with a configured cloak format *)
Definition cloak (n : nat) (f : bytes) (host salt : bytes) (n2 : nat) : bytes :=
  firstn (n - 1) (cut0 (fmt f [FD (Z.of_N (Hash (strlcat n2 (strlcpy n2 host) salt)))])).

(** src/ngircd/client.c:334-359 Client_SetHostname *)
Definition Client_SetHostname (h : handle) (host : bytes) : M unit :=
  c <- cli h ;; ck <- cf cf_cloakhost ;; salt <- cf cf_cloaksalt ;;
  let cur := cl_host c in
  if negb (beq ck []) && (beq cur [] || memb "." cur || memb ":" cur)
  then upd_cli h (set_cl_host (strlcpy CLIENT_HOST_LEN (cloak GETID_LEN ck host salt GETID_LEN)))
  else upd_cli h (set_cl_host (strlcpy CLIENT_HOST_LEN host)).

(** src/ngircd/client.c:368-380 Client_SetIPAText *)
Definition Client_SetIPAText (h : handle) (t : bytes) : M unit :=
  upd_cli h (set_cl_ipa (match t with [] => None | _ => Some (firstn (CLIENT_HOST_LEN - 1) t) end)).

(** src/ngircd/client.c:383-398 Client_SetID *)
Definition set_id (usertonick : bool) (id : bytes) (c : client) : client :=
  let nid := strlcpy CLIENT_ID_LEN id in
  let c := set_cl_hash (Hash nid) (set_cl_id nid c) in
  if usertonick
  then set_cl_user (strlcpy CLIENT_USER_LEN id) (set_cl_info (strlcpy CLIENT_INFO_LEN id) c) else c.
Definition Client_SetID (h : handle) (id : bytes) : M unit :=
  u <- cf cf_cloakusertonick ;; upd_cli h (set_id u id).

(** src/ngircd/client.c:401-417 Client_SetUser *)
Definition set_user (usertonick : bool) (user : bytes) (idented : bool) (c : client) : client :=
  set_cl_user (if usertonick then strlcpy CLIENT_USER_LEN (cl_id c)
               else if idented then strlcpy CLIENT_USER_LEN user
               else "~"%char :: strlcpy (CLIENT_USER_LEN - 1) user) c.
Definition Client_SetUser (h : handle) (user : bytes) (idented : bool) : M unit :=
  u <- cf cf_cloakusertonick ;; upd_cli h (set_user u user idented).

(** src/ngircd/client.c:440-452 Client_SetInfo *)
Definition set_info (usertonick : bool) (info : bytes) (c : client) : client :=
  set_cl_info (strlcpy CLIENT_INFO_LEN (if usertonick then cl_id c else info)) c.
Definition Client_SetInfo (h : handle) (info : bytes) : M unit :=
  u <- cf cf_cloakusertonick ;; upd_cli h (set_info u info).

(** src/ngircd/client.c:455-462 *)
Definition Client_SetModes (h : handle) (m : bytes) : M unit := upd_cli h (set_cl_modes (strlcpy CLIENT_MODE_LEN m)).
(** src/ngircd/client.c:465-472 *)
Definition Client_SetFlags (h : handle) (f : bytes) : M unit := upd_cli h (set_cl_flags (strlcpy CLIENT_FLAGS_LEN f)).
(** src/ngircd/client.c:475-488 *)
Definition Client_SetAccountName (h : handle) (a : bytes) : M unit :=
  upd_cli h (set_cl_account (match a with [] => None | _ => Some (firstn (CLIENT_NICK_LEN - 1) a) end)).
(** src/ngircd/client.c:491-506 *)
Definition Client_SetAway (h : handle) (t : bytes) : M unit :=
  upd_cli h (set_cl_away (Some (firstn (CLIENT_AWAY_LEN - 1) t))).
Definition Client_SetHops (h : handle) (n : Z) : M unit := upd_cli h (set_cl_hops n).      (* client.c:519-524 *)
Definition Client_SetToken (h : handle) (n : Z) : M unit := upd_cli h (set_cl_token n).    (* client.c:527-532 *)
Definition Client_SetIntroducer (h i : handle) : M unit := upd_cli h (set_cl_introducer (Some i)). (* client.c:535-541 *)

(** Mode strings: src/ngircd/client.c:544-562/565-589, channel.c:660-680/683-704 and
    707-732/735-762 are the same code: adding a letter that is missing, deleting the first
    occurrence of a letter; the result tells whether the string was changed (or, when adding,
    should have been changed: strlcat drops the letter when the buffer is full). *)
Definition mode_add (m : bytes) (c : ascii) : bytes * bool :=
  if strchr0 c m then (m, false) else (strlcat CLIENT_MODE_LEN m [c], true).
Fixpoint del_first (c : ascii) (m : bytes) : bytes :=
  match m with
  | [] => []
  | x :: r => if Ascii.eqb x c then r else x :: del_first c r
  end.
Definition mode_del (m : bytes) (c : ascii) : bytes * bool :=
  if strchr0 c m then (del_first c m, true) else (m, false).

(** src/ngircd/client.c:544-562 Client_ModeAdd *)
Definition Client_ModeAdd (h : handle) (m : ascii) : M bool :=
  c <- cli h ;;
  let '(ms, b) := mode_add (cl_modes c) m in
  upd_cli h (set_cl_modes ms) ;;; ret b.
(** src/ngircd/client.c:565-589 Client_ModeDel *)
Definition Client_ModeDel (h : handle) (m : ascii) : M bool :=
  c <- cli h ;;
  let '(ms, b) := mode_del (cl_modes c) m in
  upd_cli h (set_cl_modes ms) ;;; ret b.

(** src/ngircd/client.c:1348-1361 Count, 1364-1377 MyCount *)
Definition Count (t : ctype) : M Z := l <- Clients ;; mcount (fun h => is_type h t) l.
Definition MyCount (t : ctype) : M Z :=
  l <- Clients ;;
  mcount (fun h => c <- cli h ;; ret (oheq (cl_introducer c) This_Server && ctype_eqb (cl_type c) t)) l.
(** src/ngircd/client.c:1145-1158 Client_MyServerCount *)
Definition Client_MyServerCount : M Z :=
  l <- Clients ;;
  mcount (fun h => c <- cli h ;; ret (ctype_eqb (cl_type c) T_SERVER && (cl_hops c =? 1)%Z)) l.
(** src/ngircd/client.c:1161-1175 Client_OperCount *)
Definition Client_OperCount : M Z :=
  l <- Clients ;;
  mcount (fun h => c <- cli h ;; ret (ctype_eqb (cl_type c) T_USER && memb "o" (cl_modes c))) l.
(** src/ngircd/client.c:1178-1192 Client_UnknownCount *)
Definition Client_UnknownCount : M Z :=
  l <- Clients ;;
  mcount (fun h => c <- cli h ;;
            ret (negb (ctype_eqb (cl_type c) T_USER || ctype_eqb (cl_type c) T_SERVICE
                       || ctype_eqb (cl_type c) T_SERVER))) l.

(** src/ngircd/client.c:1430-1451 Generate_MyToken: the least token above 1 no client uses
    (the C loop restarts at the head of the list after each hit). *)
Fixpoint gen_token (n : nat) (used : list Z) (t : Z) : Z :=
  match n with
  | O => t
  | S n' => if existsb (Z.eqb t) used then gen_token n' used (t + 1)%Z else t
  end.
Definition Generate_MyToken (h : handle) : M unit :=
  l <- Clients ;;
  used <- mseq (map (fun x => c <- cli x ;; ret (cl_mytoken c)) l) ;;
  upd_cli h (set_cl_mytoken (gen_token (S (List.length used)) used 2)).

(** src/ngircd/client.c:1454-1471 Adjust_Counters *)
Definition Adjust_Counters (h : handle) : M unit :=
  c <- cli h ;;
  if ctype_eqb (cl_type c) T_USER then
    (match cl_conn c with
     | Some _ => n <- MyCount T_USER ;;
                 modify (fun s => if (s_mymaxusers s <? n)%Z then set_s_mymaxusers n s else s)
     | None => ret tt
     end) ;;;
    n <- Count T_USER ;;
    modify (fun s => if (s_maxusers s <? n)%Z then set_s_maxusers n s else s)
  else ret tt.

(** history variable *)
Definition odd (b : bool) (o : oddity) : M unit := modify (fun s => if b then set_s_odd (o :: s_odd s) s else s).

(** src/ngircd/client.c:509-516 Client_SetType *)
Definition Client_SetType (h : handle) (t : ctype) : M unit :=
  c <- cli h ;;
  odd ((ctype_eqb (cl_type c) T_SERVER || (ctype_eqb (cl_type c) T_UNKNOWNSERVER && negb (beq (cl_id c) [])))
       && negb (ctype_eqb t T_SERVER || (ctype_eqb t T_UNKNOWNSERVER && negb (ctype_eqb (cl_type c) T_SERVER)))) O_Retype ;;;
  upd_cli h (set_cl_type t) ;;;
  whenM (ctype_eqb t T_SERVER) (Generate_MyToken h) ;;;
  Adjust_Counters h.

(** src/ngircd/client.c:1385-1406 New_Client_Struct *)
Definition new_client : client :=
  mkClient 0 [] 0 T_UNKNOWN None None None [] None None [] [] [] (-1) (-1) (-1) None [] None false false.

(** src/ngircd/client.c:179-224 Init_New_Client.  The structure is filled before it is linked
    into My_Clients (so it is not yet visible for Generate_MyToken). *)
Definition opt {A} (o : option A) (f : A -> M unit) : M unit := match o with Some a => f a | None => ret tt end.
Definition Init_New_Client (idx : option connid) (intro : handle) (top : option handle) (t : ctype)
    (id user host info : option bytes) (hops token : Z) (modes : option bytes) (idented : bool) : M handle :=
  h <- gets s_next ;;
  tm <- now ;;
  modify (fun s => set_s_next (S h) (set_s_heap ((h, set_cl_starttime tm (set_cl_conn idx
    (set_cl_introducer (Some intro) (set_cl_topserver top (set_cl_type t new_client))))) :: s_heap s) s)) ;;;
  opt id (Client_SetID h) ;;;
  opt user (fun u => Client_SetUser h u idented) ;;;
  opt host (Client_SetHostname h) ;;;
  opt info (Client_SetInfo h) ;;;
  upd_cli h (fun c => set_cl_token token (set_cl_hops hops c)) ;;;
  opt modes (Client_SetModes h) ;;;
  whenM (ctype_eqb t T_SERVER) (Generate_MyToken h) ;;;
  a <- Client_HasMode h "a" ;;
  whenM a (upd_cli h (set_cl_away (Some DEFAULT_AWAY_MSG))) ;;;
  modify (fun s => set_s_clients (h :: s_clients s) s) ;;;
  Adjust_Counters h ;;;
  ret h.

(** src/ngircd/client.c:140-145 Client_NewLocal *)
Definition Client_NewLocal (i : connid) (host : option bytes) (t : ctype) (idented : bool) : M handle :=
  Init_New_Client (Some i) This_Server None t None None host None 0 0 None idented.
(** src/ngircd/client.c:152-158 Client_NewRemoteServer *)
Definition Client_NewRemoteServer (intro : handle) (host : bytes) (top : option handle) (hops token : Z)
    (info : bytes) (idented : bool) : M handle :=
  Init_New_Client None intro top T_SERVER (Some host) None (Some host) (Some info) hops token None idented.
(** src/ngircd/client.c:165-171 Client_NewRemoteUser *)
Definition Client_NewRemoteUser (intro : handle) (nick : bytes) (hops : Z) (user host : bytes) (token : Z)
    (modes info : bytes) (idented : bool) : M handle :=
  Init_New_Client None intro None T_USER (Some nick) (Some user) (Some host) (Some info) hops token
    (Some modes) idented.

(** ---------- conf.c: configured servers ---------- *)

Definition upd_nth {A} (n : nat) (f : A -> A) (l : list A) : list A :=
  firstn n l ++ match skipn n l with [] => [] | a :: r => f a :: r end.
Fixpoint find_idx {A} (f : A -> bool) (l : list A) : option nat :=
  match l with
  | [] => None
  | a :: r => if f a then Some 0 else match find_idx f r with Some n => Some (S n) | None => None end
  end.
Definition sv_at (n : nat) : M cserver := s <- gets (fun s => nth_error (s_servers s) n) ;; nonnull s.
Definition upd_sv (n : nat) (f : cserver -> cserver) : M unit :=
  modify (fun s => set_s_servers (upd_nth n f (s_servers s)) s).
Definition sv_conn_is (i : connid) (sv : cserver) : bool :=
  match sv_conn sv with Some j => Nat.eqb i j | None => false end.

(** src/ngircd/conf.c: Init_Server_Struct: an unused entry *)
Definition new_cserver : cserver := mkCserver [] [] [] [] 0 (-1) 0 false false None [].

(** src/ngircd/conf.c:587-598 Conf_GetServer *)
Definition Conf_GetServer (i : connid) : M (option nat) :=
  gets (fun s => find_idx (sv_conn_is i) (s_servers s)).
(** src/ngircd/conf.c:524-560 Conf_UnsetServer *)
Definition Conf_UnsetServer (i : connid) : M unit :=
  t <- now ;; retry <- cf cf_connectretry ;; r <- gets s_rnd ;;
  modify (fun s => set_s_servers (map (fun sv =>
    if sv_conn_is i sv then
      if sv_once sv then new_cserver
      else set_sv_conn None (set_sv_lasttry
             (if (sv_lasttry sv <? t - retry)%Z then (t - retry + 3)%Z else (t + r mod 15)%Z) sv)
    else sv) (s_servers s)) s).
(** src/ngircd/conf.c:722-730 Conf_NickIsService *)
Definition Conf_NickIsService (sv : cserver) (nick : bytes) : bool :=
  MatchCaseInsensitiveList (sv_svs_mask sv) nick ",".
(** src/ngircd/conf.c:738-750 Conf_NickIsBlocked *)
Definition Conf_NickIsBlocked (nick : bytes) : M bool :=
  gets (fun s => existsb (fun sv => negb (beq (sv_name sv) []) && Conf_NickIsService sv nick) (s_servers s)).
