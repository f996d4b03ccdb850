(** Model of src/ngircd/irc-mode.c: MODE and AWAY. *)
From Coq Require Import List Ascii String ZArith NArith Bool.
From Verif Require Import Bytes Match Lists Hash ParseReq State Messages Monad Core Write Info.
Import ListNotations.
Local Open Scope m_scope.

(** src/ngircd/irc-mode.c:111-120 Mode_Limit_Reached *)
Definition Mode_Limit_Reached (h : handle) (count : Z) : M bool :=
  t <- Client_Type h ;;
  ret (negb (ctype_eqb t T_SERVER || ctype_eqb t T_SERVICE) && (MAX_HNDL_MODES_ARG <=? count)%Z).

Definition plusminus (c : ascii) : bool := Ascii.eqb c "+" || Ascii.eqb c "-".
Definition last_char (s : bytes) : ascii := List.last s NUL.
(** src/ngircd/irc-mode.c:185-206, 537-550: a changed action modifier in the reply string *)
Definition change_action (the_modes : bytes) (c : ascii) : bytes :=
  if plusminus (last_char the_modes) then removelast the_modes ++ [c] else cat the_modes [c].
(** src/ngircd/irc-mode.c:328-331, 937-940: drop a trailing action modifier *)
Definition clean_modes (the_modes : bytes) : bytes :=
  if plusminus (last_char the_modes) then removelast the_modes else the_modes.
(** the_modes[1] != NUL *)
Definition has_modes (the_modes : bytes) : bool := 1 <? List.length the_modes.

Definition sign (set : bool) : ascii := if set then "+"%char else "-"%char.

(** ---------- user modes ---------- *)

(** src/ngircd/irc-mode.c:210-308: may this letter be changed?  The result: connection alive,
    letter to change (x[0], None for NUL), announce the hidden host name. *)
Definition user_letter (client origin : handle) (set : bool) (c : ascii) : M (bool * option ascii * bool) :=
  let err (msg : string) : M (bool * option ascii * bool) :=
    ok <- IRC_WriteErrClient origin msg [aID origin] ;; ret (ok, None, false) in
  let yes : M (bool * option ascii * bool) := ret (true, Some c, false) in
  srv <- is_type client T_SERVER ;;
  if memb c (B "bCiIsw") then yes
  else if Ascii.eqb c "a" then
    if srv then Client_SetAway origin DEFAULT_AWAY_MSG ;;; yes else err ERR_NOPRIVILEGES_MSG
  else if Ascii.eqb c "B" then
    r <- Client_HasMode client "r" ;; if r then err ERR_RESTRICTED_MSG else yes
  else if memb c (B "cqF") then
    op <- Client_HasMode origin "o" ;;
    if negb set || srv || op then yes else err ERR_NOPRIVILEGES_MSG
  else if Ascii.eqb c "o" then
    if negb set || srv then yes else err ERR_NOPRIVILEGES_MSG
  else if Ascii.eqb c "r" then
    if set || srv then yes else err ERR_RESTRICTED_MSG
  else if Ascii.eqb c "R" then
    if srv then yes else err ERR_NICKREGISTER_MSG
  else if Ascii.eqb c "x" then
    r <- Client_HasMode client "r" ;;
    if r then err ERR_RESTRICTED_MSG
    else
      cx <- cf cf_cloakhostmodex ;; op <- Client_HasMode origin "o" ;;
      if negb set || negb (beq cx []) || srv || op then ret (true, Some c, true) else err ERR_NOPRIVILEGES_MSG
  else if negb srv then
    ok <- IRC_WriteErrClient origin ERR_UMODEUNKNOWNFLAG2_MSG [aID origin; aC (sign set); aC c] ;;
    ret (ok, None, false)
  else ret (true, if Ascii.eqb c NUL then None else Some c, false).

(** mode_ptr++ and the step to the next argument: the text from the new position on, and the
    arguments behind it; None: no more arguments.  Incrementing a pointer to the terminating
    NUL (after an empty argument) leaves the string: undefined behaviour. *)
Definition next_mode (pos : bytes) (rest : list bytes) : M (option (bytes * list bytes)) :=
  match pos with
  | [] => bad W_OverRead
  | [_] => ret (match rest with [] => None | a :: r => Some (a, r) end)
  | _ :: p => ret (Some (p, rest))
  end.

(** src/ngircd/irc-mode.c:171-324: the loop of Client_Mode; the result: connection alive, the
    reply string, announce the hidden host name. *)
Fixpoint user_modes (n : nat) (client origin target : handle) (pos : bytes) (rest : list bytes)
    (set : bool) (the_modes : bytes) (hh : bool) : M (bool * bytes * bool) :=
  match n with
  | O => bad W_Fuel
  | S n' =>
      nx <- next_mode pos rest ;;
      match nx with
      | None => ret (true, the_modes, hh)
      | Some (pos, rest) =>
          let c := hd0 pos in
          if plusminus c then
            let set' := Ascii.eqb c "+" in
            user_modes n' client origin target pos rest set'
              (if Bool.eqb set set' then the_modes else change_action the_modes c) hh
          else
            '(ok, x, h) <- user_letter client origin set c ;;
            let hh := hh || h in
            if negb ok then ret (false, the_modes, hh)
            else match x with
                 | None => user_modes n' client origin target pos rest set the_modes hh
                 | Some x =>
                     ch <- (if set then Client_ModeAdd target x else Client_ModeDel target x) ;;
                     user_modes n' client origin target pos rest set (if ch then cat the_modes [x] else the_modes) hh
                 end
      end
  end.
(** Enough rounds for all characters of all arguments. *)
Definition modes_fuel (l : list bytes) : nat := S (S (List.length (List.concat l) + List.length l)).

(** src/ngircd/irc-mode.c:326-371: tell everybody about changed user modes *)
Definition user_modes_reply (client origin target : handle) (the_modes : bytes) (ok hh : bool) : M bool :=
  if has_modes the_modes then
    let the_modes := clean_modes the_modes in
    srv <- is_type client T_SERVER ;;
    t <- Client_Conn target ;;
    ok <- (if srv then
             whenM (is_some t) (void (IRC_WriteStrClientPrefix target origin "MODE %s :%s" [aID target; aS the_modes])) ;;;
             IRC_WriteStrServersPrefix (Some client) origin "MODE %s :%s" [aID target; aS the_modes] ;;;
             ret ok
           else
             ok <- IRC_WriteStrClientPrefix client origin "MODE %s :%s" [aID target; aS the_modes] ;;
             IRC_WriteStrServersPrefix (Some client) origin "MODE %s :%s" [aID target; aS the_modes] ;;;
             ret ok) ;;
    whenM (hh && is_some t)
      (void (IRC_WriteStrClientPrefix target origin RPL_HOSTHIDDEN_MSG [aID target; aHostD target])) ;;;
    ret ok
  else ret ok.

(** src/ngircd/irc-mode.c:131-374 Client_Mode *)
Definition Client_Mode (client : handle) (req : request) (origin target : handle) : M bool :=
  usr <- is_type client T_USER ;;
  if usr && negb (heq target client) then IRC_WriteErrClient client ERR_USERSDONTMATCH_MSG [aID client]
  else if argc req =? 1 then IRC_WriteStrClient origin RPL_UMODEIS_MSG [aID target; aModes target]
  else
    let pos := arg req 1 in
    let c := hd0 pos in
    if negb (plusminus c) then IRC_WriteErrClient origin ERR_UMODEUNKNOWNFLAG_MSG [aID origin]
    else
      '(ok, the_modes, hh) <- user_modes (modes_fuel (rq_args req)) client origin target pos (skipn 2 (rq_args req))
                                (Ascii.eqb c "+") [c] false ;;
      user_modes_reply client origin target the_modes ok hh.

(** ---------- channel modes ---------- *)

(** src/ngircd/irc-mode.c:383-433 Channel_Mode_Answer_Request *)
Definition Channel_Mode_Answer_Request (origin : handle) (ch : chandle) : M bool :=
  c <- chan ch ;;
  mem <- Channel_IsMemberOf ch origin ;;
  (if negb mem then IRC_WriteStrClient origin RPL_CHANNELMODEIS_MSG [aID origin; aChan ch; aS (ch_modes c)]
   else
     let args := fold_left (fun a m =>
                   if Ascii.eqb m "l" then cat a (firstn (CLIENT_PASS_LEN - 1) (" "%char :: dec (ch_maxusers c)))
                   else if Ascii.eqb m "k" then cat (cat a (B " ")) (ch_key c) else a) (ch_modes c) [] in
     IRC_WriteStrClient origin RPL_CHANNELMODEIS_MSG [aID origin; aChan ch; aS (cat (ch_modes c) args)]) >>>
  (IRC_WriteStrClient origin RPL_CREATIONTIME_MSG [aID origin; aChan ch; aD (ch_ctime c)]).

(** src/ngircd/irc-mode.c:1128-1152 Send_ListChange *)
Definition Send_ListChange (add : bool) (mode : ascii) (pref client : handle) (ch : chandle) (mask : bytes) : M bool :=
  let args := [aChan ch; aC (sign add); aC mode; aS mask] in
  usr <- is_type client T_USER ;;
  ok <- (if usr then IRC_WriteStrClientPrefix client pref "MODE %s %c%c %s" args else ret true) ;;
  IRC_WriteStrServersPrefix (Some client) pref "MODE %s %c%c %s" args ;;;
  IRC_WriteStrChannelPrefix client ch pref false "MODE %s %c%c %s" args ;;;
  ret ok.

(** The list a mode letter is about: src/ngircd/irc-mode.c:1036-1046 *)
Definition list_of (what : ascii) (c : channel) : mlist :=
  if Ascii.eqb what "I" then ch_invites c else if Ascii.eqb what "b" then ch_bans c else ch_excepts c.

(** src/ngircd/irc-mode.c:1018-1072 Add_To_List *)
Definition Add_To_List (what : ascii) (pref client : handle) (ch : chandle) (pattern : bytes) : M bool :=
  c <- chan ch ;;
  let mask := Lists_MakeMask pattern MASK_LEN in
  let count := Lists_Count (ch_invites c) + Lists_Count (ch_excepts c) + Lists_Count (ch_bans c) in
  if is_some (Lists_CheckDupeMask (list_of what c) mask) then ret CONNECTED
  else
    usr <- is_type client T_USER ;;
    if usr && (MAX_HNDL_CHANNEL_LISTS <=? count) then
      IRC_WriteErrClient client ERR_LISTFULL_MSG
        [aID client; aChan ch; aS mask; aD (Z.of_nat MAX_HNDL_CHANNEL_LISTS)]
    else
      id <- Client_ID client ;;
      (if Ascii.eqb what "I" then Channel_AddInvite ch mask false id
       else if Ascii.eqb what "b" then Channel_AddBan ch mask id
       else Channel_AddExcept ch mask id) ;;;
      Send_ListChange true what pref client ch mask.

(** src/ngircd/irc-mode.c:1084-1115 Del_From_List *)
Definition Del_From_List (what : ascii) (pref client : handle) (ch : chandle) (pattern : bytes) : M bool :=
  c <- chan ch ;;
  let mask := Lists_MakeMask pattern MASK_LEN in
  if negb (is_some (Lists_CheckDupeMask (list_of what c) mask)) then ret CONNECTED
  else
    upd_chan ch (fun c =>
      if Ascii.eqb what "I" then set_ch_invites (Lists_Del (ch_invites c) mask) c
      else if Ascii.eqb what "b" then set_ch_bans (Lists_Del (ch_bans c) mask) c
      else set_ch_excepts (Lists_Del (ch_excepts c) mask) c) ;;;
    Send_ListChange false what pref client ch mask.

(** Variables of the loop of Channel_Mode (src/ngircd/irc-mode.c:447-453): the argument vector
    (consumed arguments become empty strings), position in the mode string, mode_arg, arg_arg
    (-1: no argument), set, skiponce, reply strings, number of modes with argument, and the
    channel user privileges found so far (they are never reset). *)
Record cmst := mkCm {
  cm_args : list bytes; cm_pos : bytes; cm_marg : Z; cm_aarg : Z; cm_set : bool; cm_skip : bool;
  cm_modes : bytes; cm_astr : bytes; cm_count : Z;
  cm_halfop : bool; cm_op : bool; cm_admin : bool; cm_owner : bool
}.
Definition cm_arg (st : cmst) (i : Z) : bytes := nth (Z.to_nat i) (cm_args st) [].
Definition cm_argc (st : cmst) : Z := Z.of_nat (List.length (cm_args st)).

(** argv[arg_arg][0] = NUL; arg_arg++ *)
Definition consume (st : cmst) : cmst :=
  mkCm (upd_nth (Z.to_nat (cm_aarg st)) (fun _ => []) (cm_args st)) (cm_pos st) (cm_marg st) (cm_aarg st + 1)
       (cm_set st) (cm_skip st) (cm_modes st) (cm_astr st) (cm_count st)
       (cm_halfop st) (cm_op st) (cm_admin st) (cm_owner st).
Definition set_aarg (a : Z) (st : cmst) : cmst :=
  mkCm (cm_args st) (cm_pos st) (cm_marg st) a (cm_set st) (cm_skip st) (cm_modes st) (cm_astr st) (cm_count st)
       (cm_halfop st) (cm_op st) (cm_admin st) (cm_owner st).
(** mode_arg_count++ *)
Definition inc_count (st : cmst) : cmst :=
  mkCm (cm_args st) (cm_pos st) (cm_marg st) (cm_aarg st) (cm_set st) (cm_skip st) (cm_modes st) (cm_astr st)
       (cm_count st + 1) (cm_halfop st) (cm_op st) (cm_admin st) (cm_owner st).
Definition set_action (c : ascii) (st : cmst) : cmst :=
  let set' := Ascii.eqb c "+" in
  mkCm (cm_args st) (cm_pos st) (cm_marg st) (cm_aarg st) set' (cm_skip st)
       (if Bool.eqb (cm_set st) set' then cm_modes st else change_action (cm_modes st) c)
       (cm_astr st) (cm_count st) (cm_halfop st) (cm_op st) (cm_admin st) (cm_owner st).
Definition set_privs (h o a q : bool) (st : cmst) : cmst :=
  mkCm (cm_args st) (cm_pos st) (cm_marg st) (cm_aarg st) (cm_set st) (cm_skip st) (cm_modes st) (cm_astr st)
       (cm_count st) (cm_halfop st || h) (cm_op st || o) (cm_admin st || a) (cm_owner st || q).
Definition add_mode (x : ascii) (st : cmst) : cmst :=
  mkCm (cm_args st) (cm_pos st) (cm_marg st) (cm_aarg st) (cm_set st) (cm_skip st) (cat (cm_modes st) [x])
       (cm_astr st) (cm_count st) (cm_halfop st) (cm_op st) (cm_admin st) (cm_owner st).
Definition add_arg (a : bytes) (st : cmst) : cmst :=
  mkCm (cm_args st) (cm_pos st) (cm_marg st) (cm_aarg st) (cm_set st) (cm_skip st) (cm_modes st)
       (cat (cat (cm_astr st) (B " ")) a) (cm_count st) (cm_halfop st) (cm_op st) (cm_admin st) (cm_owner st).

(** src/ngircd/irc-mode.c:512-532: the next mode letter; None: leave the loop *)
Definition chan_advance (st : cmst) : M (option cmst) :=
  pos <- (if cm_skip st then ret (cm_pos st)
          else match cm_pos st with [] => bad W_OverRead | _ :: p => ret p end) ;;
  let go (pos : bytes) (marg aarg : Z) : cmst :=
    mkCm (cm_args st) pos marg aarg (cm_set st) false (cm_modes st) (cm_astr st) (cm_count st)
         (cm_halfop st) (cm_op st) (cm_admin st) (cm_owner st) in
  match pos with
  | _ :: _ => ret (Some (go pos (cm_marg st) (cm_aarg st)))
  | [] =>
      if (cm_aarg st <? 0)%Z then ret None
      else
        let marg := if (cm_marg st <? cm_aarg st)%Z then cm_aarg st else (cm_marg st + 1)%Z in
        if (cm_argc st <=? marg)%Z then ret None
        else ret (Some (go (cm_arg st marg) marg (if (marg + 1 <? cm_argc st)%Z then (marg + 1)%Z else (-1)%Z)))
  end.

(** What the switch of src/ngircd/irc-mode.c:573-880 decides: leave the loop ("goto chan_exit",
    with the value of "connected"), or go on with: connected, the variables, x[0], argadd, client. *)
Inductive verdict :=
| V_Exit (connected : bool)
| V_Next (connected : bool) (st : cmst) (x : option ascii) (argadd : bytes) (target : option handle).

Section Letter.
Variables (client origin : handle) (command : bytes) (ch : chandle) (is_oper is_machine : bool).

Definition any_op (st : cmst) : bool :=
  is_oper || is_machine || cm_owner st || cm_admin st || cm_op st.
Definition any_halfop (st : cmst) : bool := any_op st || cm_halfop st.

(** connected = IRC_WriteErrClient(Origin, msg, Client_ID(Origin), Channel_Name(Channel)) *)
Definition deny (msg : string) : M bool := IRC_WriteErrClient origin msg [aID origin; aChan ch].
Definition deny_exit (msg : string) : M verdict := ok <- deny msg ;; ret (V_Exit ok).
Definition deny_next (msg : string) (st : cmst) : M verdict := ok <- deny msg ;; ret (V_Next ok st None [] None).
(** "goto chan_exit", with an error message for everything but servers and services *)
Definition exit_unless_machine (m : M bool) : M verdict :=
  if is_machine then ret (V_Exit true) else ok <- m ;; ret (V_Exit ok).

(** src/ngircd/irc-mode.c:575-601: modes without argument *)
Definition letter_flag (st : cmst) (c : ascii) : M verdict :=
  if memb c (B "Rsz") && negb (any_op st) then deny_exit ERR_CHANOPRIVSNEEDED_MSG
  else if any_halfop st then ret (V_Next true st (Some c) [] None)
  else deny_next ERR_CHANOPRIVSNEEDED_MSG st.

(** src/ngircd/irc-mode.c:602-657: the channel key *)
Definition letter_k (st : cmst) (c : ascii) : M verdict :=
  lim <- Mode_Limit_Reached client (cm_count st) ;;
  let st := inc_count st in
  if lim then ret (V_Exit true)
  else if negb (cm_set st) then
    if any_halfop st then
      k <- Channel_HasMode ch "k" ;;
      ret (V_Next true (if (cm_marg st <? cm_aarg st)%Z then set_aarg (cm_aarg st + 1) st else st)
                  (Some c) (if k then B "*" else []) None)
    else deny_next ERR_CHANOPRIVSNEEDED_MSG st
  else if (cm_aarg st <=? cm_marg st)%Z then
    exit_unless_machine (IRC_WriteErrClient origin ERR_NEEDMOREPARAMS_MSG [aID origin; aS command])
  else
    let a := cm_arg st (cm_aarg st) in
    if beq a [] || memb " " a then
      exit_unless_machine (IRC_WriteErrClient origin ERR_INVALIDMODEPARAM_MSG [aID origin; aChan ch; aC "k"])
    else if any_halfop st then
      void (Channel_ModeDel ch "k") ;;;
      Channel_SetKey ch a ;;;
      key <- Channel_Key ch ;;
      ret (V_Next true (consume st) (Some c) (strlcpy CLIENT_PASS_LEN key) None)
    else ok <- deny ERR_CHANOPRIVSNEEDED_MSG ;; ret (V_Next ok (consume st) None [] None).

(** src/ngircd/irc-mode.c:658-710: the user limit *)
Definition letter_l (st : cmst) (c : ascii) : M verdict :=
  lim <- Mode_Limit_Reached client (cm_count st) ;;
  let st := inc_count st in
  if lim then ret (V_Exit true)
  else if negb (cm_set st) then
    if any_halfop st then ret (V_Next true st (Some c) [] None)
    else deny_next ERR_CHANOPRIVSNEEDED_MSG st
  else if (cm_aarg st <=? cm_marg st)%Z then
    exit_unless_machine (IRC_WriteErrClient origin ERR_NEEDMOREPARAMS_MSG [aID origin; aS command])
  else
    let l := atol (cm_arg st (cm_aarg st)) in
    if ((l <=? 0) || (65535 <=? l))%Z then
      exit_unless_machine (IRC_WriteErrClient origin ERR_INVALIDMODEPARAM_MSG [aID origin; aChan ch; aC "l"])
    else if any_halfop st then
      void (Channel_ModeDel ch "l") ;;;
      Channel_SetMaxUsers ch l ;;;
      ret (V_Next true (consume st) (Some c) (firstn (CLIENT_PASS_LEN - 1) (dec l)) None)
    else ok <- deny ERR_CHANOPRIVSNEEDED_MSG ;; ret (V_Next ok (consume st) None [] None).

(** src/ngircd/irc-mode.c:711-748: 'O' and 'P' *)
Definition letter_OP (st : cmst) (c : ascii) : M verdict :=
  if cm_set st then
    if is_oper || is_machine then ret (V_Next true st (Some c) [] None)
    else ok <- IRC_WriteErrClient origin ERR_NOPRIVILEGES_MSG [aID origin] ;; ret (V_Next ok st None [] None)
  else if any_op st then ret (V_Next true st (Some c) [] None)
  else deny_next ERR_CHANOPRIVSNEEDED_MSG st.

(** src/ngircd/irc-mode.c:750-822: channel user modes *)
Definition letter_user (st : cmst) (c : ascii) : M verdict :=
  if Ascii.eqb c "q" && negb (is_oper || is_machine || cm_owner st) then deny_exit ERR_CHANOPPRIVTOOLOW_MSG
  else if memb c (B "qa") && negb (is_oper || is_machine || cm_owner st || cm_admin st)
  then deny_exit ERR_CHANOPPRIVTOOLOW_MSG
  else if memb c (B "qaoh") && negb (any_op st) then deny_exit ERR_CHANOPRIVSNEEDED_MSG
  else if (cm_marg st <? cm_aarg st)%Z then
    if any_halfop st then
      o <- Client_Search (cm_arg st (cm_aarg st)) ;;
      match o with
      | Some t => ret (V_Next true (consume st) (Some c) [] (Some t))
      | None =>
          ok <- IRC_WriteErrClient origin ERR_NOSUCHNICK_MSG [aID origin; aS (cm_arg st (cm_aarg st))] ;;
          ret (V_Next ok (consume st) None [] None)
      end
    else ok <- deny ERR_CHANOPRIVSNEEDED_MSG ;; ret (V_Next ok (consume st) None [] None)
  else ret (V_Exit true).

(** src/ngircd/irc-mode.c:824-861: channel lists *)
Definition letter_list (st : cmst) (c : ascii) : M verdict :=
  lim <- Mode_Limit_Reached client (cm_count st) ;;
  let st := inc_count st in
  if lim then ret (V_Exit true)
  else if (cm_marg st <? cm_aarg st)%Z then
    ok <- (if any_halfop st then
             if cm_set st then Add_To_List c origin client ch (cm_arg st (cm_aarg st))
             else Del_From_List c origin client ch (cm_arg st (cm_aarg st))
           else deny ERR_CHANOPRIVSNEEDED_MSG) ;;
    ret (V_Next ok (consume st) None [] None)
  else
    void (if Ascii.eqb c "I" then Channel_ShowInvites origin ch
          else if Ascii.eqb c "b" then Channel_ShowBans origin ch
          else Channel_ShowExcepts origin ch) ;;;
    ret (V_Next true st None [] None).

(** src/ngircd/irc-mode.c:573-880 *)
Definition chan_letter (st : cmst) (c : ascii) : M verdict :=
  if memb c (B "RsziVMmnNQt") then letter_flag st c
  else if Ascii.eqb c "k" then letter_k st c
  else if Ascii.eqb c "l" then letter_l st c
  else if memb c (B "OP") then letter_OP st c
  else if memb c (B "qaohv") then letter_user st c
  else if memb c (B "Ibe") then letter_list st c
  else
    srv <- is_type client T_SERVER ;;
    if negb srv then
      ok <- IRC_WriteErrClient origin ERR_UNKNOWNMODE_MSG [aID origin; aC c; aChan ch] ;;
      ret (V_Next ok st None [] None)
    else ret (V_Next true st (if Ascii.eqb c NUL then None else Some c) [] None).

(** src/ngircd/irc-mode.c:889-931: do the change.  None: leave the loop. *)
Definition chan_apply (st : cmst) (x : ascii) (argadd : bytes) (target : option handle) : M (option cmst) :=
  let fin (st : cmst) : option cmst := Some (match argadd with [] => st | _ => add_arg argadd st end) in
  match target with
  | Some t =>
      mem <- Channel_IsMemberOf ch t ;;
      if negb mem then
        ok <- IRC_WriteErrClient origin ERR_USERNOTINCHANNEL_MSG [aID origin; aID t; aChan ch] ;;
        ret (if ok then Some st else None)
      else
        r <- (if cm_set st then Channel_UserModeAdd ch t x else Channel_UserModeDel ch t x) ;;
        if r then id <- Client_ID t ;; ret (fin (add_mode x (add_arg id st))) else ret (fin st)
  | None =>
      r <- (if cm_set st then Channel_ModeAdd ch x else Channel_ModeDel ch x) ;;
      ret (fin (if r then add_mode x st else st))
  end.

(** src/ngircd/irc-mode.c:558-567: privileges of the client on the channel *)
Definition chan_privs (st : cmst) : M cmst :=
  if negb is_machine && negb is_oper then
    q <- Channel_UserHasMode ch client "q" ;;
    a <- Channel_UserHasMode ch client "a" ;;
    o <- Channel_UserHasMode ch client "o" ;;
    h <- Channel_UserHasMode ch client "h" ;;
    ret (set_privs h o a q st)
  else ret st.

(** src/ngircd/irc-mode.c:511-932: the loop *)
Fixpoint chan_modes (n : nat) (st : cmst) : M (bool * cmst) :=
  match n with
  | O => bad W_Fuel
  | S n' =>
      nx <- chan_advance st ;;
      match nx with
      | None => ret (true, st)
      | Some st =>
          let c := hd0 (cm_pos st) in
          if plusminus c then chan_modes n' (set_action c st)
          else
            let st := if (cm_argc st <=? cm_aarg st)%Z then set_aarg (-1) st else st in
            st <- chan_privs st ;;
            v <- chan_letter st c ;;
            match v with
            | V_Exit ok => ret (ok, st)
            | V_Next ok st x argadd target =>
                if negb ok then ret (false, st)
                else match x with
                     | None => chan_modes n' st
                     | Some x =>
                         o <- chan_apply st x argadd target ;;
                         match o with
                         | None => ret (true, st)
                         | Some st => chan_modes n' st
                         end
                     end
            end
      end
  end.
End Letter.

(** src/ngircd/irc-mode.c:935-974: tell everybody about changed channel modes *)
Definition chan_modes_reply (client origin : handle) (ch : chandle) (the_modes the_args : bytes) (ok : bool) : M bool :=
  if has_modes the_modes then
    let args := [aChan ch; aS (clean_modes the_modes); aS the_args] in
    srv <- is_type client T_SERVER ;;
    loc <- Channel_IsLocal ch ;;
    if srv then
      if loc && negb (heq client This_Server) then ret CONNECTED
      else
        IRC_WriteStrServersPrefix (Some client) origin "MODE %s %s%s" args ;;;
        IRC_WriteStrChannelPrefix client ch origin false "MODE %s %s%s" args ;;;
        ret ok
    else
      osm <- cf cf_operservermode ;;
      let origin := if osm then This_Server else origin in
      ok <- IRC_WriteStrClientPrefix client origin "MODE %s %s%s" args ;;
      whenM (negb loc) (IRC_WriteStrServersPrefix (Some client) origin "MODE %s %s%s" args) ;;;
      IRC_WriteStrChannelPrefix client ch origin false "MODE %s %s%s" args ;;;
      ret ok
  else ret ok.

(** src/ngircd/irc-mode.c:444-977 Channel_Mode *)
Definition Channel_Mode (client : handle) (req : request) (origin : handle) (ch : chandle) : M bool :=
  name <- Channel_Name ch ;;
  if Ascii.eqb (hd0 name) "+" then IRC_WriteErrClient client ERR_NOCHANMODES_MSG [aID client; aChan ch]
  else if argc req <=? 1 then Channel_Mode_Answer_Request origin ch
  else
    op <- Client_HasMode client "o" ;; ocm <- cf cf_opercanmode ;;
    let is_oper := op && ocm in
    ty <- Client_Type client ;;
    let is_machine := ctype_eqb ty T_SERVER || ctype_eqb ty T_SERVICE in
    mem <- Channel_IsMemberOf ch client ;;
    if negb mem && negb is_oper && negb is_machine then
      IRC_WriteErrClient origin ERR_NOTONCHANNEL_MSG [aID origin; aChan ch]
    else
      let c := hd0 (arg req 1) in
      let set := negb (Ascii.eqb c "-") in
      let st := mkCm (rq_args req) (arg req 1) 1 (if 2 <? argc req then 2 else -1) set
                     (negb (plusminus c)) [sign set] [] 0 false false false false in
      '(ok, st) <- chan_modes client origin (rq_command req) ch is_oper is_machine (modes_fuel (rq_args req)) st ;;
      chan_modes_reply client origin ch (cm_modes st) (cm_astr st) ok.

(** src/ngircd/irc-mode.c:60-100 IRC_MODE.  A request with the prefix of this server was
    injected by Login_User_PostAuth. *)
Definition IRC_MODE (client : handle) (req : request) : M bool :=
  with_sender client req (fun origin =>
    client <- (match rq_prefix req with
               | Some p => o <- Client_Search p ;; ret (if oheq o This_Server then This_Server else client)
               | None => ret client
               end) ;;
    let a := arg req 0 in
    vn <- Client_IsValidNick a ;;
    cl <- (if vn then Client_Search a else ret None) ;;
    ch <- (if valid_chan a then Channel_Search a else ret None) ;;
    match cl, ch with
    | Some t, _ => Client_Mode client req origin t
    | None, Some ch => Channel_Mode client req origin ch
    | None, None =>
        if vn then IRC_WriteErrClient client ERR_NOSUCHNICK_MSG [aID client; aS a]
        else IRC_WriteErrClient client ERR_NOSUCHCHANNEL_MSG [aID client; aS a]
    end).

(** src/ngircd/irc-mode.c:986-1006 IRC_AWAY *)
Definition IRC_AWAY (client : handle) (req : request) : M bool :=
  if (argc req =? 1) && negb (beq (arg req 0) []) then
    Client_SetAway client (arg req 0) ;;;
    void (Client_ModeAdd client "a") ;;;
    IRC_WriteStrServersPrefix (Some client) client "MODE %s :+a" [aID client] ;;;
    IRC_WriteStrClient client RPL_NOWAWAY_MSG [aID client]
  else
    void (Client_ModeDel client "a") ;;;
    IRC_WriteStrServersPrefix (Some client) client "MODE %s :-a" [aID client] ;;;
    IRC_WriteStrClient client RPL_UNAWAY_MSG [aID client].
