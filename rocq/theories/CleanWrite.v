(** Generated by tools/gen_clv.py from Write.v: its functions keep strings clean (C08). *)
From Coq Require Import List Ascii String ZArith NArith Bool Lia Arith.
From Verif Require Import Bytes Strl Match Lists Hash ParseReq State Messages Monad Core Write Clean0 CleanRec Clean CleanTac CleanLists CleanParseReq CleanCore .
Import ListNotations.
Local Open Scope m_scope.

Lemma clv_IRC_SetPenalty : forall (h : handle) (secs : Z), clv (IRC_SetPenalty h secs).
Proof. intros. unfold IRC_SetPenalty. cl_all. Qed.
#[export] Hint Resolve clv_IRC_SetPenalty : clv.
Lemma clv_Write_Server : forall (to : handle) (pref : handle) (buf : bytes), clv buf -> clv (Write_Server to pref buf).
Proof. intros. unfold Write_Server. cl_all. Qed.
#[export] Hint Resolve clv_Write_Server : clv.
Lemma clv_Servers_CB : forall (except : option handle) (flag : option ascii) (cb : handle -> M unit), clv flag -> clv cb -> clv (Servers_CB except flag cb).
Proof. intros. unfold Servers_CB. cl_all. Qed.
#[export] Hint Resolve clv_Servers_CB : clv.
Lemma clv_IRC_WriteStrServersPrefixFlag : forall (except : option handle) (pref : handle) (flag : option ascii) (f : string) (args : list marg), clv flag -> clv (B f) -> clv args -> clv (IRC_WriteStrServersPrefixFlag except pref flag f args).
Proof. intros. unfold IRC_WriteStrServersPrefixFlag. cl_all. Qed.
#[export] Hint Resolve clv_IRC_WriteStrServersPrefixFlag : clv.
Lemma clv_IRC_WriteStrServersPrefix : forall (except : option handle) (pref : handle) (f : string) (args : list marg), clv (B f) -> clv args -> clv (IRC_WriteStrServersPrefix except pref f args).
Proof. intros. unfold IRC_WriteStrServersPrefix. cl_all. Qed.
#[export] Hint Resolve clv_IRC_WriteStrServersPrefix : clv.
Lemma clv_IRC_WriteStrServers : forall (except : option handle) (f : string) (args : list marg), clv (B f) -> clv args -> clv (IRC_WriteStrServers except f args).
Proof. intros. unfold IRC_WriteStrServers. cl_all. Qed.
#[export] Hint Resolve clv_IRC_WriteStrServers : clv.
Lemma clv_Client_UpdateCloakedHostname : forall (h : handle) (origin : option handle) (host : option bytes), clv host -> clv (Client_UpdateCloakedHostname h origin host).
Proof. intros. unfold Client_UpdateCloakedHostname. cl_all. Qed.
#[export] Hint Resolve clv_Client_UpdateCloakedHostname : clv.
Lemma clv_Client_HostnameDisplayed : forall (h : handle), clv (Client_HostnameDisplayed h).
Proof. intros. unfold Client_HostnameDisplayed. cl_all. Qed.
#[export] Hint Resolve clv_Client_HostnameDisplayed : clv.
Lemma clv_aHostD : forall (h : handle), clv (aHostD h).
Proof. intros. unfold aHostD. cl_all. Qed.
#[export] Hint Resolve clv_aHostD : clv.
Lemma clv_Client_MaskCloaked : forall (h : handle), clv (Client_MaskCloaked h).
Proof. intros. unfold Client_MaskCloaked. cl_all. Qed.
#[export] Hint Resolve clv_Client_MaskCloaked : clv.
Lemma clv_aMaskC : forall (h : handle), clv (aMaskC h).
Proof. intros. unfold aMaskC. cl_all. Qed.
#[export] Hint Resolve clv_aMaskC : clv.
Lemma clv_Get_Prefix : forall (target : handle) (h : handle), clv (Get_Prefix target h).
Proof. intros. unfold Get_Prefix. cl_all. Qed.
#[export] Hint Resolve clv_Get_Prefix : clv.
Lemma clv_IRC_WriteStrClientPrefix : forall (to : handle) (pref : handle) (f : string) (args : list marg), clv (B f) -> clv args -> clv (IRC_WriteStrClientPrefix to pref f args).
Proof. intros. unfold IRC_WriteStrClientPrefix. cl_all. Qed.
#[export] Hint Resolve clv_IRC_WriteStrClientPrefix : clv.
Lemma clv_IRC_WriteStrClient : forall (to : handle) (f : string) (args : list marg), clv (B f) -> clv args -> clv (IRC_WriteStrClient to f args).
Proof. intros. unfold IRC_WriteStrClient. cl_all. Qed.
#[export] Hint Resolve clv_IRC_WriteStrClient : clv.
Lemma clv_IRC_WriteErrClient : forall (to : handle) (f : string) (args : list marg), clv (B f) -> clv args -> clv (IRC_WriteErrClient to f args).
Proof. intros. unfold IRC_WriteErrClient. cl_all. Qed.
#[export] Hint Resolve clv_IRC_WriteErrClient : clv.
Lemma clv_Send_Marked_Connections : forall (pref : handle) (buf : bytes), clv buf -> clv (Send_Marked_Connections pref buf).
Proof. intros. unfold Send_Marked_Connections. cl_all. Qed.
#[export] Hint Resolve clv_Send_Marked_Connections : clv.
Lemma clv_Members : forall (ch : chandle), clv (Members ch).
Proof. intros. unfold Members. cl_all. Qed.
#[export] Hint Resolve clv_Members : clv.
Lemma clv_ChannelsOf : forall (h : handle), clv (ChannelsOf h).
Proof. intros. unfold ChannelsOf. cl_all. Qed.
#[export] Hint Resolve clv_ChannelsOf : clv.
Lemma clv_Mark_Members : forall (from : handle) (ch : chandle) (remote : bool), clv (Mark_Members from ch remote).
Proof. intros. unfold Mark_Members. cl_all. Qed.
#[export] Hint Resolve clv_Mark_Members : clv.
Lemma clv_IRC_WriteStrChannelPrefix : forall (from : handle) (ch : chandle) (pref : handle) (remote : bool) (f : string) (args : list marg), clv (B f) -> clv args -> clv (IRC_WriteStrChannelPrefix from ch pref remote f args).
Proof. intros. unfold IRC_WriteStrChannelPrefix. cl_all. Qed.
#[export] Hint Resolve clv_IRC_WriteStrChannelPrefix : clv.
Lemma clv_IRC_WriteStrChannel : forall (from : handle) (ch : chandle) (remote : bool) (f : string) (args : list marg), clv (B f) -> clv args -> clv (IRC_WriteStrChannel from ch remote f args).
Proof. intros. unfold IRC_WriteStrChannel. cl_all. Qed.
#[export] Hint Resolve clv_IRC_WriteStrChannel : clv.
Lemma clv_IRC_WriteStrRelatedPrefix : forall (h : handle) (pref : handle) (remote : bool) (f : string) (args : list marg), clv (B f) -> clv args -> clv (IRC_WriteStrRelatedPrefix h pref remote f args).
Proof. intros. unfold IRC_WriteStrRelatedPrefix. cl_all. Qed.
#[export] Hint Resolve clv_IRC_WriteStrRelatedPrefix : clv.
Lemma clv_IRC_SendWallops : forall (client : handle) (from : handle) (f : string) (args : list marg), clv (B f) -> clv args -> clv (IRC_SendWallops client from f args).
Proof. intros. unfold IRC_SendWallops. cl_all. Qed.
#[export] Hint Resolve clv_IRC_SendWallops : clv.
Lemma clv_Chans : clv Chans.
Proof. intros. unfold Chans. cl_all. Qed.
#[export] Hint Resolve clv_Chans : clv.
Lemma clv_Channel_Name : forall (ch : chandle), clv (Channel_Name ch).
Proof. intros. unfold Channel_Name. cl_all. Qed.
#[export] Hint Resolve clv_Channel_Name : clv.
Lemma clv_Channel_Modes : forall (ch : chandle), clv (Channel_Modes ch).
Proof. intros. unfold Channel_Modes. cl_all. Qed.
#[export] Hint Resolve clv_Channel_Modes : clv.
Lemma clv_Channel_HasMode : forall (ch : chandle) (m : ascii), clv m -> clv (Channel_HasMode ch m).
Proof. intros. unfold Channel_HasMode. cl_all. Qed.
#[export] Hint Resolve clv_Channel_HasMode : clv.
Lemma clv_Channel_Key : forall (ch : chandle), clv (Channel_Key ch).
Proof. intros. unfold Channel_Key. cl_all. Qed.
#[export] Hint Resolve clv_Channel_Key : clv.
Lemma clv_Channel_MaxUsers : forall (ch : chandle), clv (Channel_MaxUsers ch).
Proof. intros. unfold Channel_MaxUsers. cl_all. Qed.
#[export] Hint Resolve clv_Channel_MaxUsers : clv.
Lemma clv_Channel_Topic : forall (ch : chandle), clv (Channel_Topic ch).
Proof. intros. unfold Channel_Topic. cl_all. Qed.
#[export] Hint Resolve clv_Channel_Topic : clv.
Lemma clv_Channel_IsLocal : forall (ch : chandle), clv (Channel_IsLocal ch).
Proof. intros. unfold Channel_IsLocal. cl_all. Qed.
#[export] Hint Resolve clv_Channel_IsLocal : clv.
Lemma clv_aChan : forall (ch : chandle), clv (aChan ch).
Proof. intros. unfold aChan. cl_all. Qed.
#[export] Hint Resolve clv_aChan : clv.
Lemma clv_Channel_Search : forall (name : bytes), clv name -> clv (Channel_Search name).
Proof. intros. unfold Channel_Search. cl_all. Qed.
#[export] Hint Resolve clv_Channel_Search : clv.
Lemma clv_Get_Cl2Chan : forall (ch : chandle) (h : handle), clv (Get_Cl2Chan ch h).
Proof. intros. unfold Get_Cl2Chan. cl_all. Qed.
#[export] Hint Resolve clv_Get_Cl2Chan : clv.
Lemma clv_Channel_IsMemberOf : forall (ch : chandle) (h : handle), clv (Channel_IsMemberOf ch h).
Proof. intros. unfold Channel_IsMemberOf. cl_all. Qed.
#[export] Hint Resolve clv_Channel_IsMemberOf : clv.
Lemma clv_Channel_UserModes : forall (ch : chandle) (h : handle), clv (Channel_UserModes ch h).
Proof. intros. unfold Channel_UserModes. cl_all. Qed.
#[export] Hint Resolve clv_Channel_UserModes : clv.
Lemma clv_Channel_UserHasMode : forall (ch : chandle) (h : handle) (m : ascii), clv m -> clv (Channel_UserHasMode ch h m).
Proof. intros. unfold Channel_UserHasMode. cl_all. Qed.
#[export] Hint Resolve clv_Channel_UserHasMode : clv.
Lemma clv_Channel_MemberCount : forall (ch : chandle), clv (Channel_MemberCount ch).
Proof. intros. unfold Channel_MemberCount. cl_all. Qed.
#[export] Hint Resolve clv_Channel_MemberCount : clv.
Lemma clv_Channel_CountForUser : forall (h : handle), clv (Channel_CountForUser h).
Proof. intros. unfold Channel_CountForUser. cl_all. Qed.
#[export] Hint Resolve clv_Channel_CountForUser : clv.
Lemma clv_Channel_CountVisible : forall (o : option handle), clv (Channel_CountVisible o).
Proof. intros. unfold Channel_CountVisible. cl_all. Qed.
#[export] Hint Resolve clv_Channel_CountVisible : clv.
Lemma clv_Channel_ModeAdd : forall (ch : chandle) (m : ascii), clv m -> clv (Channel_ModeAdd ch m).
Proof. intros. unfold Channel_ModeAdd. cl_all. Qed.
#[export] Hint Resolve clv_Channel_ModeAdd : clv.
Lemma clv_Channel_ModeDel : forall (ch : chandle) (m : ascii), clv m -> clv (Channel_ModeDel ch m).
Proof. intros. unfold Channel_ModeDel. cl_all. Qed.
#[export] Hint Resolve clv_Channel_ModeDel : clv.
Lemma clv_upd_mb : forall (ch : chandle) (h : handle) (f : member -> member) (l : list member), clv f -> clv l -> clv (upd_mb ch h f l).
Proof. intros ch h f l. revert ch h f. induction l; intros; cl_invs; cbn [upd_mb]; cl_all. Qed.
#[export] Hint Resolve clv_upd_mb : clv.
Lemma clv_Channel_UserModeAdd : forall (ch : chandle) (h : handle) (m : ascii), clv m -> clv (Channel_UserModeAdd ch h m).
Proof. intros. unfold Channel_UserModeAdd. cl_all. Qed.
#[export] Hint Resolve clv_Channel_UserModeAdd : clv.
Lemma clv_Channel_UserModeDel : forall (ch : chandle) (h : handle) (m : ascii), clv m -> clv (Channel_UserModeDel ch h m).
Proof. intros. unfold Channel_UserModeDel. cl_all. Qed.
#[export] Hint Resolve clv_Channel_UserModeDel : clv.
Lemma clv_Channel_SetTopic : forall (ch : chandle) (o : option handle) (topic : bytes), clv topic -> clv (Channel_SetTopic ch o topic).
Proof. intros. unfold Channel_SetTopic. cl_all. Qed.
#[export] Hint Resolve clv_Channel_SetTopic : clv.
Lemma clv_Channel_SetModes : forall (ch : chandle) (m : bytes), clv m -> clv (Channel_SetModes ch m).
Proof. intros. unfold Channel_SetModes. cl_all. Qed.
#[export] Hint Resolve clv_Channel_SetModes : clv.
Lemma clv_Channel_SetKey : forall (ch : chandle) (k : bytes), clv k -> clv (Channel_SetKey ch k).
Proof. intros. unfold Channel_SetKey. cl_all. Qed.
#[export] Hint Resolve clv_Channel_SetKey : clv.
Lemma clv_Channel_SetMaxUsers : forall (ch : chandle) (n : Z), clv (Channel_SetMaxUsers ch n).
Proof. intros. unfold Channel_SetMaxUsers. cl_all. Qed.
#[export] Hint Resolve clv_Channel_SetMaxUsers : clv.
Lemma clv_new_channel : forall (name : bytes) (t : Z), clv name -> clv (new_channel name t).
Proof. intros. unfold new_channel. cl_all. Qed.
#[export] Hint Resolve clv_new_channel : clv.
Lemma clv_Channel_Create : forall (name : bytes), clv name -> clv (Channel_Create name).
Proof. intros. unfold Channel_Create. cl_all. Qed.
#[export] Hint Resolve clv_Channel_Create : clv.
Lemma clv_Add_Client : forall (ch : chandle) (h : handle), clv (Add_Client ch h).
Proof. intros. unfold Add_Client. cl_all. Qed.
#[export] Hint Resolve clv_Add_Client : clv.
Lemma clv_Channel_Join : forall (h : handle) (name : bytes), clv name -> clv (Channel_Join h name).
Proof. intros. unfold Channel_Join. cl_all. Qed.
#[export] Hint Resolve clv_Channel_Join : clv.
Lemma clv_Delete_Channel : forall (ch : chandle), clv (Delete_Channel ch).
Proof. intros. unfold Delete_Channel. cl_all. Qed.
#[export] Hint Resolve clv_Delete_Channel : clv.
Lemma clv_del_mb : forall (ch : chandle) (h : handle) (l : list member), clv l -> clv (del_mb ch h l).
Proof. intros ch h l. revert ch h. induction l; intros; cl_invs; cbn [del_mb]; cl_all. Qed.
#[export] Hint Resolve clv_del_mb : clv.
Lemma clv_Remove_Client : forall (ty : remove_type) (ch : chandle) (h : handle) (origin : handle) (reason : bytes) (inform : bool), clv reason -> clv (Remove_Client ty ch h origin reason inform).
Proof. intros. unfold Remove_Client. cl_all. Qed.
#[export] Hint Resolve clv_Remove_Client : clv.
Lemma clv_Channel_Part : forall (h : handle) (origin : handle) (name : bytes) (reason : bytes), clv name -> clv reason -> clv (Channel_Part h origin name reason).
Proof. intros. unfold Channel_Part. cl_all. Qed.
#[export] Hint Resolve clv_Channel_Part : clv.
Lemma clv_can_kick : forall (ch : chandle) (peer : handle) (target : handle) (origin : handle), clv (can_kick ch peer target origin).
Proof. intros. unfold can_kick. cl_all. Qed.
#[export] Hint Resolve clv_can_kick : clv.
Lemma clv_Channel_Kick : forall (peer : handle) (target : handle) (origin : handle) (name : bytes) (reason : bytes), clv name -> clv reason -> clv (Channel_Kick peer target origin name reason).
Proof. intros. unfold Channel_Kick. cl_all. Qed.
#[export] Hint Resolve clv_Channel_Kick : clv.
Lemma clv_Channel_Quit : forall (h : handle) (reason : bytes), clv reason -> clv (Channel_Quit h reason).
Proof. intros. unfold Channel_Quit. cl_all. Qed.
#[export] Hint Resolve clv_Channel_Quit : clv.
Lemma clv_Check_List : forall (get : M mlist) (put : mlist -> M unit) (h : handle), clv get -> clv put -> clv (Check_List get put h).
Proof. intros. unfold Check_List. cl_all. Qed.
#[export] Hint Resolve clv_Check_List : clv.
Lemma clv_Check_Bans : forall (ch : chandle) (h : handle), clv (Check_Bans ch h).
Proof. intros. unfold Check_Bans. cl_all. Qed.
#[export] Hint Resolve clv_Check_Bans : clv.
Lemma clv_Check_Excepts : forall (ch : chandle) (h : handle), clv (Check_Excepts ch h).
Proof. intros. unfold Check_Excepts. cl_all. Qed.
#[export] Hint Resolve clv_Check_Excepts : clv.
Lemma clv_Check_Invites : forall (ch : chandle) (h : handle), clv (Check_Invites ch h).
Proof. intros. unfold Check_Invites. cl_all. Qed.
#[export] Hint Resolve clv_Check_Invites : clv.
Lemma clv_Can_Send_To_Channel : forall (ch : chandle) (from : handle), clv (Can_Send_To_Channel ch from).
Proof. intros. unfold Can_Send_To_Channel. cl_all. Qed.
#[export] Hint Resolve clv_Can_Send_To_Channel : clv.
Lemma clv_Channel_Write : forall (ch : chandle) (from : handle) (client : handle) (cmd : bytes) (senderrors : bool) (text : bytes), clv cmd -> clv text -> clv (Channel_Write ch from client cmd senderrors text).
Proof. intros. unfold Channel_Write. cl_all. Qed.
#[export] Hint Resolve clv_Channel_Write : clv.
Lemma clv_Channel_AddBan : forall (ch : chandle) (mask : bytes) (who : bytes), clv mask -> clv who -> clv (Channel_AddBan ch mask who).
Proof. intros. unfold Channel_AddBan. cl_all. Qed.
#[export] Hint Resolve clv_Channel_AddBan : clv.
Lemma clv_Channel_AddExcept : forall (ch : chandle) (mask : bytes) (who : bytes), clv mask -> clv who -> clv (Channel_AddExcept ch mask who).
Proof. intros. unfold Channel_AddExcept. cl_all. Qed.
#[export] Hint Resolve clv_Channel_AddExcept : clv.
Lemma clv_Channel_AddInvite : forall (ch : chandle) (mask : bytes) (once : bool) (who : bytes), clv mask -> clv who -> clv (Channel_AddInvite ch mask once who).
Proof. intros. unfold Channel_AddInvite. cl_all. Qed.
#[export] Hint Resolve clv_Channel_AddInvite : clv.
Lemma clv_ShowChannelList : forall (l : mlist) (h : handle) (ch : chandle) (msg : string) (msg_end : string), clv l -> clv (B msg) -> clv (B msg_end) -> clv (ShowChannelList l h ch msg msg_end).
Proof. intros. unfold ShowChannelList. cl_all. Qed.
#[export] Hint Resolve clv_ShowChannelList : clv.
Lemma clv_Channel_ShowBans : forall (h : handle) (ch : chandle), clv (Channel_ShowBans h ch).
Proof. intros. unfold Channel_ShowBans. cl_all. Qed.
#[export] Hint Resolve clv_Channel_ShowBans : clv.
Lemma clv_Channel_ShowExcepts : forall (h : handle) (ch : chandle), clv (Channel_ShowExcepts h ch).
Proof. intros. unfold Channel_ShowExcepts. cl_all. Qed.
#[export] Hint Resolve clv_Channel_ShowExcepts : clv.
Lemma clv_Channel_ShowInvites : forall (h : handle) (ch : chandle), clv (Channel_ShowInvites h ch).
Proof. intros. unfold Channel_ShowInvites. cl_all. Qed.
#[export] Hint Resolve clv_Channel_ShowInvites : clv.
Lemma clv_Channel_LogServer : forall (msg : bytes), clv msg -> clv (Channel_LogServer msg).
Proof. intros. unfold Channel_LogServer. cl_all. Qed.
#[export] Hint Resolve clv_Channel_LogServer : clv.
Lemma clv_Channel_CheckKey : forall (ch : chandle) (h : handle) (key : bytes), clv key -> clv (Channel_CheckKey ch h key).
Proof. intros. unfold Channel_CheckKey. cl_bind; [cl_auto|]. destruct (negb _); [cl_auto|]. destruct (beq key []); [cl_auto|]. destruct (beq (ch_key x) key); [cl_auto|]. destruct (ch_keyfile x); [cl_auto|]. apply (clv_bind _ _ Cl_default); [|intros; cl_auto]. intros s0 b0 s' S E. injection E as <- <-. split; [exact S|exact I]. Qed.
#[export] Hint Resolve clv_Channel_CheckKey : clv.
Lemma clv_Log_ServerNotice : forall (mode : ascii) (f : string) (args : list marg), clv mode -> clv (B f) -> clv args -> clv (Log_ServerNotice mode f args).
Proof. intros. unfold Log_ServerNotice. cl_all. Qed.
#[export] Hint Resolve clv_Log_ServerNotice : clv.
Lemma clv_Log_snotice : forall (f : string) (args : list marg), clv (B f) -> clv args -> clv (Log_snotice f args).
Proof. intros. unfold Log_snotice. cl_all. Qed.
#[export] Hint Resolve clv_Log_snotice : clv.
Lemma clv_Client_RegisterWhowas : forall (h : handle), clv (Client_RegisterWhowas h).
Proof. intros. unfold Client_RegisterWhowas. cl_all. Qed.
#[export] Hint Resolve clv_Client_RegisterWhowas : clv.
Lemma clv_Destroy_UserOrService : forall (h : handle) (txt : bytes) (fwd : option bytes) (sendquit : bool), clv txt -> clv fwd -> clv (Destroy_UserOrService h txt fwd sendquit).
Proof. intros. unfold Destroy_UserOrService. cl_all. Qed.
#[export] Hint Resolve clv_Destroy_UserOrService : clv.
Lemma clv_Free_Client : forall (h : handle), clv (Free_Client h).
Proof. intros. unfold Free_Client. cl_all. Qed.
#[export] Hint Resolve clv_Free_Client : clv.
Lemma clv_Destroy_Found : forall (h : handle) (txt : bytes) (fwd : option bytes) (sendquit : bool), clv txt -> clv fwd -> clv (Destroy_Found h txt fwd sendquit).
Proof. intros. unfold Destroy_Found. cl_all. Qed.
#[export] Hint Resolve clv_Destroy_Found : clv.
Lemma clv_destroy : forall (n : nat) (h : handle) (log : option bytes) (fwd : option bytes) (sendquit : bool), clv log -> clv fwd -> clv (destroy n h log fwd sendquit).
Proof. intros n h log fwd sendquit. revert h log fwd sendquit. induction n; intros; cl_invs; cbn [destroy]; cl_all. Qed.
#[export] Hint Resolve clv_destroy : clv.
Lemma clv_Client_Destroy : forall (h : handle) (log : option bytes) (fwd : option bytes) (sendquit : bool), clv log -> clv fwd -> clv (Client_Destroy h log fwd sendquit).
Proof. intros. unfold Client_Destroy. cl_all. Qed.
#[export] Hint Resolve clv_Client_Destroy : clv.
Lemma clv_Client_Announce : forall (to : handle) (pref : handle) (user : handle), clv (Client_Announce to pref user).
Proof. intros. unfold Client_Announce. cl_all. Qed.
#[export] Hint Resolve clv_Client_Announce : clv.
Lemma clv_Client_Introduce : forall (from : option handle) (h : handle) (t : ctype), clv (Client_Introduce from h t).
Proof. intros. unfold Client_Introduce. cl_all. Qed.
#[export] Hint Resolve clv_Client_Introduce : clv.
Lemma clv_Conn_Close : forall (i : connid) (log : option bytes) (fwd : option bytes) (inform : bool), clv log -> clv fwd -> clv (Conn_Close i log fwd inform).
Proof. intros. unfold Conn_Close. cl_all. Qed.
#[export] Hint Resolve clv_Conn_Close : clv.
Lemma clv_Client_Reject : forall (h : handle) (reason : bytes) (inform : bool), clv reason -> clv (Client_Reject h reason inform).
Proof. intros. unfold Client_Reject. cl_all. Qed.
#[export] Hint Resolve clv_Client_Reject : clv.
Lemma clv_Client_CheckNick : forall (h : handle) (nick : bytes), clv nick -> clv (Client_CheckNick h nick).
Proof. intros. unfold Client_CheckNick. cl_all. Qed.
#[export] Hint Resolve clv_Client_CheckNick : clv.
Lemma clv_Client_CheckID : forall (h : handle) (id : bytes), clv id -> clv (Client_CheckID h id).
Proof. intros. unfold Client_CheckID. cl_all. Qed.
#[export] Hint Resolve clv_Client_CheckID : clv.
