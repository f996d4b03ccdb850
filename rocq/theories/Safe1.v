(** Generated by tools/gen_safe.py: no function of the model reads outside of a string, except
    those listed in Safe.v (C40). *)
From Coq Require Import List Ascii String ZArith NArith Bool Lia Arith.
From Verif Require Import Bytes Strl Match Lists Hash ParseReq State Messages Monad Core Write Info Chan Mode Msg Login Oper Server Dispatch Conn Safe0.
Import ListNotations.
Local Open Scope m_scope.

(** ** Core.v *)
Lemma safe_aS : forall (s : bytes), safe (aS s).
Proof. intros. unfold aS. sf. Qed.
#[export] Hint Resolve safe_aS : safe.
Lemma safe_aD : forall (z : Z), safe (aD z).
Proof. intros. unfold aD. sf. Qed.
#[export] Hint Resolve safe_aD : safe.
Lemma safe_aC : forall (c : ascii), safe (aC c).
Proof. intros. unfold aC. sf. Qed.
#[export] Hint Resolve safe_aC : safe.
Lemma safe_vsn : forall (n : nat) (f : string) (args : list marg), Forall safe args -> safe (vsn n f args).
Proof. intros. unfold vsn. sf. Qed.
#[export] Hint Resolve safe_vsn : safe.
Lemma safe_emit : forall (i : connid) (l : bytes), safe (emit i l).
Proof. intros. unfold emit. sf. Qed.
#[export] Hint Resolve safe_emit : safe.
Lemma safe_Conn_WriteStr : forall (i : connid) (f : string) (args : list marg), Forall safe args -> safe (Conn_WriteStr i f args).
Proof. intros. unfold Conn_WriteStr. sf. Qed.
#[export] Hint Resolve safe_Conn_WriteStr : safe.
Lemma safe_Conn_GetClient : forall (i : connid), safe (Conn_GetClient i).
Proof. intros. unfold Conn_GetClient. sf. Qed.
#[export] Hint Resolve safe_Conn_GetClient : safe.
Lemma safe_Conn_Password : forall (i : connid), safe (Conn_Password i).
Proof. intros. unfold Conn_Password. sf. Qed.
#[export] Hint Resolve safe_Conn_Password : safe.
Lemma safe_Conn_SetPassword : forall (i : connid) (p : bytes), safe (Conn_SetPassword i p).
Proof. intros. unfold Conn_SetPassword. sf. Qed.
#[export] Hint Resolve safe_Conn_SetPassword : safe.
Lemma safe_Conn_IPA : forall (i : connid), safe (Conn_IPA i).
Proof. intros. unfold Conn_IPA. sf. Qed.
#[export] Hint Resolve safe_Conn_IPA : safe.
Lemma safe_Conn_UpdateIdle : forall (i : connid), safe (Conn_UpdateIdle i).
Proof. intros. unfold Conn_UpdateIdle. sf. Qed.
#[export] Hint Resolve safe_Conn_UpdateIdle : safe.
Lemma safe_Conn_UpdatePing : forall (i : connid) (t : Z), safe (Conn_UpdatePing i t).
Proof. intros. unfold Conn_UpdatePing. sf. Qed.
#[export] Hint Resolve safe_Conn_UpdatePing : safe.
Lemma safe_Conn_GetSignon : forall (i : connid), safe (Conn_GetSignon i).
Proof. intros. unfold Conn_GetSignon. sf. Qed.
#[export] Hint Resolve safe_Conn_GetSignon : safe.
Lemma safe_Conn_GetIdle : forall (i : connid), safe (Conn_GetIdle i).
Proof. intros. unfold Conn_GetIdle. sf. Qed.
#[export] Hint Resolve safe_Conn_GetIdle : safe.
Lemma safe_Conn_LastPing : forall (i : connid), safe (Conn_LastPing i).
Proof. intros. unfold Conn_LastPing. sf. Qed.
#[export] Hint Resolve safe_Conn_LastPing : safe.
Lemma safe_Conn_SetPenalty : forall (i : connid) (secs : Z), safe (Conn_SetPenalty i secs).
Proof. intros. unfold Conn_SetPenalty. sf. Qed.
#[export] Hint Resolve safe_Conn_SetPenalty : safe.
Lemma safe_Conn_ClearFlags : safe (Conn_ClearFlags ).
Proof. intros. unfold Conn_ClearFlags. sf. Qed.
#[export] Hint Resolve safe_Conn_ClearFlags : safe.
Lemma safe_Conn_SetFlag : forall (i : connid) (f : nat), safe (Conn_SetFlag i f).
Proof. intros. unfold Conn_SetFlag. sf. Qed.
#[export] Hint Resolve safe_Conn_SetFlag : safe.
Lemma safe_Conn_All : safe (Conn_All ).
Proof. intros. unfold Conn_All. sf. Qed.
#[export] Hint Resolve safe_Conn_All : safe.
Lemma safe_Client_Type : forall (h : handle), safe (Client_Type h).
Proof. intros. unfold Client_Type. sf. Qed.
#[export] Hint Resolve safe_Client_Type : safe.
Lemma safe_is_type : forall (h : handle) (t : ctype), safe (is_type h t).
Proof. intros. unfold is_type. sf. Qed.
#[export] Hint Resolve safe_is_type : safe.
Lemma safe_Client_Conn : forall (h : handle), safe (Client_Conn h).
Proof. intros. unfold Client_Conn. sf. Qed.
#[export] Hint Resolve safe_Client_Conn : safe.
Lemma safe_Client_ID : forall (h : handle), safe (Client_ID h).
Proof. intros. unfold Client_ID. sf. Qed.
#[export] Hint Resolve safe_Client_ID : safe.
Lemma safe_Client_Info : forall (h : handle), safe (Client_Info h).
Proof. intros. unfold Client_Info. sf. Qed.
#[export] Hint Resolve safe_Client_Info : safe.
Lemma safe_Client_User : forall (h : handle), safe (Client_User h).
Proof. intros. unfold Client_User. sf. Qed.
#[export] Hint Resolve safe_Client_User : safe.
Lemma safe_Client_Hostname : forall (h : handle), safe (Client_Hostname h).
Proof. intros. unfold Client_Hostname. sf. Qed.
#[export] Hint Resolve safe_Client_Hostname : safe.
Lemma safe_Client_Modes : forall (h : handle), safe (Client_Modes h).
Proof. intros. unfold Client_Modes. sf. Qed.
#[export] Hint Resolve safe_Client_Modes : safe.
Lemma safe_Client_Hops : forall (h : handle), safe (Client_Hops h).
Proof. intros. unfold Client_Hops. sf. Qed.
#[export] Hint Resolve safe_Client_Hops : safe.
Lemma safe_Client_Token : forall (h : handle), safe (Client_Token h).
Proof. intros. unfold Client_Token. sf. Qed.
#[export] Hint Resolve safe_Client_Token : safe.
Lemma safe_Client_MyToken : forall (h : handle), safe (Client_MyToken h).
Proof. intros. unfold Client_MyToken. sf. Qed.
#[export] Hint Resolve safe_Client_MyToken : safe.
Lemma safe_Client_Away : forall (h : handle), safe (Client_Away h).
Proof. intros. unfold Client_Away. sf. Qed.
#[export] Hint Resolve safe_Client_Away : safe.
Lemma safe_Client_AccountName : forall (h : handle), safe (Client_AccountName h).
Proof. intros. unfold Client_AccountName. sf. Qed.
#[export] Hint Resolve safe_Client_AccountName : safe.
Lemma safe_Client_Introducer : forall (h : handle), safe (Client_Introducer h).
Proof. intros. unfold Client_Introducer. sf. Qed.
#[export] Hint Resolve safe_Client_Introducer : safe.
Lemma safe_Client_TopServer : forall (h : handle), safe (Client_TopServer h).
Proof. intros. unfold Client_TopServer. sf. Qed.
#[export] Hint Resolve safe_Client_TopServer : safe.
Lemma safe_Client_HasMode : forall (h : handle) (m : ascii), safe (Client_HasMode h m).
Proof. intros. unfold Client_HasMode. sf. Qed.
#[export] Hint Resolve safe_Client_HasMode : safe.
Lemma safe_Client_HasFlag : forall (h : handle) (m : ascii), safe (Client_HasFlag h m).
Proof. intros. unfold Client_HasFlag. sf. Qed.
#[export] Hint Resolve safe_Client_HasFlag : safe.
Lemma safe_Client_IPAText : forall (h : handle), safe (Client_IPAText h).
Proof. intros. unfold Client_IPAText. sf. Qed.
#[export] Hint Resolve safe_Client_IPAText : safe.
Lemma safe_Client_TypeText : forall (h : handle), safe (Client_TypeText h).
Proof. intros. unfold Client_TypeText. sf. Qed.
#[export] Hint Resolve safe_Client_TypeText : safe.
Lemma safe_Clients : safe (Clients ).
Proof. intros. unfold Clients. sf. Qed.
#[export] Hint Resolve safe_Clients : safe.
Lemma safe_aID : forall (h : handle), safe (aID h).
Proof. intros. unfold aID. sf. Qed.
#[export] Hint Resolve safe_aID : safe.
Lemma safe_aUser : forall (h : handle), safe (aUser h).
Proof. intros. unfold aUser. sf. Qed.
#[export] Hint Resolve safe_aUser : safe.
Lemma safe_aHost : forall (h : handle), safe (aHost h).
Proof. intros. unfold aHost. sf. Qed.
#[export] Hint Resolve safe_aHost : safe.
Lemma safe_aInfo : forall (h : handle), safe (aInfo h).
Proof. intros. unfold aInfo. sf. Qed.
#[export] Hint Resolve safe_aInfo : safe.
Lemma safe_aModes : forall (h : handle), safe (aModes h).
Proof. intros. unfold aModes. sf. Qed.
#[export] Hint Resolve safe_aModes : safe.
Lemma safe_aHops1 : forall (h : handle), safe (aHops1 h).
Proof. intros. unfold aHops1. sf. Qed.
#[export] Hint Resolve safe_aHops1 : safe.
Lemma safe_NextHop : forall (n : nat) (h : handle), safe (NextHop n h).
Proof. intros n h. revert h. induction n; intros; cbn [NextHop]; sf. Qed.
#[export] Hint Resolve safe_NextHop : safe.
Lemma safe_Client_NextHop : forall (h : handle), safe (Client_NextHop h).
Proof. intros. unfold Client_NextHop. sf. Qed.
#[export] Hint Resolve safe_Client_NextHop : safe.
Lemma safe_Client_Mask : forall (h : handle), safe (Client_Mask h).
Proof. intros. unfold Client_Mask. sf. Qed.
#[export] Hint Resolve safe_Client_Mask : safe.
Lemma safe_aMask : forall (h : handle), safe (aMask h).
Proof. intros. unfold aMask. sf. Qed.
#[export] Hint Resolve safe_aMask : safe.
Lemma safe_Client_Search : forall (nick : bytes), safe (Client_Search nick).
Proof. intros. unfold Client_Search. sf. Qed.
#[export] Hint Resolve safe_Client_Search : safe.
Lemma safe_Client_SearchServer : forall (mask : bytes), safe (Client_SearchServer mask).
Proof. intros. unfold Client_SearchServer. sf. Qed.
#[export] Hint Resolve safe_Client_SearchServer : safe.
Lemma safe_Client_GetFromToken : forall (h : handle) (token : Z), safe (Client_GetFromToken h token).
Proof. intros. unfold Client_GetFromToken. sf. Qed.
#[export] Hint Resolve safe_Client_GetFromToken : safe.
Lemma safe_Client_IsValidNick : forall (nick : bytes), safe (Client_IsValidNick nick).
Proof. intros. unfold Client_IsValidNick. sf. Qed.
#[export] Hint Resolve safe_Client_IsValidNick : safe.
Lemma safe_Client_SetHostname : forall (h : handle) (host : bytes), safe (Client_SetHostname h host).
Proof. intros. unfold Client_SetHostname. sf. Qed.
#[export] Hint Resolve safe_Client_SetHostname : safe.
Lemma safe_Client_SetIPAText : forall (h : handle) (t : bytes), safe (Client_SetIPAText h t).
Proof. intros. unfold Client_SetIPAText. sf. Qed.
#[export] Hint Resolve safe_Client_SetIPAText : safe.
Lemma safe_Client_SetID : forall (h : handle) (id : bytes), safe (Client_SetID h id).
Proof. intros. unfold Client_SetID. sf. Qed.
#[export] Hint Resolve safe_Client_SetID : safe.
Lemma safe_Client_SetUser : forall (h : handle) (user : bytes) (idented : bool), safe (Client_SetUser h user idented).
Proof. intros. unfold Client_SetUser. sf. Qed.
#[export] Hint Resolve safe_Client_SetUser : safe.
Lemma safe_Client_SetInfo : forall (h : handle) (info : bytes), safe (Client_SetInfo h info).
Proof. intros. unfold Client_SetInfo. sf. Qed.
#[export] Hint Resolve safe_Client_SetInfo : safe.
Lemma safe_Client_SetModes : forall (h : handle) (m : bytes), safe (Client_SetModes h m).
Proof. intros. unfold Client_SetModes. sf. Qed.
#[export] Hint Resolve safe_Client_SetModes : safe.
Lemma safe_Client_SetFlags : forall (h : handle) (f : bytes), safe (Client_SetFlags h f).
Proof. intros. unfold Client_SetFlags. sf. Qed.
#[export] Hint Resolve safe_Client_SetFlags : safe.
Lemma safe_Client_SetAccountName : forall (h : handle) (a : bytes), safe (Client_SetAccountName h a).
Proof. intros. unfold Client_SetAccountName. sf. Qed.
#[export] Hint Resolve safe_Client_SetAccountName : safe.
Lemma safe_Client_SetAway : forall (h : handle) (t : bytes), safe (Client_SetAway h t).
Proof. intros. unfold Client_SetAway. sf. Qed.
#[export] Hint Resolve safe_Client_SetAway : safe.
Lemma safe_Client_SetHops : forall (h : handle) (n : Z), safe (Client_SetHops h n).
Proof. intros. unfold Client_SetHops. sf. Qed.
#[export] Hint Resolve safe_Client_SetHops : safe.
Lemma safe_Client_SetToken : forall (h : handle) (n : Z), safe (Client_SetToken h n).
Proof. intros. unfold Client_SetToken. sf. Qed.
#[export] Hint Resolve safe_Client_SetToken : safe.
Lemma safe_Client_SetIntroducer : forall (h : handle) (i : handle), safe (Client_SetIntroducer h i).
Proof. intros. unfold Client_SetIntroducer. sf. Qed.
#[export] Hint Resolve safe_Client_SetIntroducer : safe.
Lemma safe_Client_ModeAdd : forall (h : handle) (m : ascii), safe (Client_ModeAdd h m).
Proof. intros. unfold Client_ModeAdd. sf. Qed.
#[export] Hint Resolve safe_Client_ModeAdd : safe.
Lemma safe_Client_ModeDel : forall (h : handle) (m : ascii), safe (Client_ModeDel h m).
Proof. intros. unfold Client_ModeDel. sf. Qed.
#[export] Hint Resolve safe_Client_ModeDel : safe.
Lemma safe_Count : forall (t : ctype), safe (Count t).
Proof. intros. unfold Count. sf. Qed.
#[export] Hint Resolve safe_Count : safe.
Lemma safe_MyCount : forall (t : ctype), safe (MyCount t).
Proof. intros. unfold MyCount. sf. Qed.
#[export] Hint Resolve safe_MyCount : safe.
Lemma safe_Client_MyServerCount : safe (Client_MyServerCount ).
Proof. intros. unfold Client_MyServerCount. sf. Qed.
#[export] Hint Resolve safe_Client_MyServerCount : safe.
Lemma safe_Client_OperCount : safe (Client_OperCount ).
Proof. intros. unfold Client_OperCount. sf. Qed.
#[export] Hint Resolve safe_Client_OperCount : safe.
Lemma safe_Client_UnknownCount : safe (Client_UnknownCount ).
Proof. intros. unfold Client_UnknownCount. sf. Qed.
#[export] Hint Resolve safe_Client_UnknownCount : safe.
Lemma safe_Generate_MyToken : forall (h : handle), safe (Generate_MyToken h).
Proof. intros. unfold Generate_MyToken. sf. Qed.
#[export] Hint Resolve safe_Generate_MyToken : safe.
Lemma safe_Adjust_Counters : forall (h : handle), safe (Adjust_Counters h).
Proof. intros. unfold Adjust_Counters. sf. Qed.
#[export] Hint Resolve safe_Adjust_Counters : safe.
Lemma safe_odd : forall (b : bool) (o : oddity), safe (odd b o).
Proof. intros. unfold odd. sf. Qed.
#[export] Hint Resolve safe_odd : safe.
Lemma safe_Client_SetType : forall (h : handle) (t : ctype), safe (Client_SetType h t).
Proof. intros. unfold Client_SetType. sf. Qed.
#[export] Hint Resolve safe_Client_SetType : safe.
Lemma safe_opt : forall (A : Type) (o : option A) (f : A -> M unit), (forall y0, safe (f y0)) -> safe (opt o f).
Proof. intros. unfold opt. sf. Qed.
#[export] Hint Resolve safe_opt : safe.
Lemma safe_Init_New_Client : forall (idx : option connid) (intro : handle) (top : option handle) (t : ctype) (id : option bytes) (user : option bytes) (host : option bytes) (info : option bytes) (hops : Z) (token : Z) (modes : option bytes) (idented : bool), safe (Init_New_Client idx intro top t id user host info hops token modes idented).
Proof. intros. unfold Init_New_Client. sf. Qed.
#[export] Hint Resolve safe_Init_New_Client : safe.
Lemma safe_Client_NewLocal : forall (i : connid) (host : option bytes) (t : ctype) (idented : bool), safe (Client_NewLocal i host t idented).
Proof. intros. unfold Client_NewLocal. sf. Qed.
#[export] Hint Resolve safe_Client_NewLocal : safe.
Lemma safe_Client_NewRemoteServer : forall (intro : handle) (host : bytes) (top : option handle) (hops : Z) (token : Z) (info : bytes) (idented : bool), safe (Client_NewRemoteServer intro host top hops token info idented).
Proof. intros. unfold Client_NewRemoteServer. sf. Qed.
#[export] Hint Resolve safe_Client_NewRemoteServer : safe.
Lemma safe_Client_NewRemoteUser : forall (intro : handle) (nick : bytes) (hops : Z) (user : bytes) (host : bytes) (token : Z) (modes : bytes) (info : bytes) (idented : bool), safe (Client_NewRemoteUser intro nick hops user host token modes info idented).
Proof. intros. unfold Client_NewRemoteUser. sf. Qed.
#[export] Hint Resolve safe_Client_NewRemoteUser : safe.
Lemma safe_sv_at : forall (n : nat), safe (sv_at n).
Proof. intros. unfold sv_at. sf. Qed.
#[export] Hint Resolve safe_sv_at : safe.
Lemma safe_upd_sv : forall (n : nat) (f : cserver -> cserver), safe (upd_sv n f).
Proof. intros. unfold upd_sv. sf. Qed.
#[export] Hint Resolve safe_upd_sv : safe.
Lemma safe_Conf_GetServer : forall (i : connid), safe (Conf_GetServer i).
Proof. intros. unfold Conf_GetServer. sf. Qed.
#[export] Hint Resolve safe_Conf_GetServer : safe.
Lemma safe_Conf_UnsetServer : forall (i : connid), safe (Conf_UnsetServer i).
Proof. intros. unfold Conf_UnsetServer. sf. Qed.
#[export] Hint Resolve safe_Conf_UnsetServer : safe.
Lemma safe_Conf_NickIsBlocked : forall (nick : bytes), safe (Conf_NickIsBlocked nick).
Proof. intros. unfold Conf_NickIsBlocked. sf. Qed.
#[export] Hint Resolve safe_Conf_NickIsBlocked : safe.
(** ** Write.v *)
Lemma safe_IRC_SetPenalty : forall (h : handle) (secs : Z), safe (IRC_SetPenalty h secs).
Proof. intros. unfold IRC_SetPenalty. sf. Qed.
#[export] Hint Resolve safe_IRC_SetPenalty : safe.
Lemma safe_Write_Server : forall (to : handle) (pref : handle) (buf : bytes), safe (Write_Server to pref buf).
Proof. intros. unfold Write_Server. sf. Qed.
#[export] Hint Resolve safe_Write_Server : safe.
Lemma safe_Servers_CB : forall (except : option handle) (flag : option ascii) (cb : handle -> M unit), (forall y0, safe (cb y0)) -> safe (Servers_CB except flag cb).
Proof. intros. unfold Servers_CB. sf. Qed.
#[export] Hint Resolve safe_Servers_CB : safe.
Lemma safe_IRC_WriteStrServersPrefixFlag : forall (except : option handle) (pref : handle) (flag : option ascii) (f : string) (args : list marg), Forall safe args -> safe (IRC_WriteStrServersPrefixFlag except pref flag f args).
Proof. intros. unfold IRC_WriteStrServersPrefixFlag. sf. Qed.
#[export] Hint Resolve safe_IRC_WriteStrServersPrefixFlag : safe.
Lemma safe_IRC_WriteStrServersPrefix : forall (except : option handle) (pref : handle) (f : string) (args : list marg), Forall safe args -> safe (IRC_WriteStrServersPrefix except pref f args).
Proof. intros. unfold IRC_WriteStrServersPrefix. sf. Qed.
#[export] Hint Resolve safe_IRC_WriteStrServersPrefix : safe.
Lemma safe_IRC_WriteStrServers : forall (except : option handle) (f : string) (args : list marg), Forall safe args -> safe (IRC_WriteStrServers except f args).
Proof. intros. unfold IRC_WriteStrServers. sf. Qed.
#[export] Hint Resolve safe_IRC_WriteStrServers : safe.
Lemma safe_Client_UpdateCloakedHostname : forall (h : handle) (origin : option handle) (host : option bytes), safe (Client_UpdateCloakedHostname h origin host).
Proof. intros. unfold Client_UpdateCloakedHostname. sf. Qed.
#[export] Hint Resolve safe_Client_UpdateCloakedHostname : safe.
Lemma safe_Client_HostnameDisplayed : forall (h : handle), safe (Client_HostnameDisplayed h).
Proof. intros. unfold Client_HostnameDisplayed. sf. Qed.
#[export] Hint Resolve safe_Client_HostnameDisplayed : safe.
Lemma safe_aHostD : forall (h : handle), safe (aHostD h).
Proof. intros. unfold aHostD. sf. Qed.
#[export] Hint Resolve safe_aHostD : safe.
Lemma safe_Client_MaskCloaked : forall (h : handle), safe (Client_MaskCloaked h).
Proof. intros. unfold Client_MaskCloaked. sf. Qed.
#[export] Hint Resolve safe_Client_MaskCloaked : safe.
Lemma safe_aMaskC : forall (h : handle), safe (aMaskC h).
Proof. intros. unfold aMaskC. sf. Qed.
#[export] Hint Resolve safe_aMaskC : safe.
Lemma safe_Get_Prefix : forall (target : handle) (h : handle), safe (Get_Prefix target h).
Proof. intros. unfold Get_Prefix. sf. Qed.
#[export] Hint Resolve safe_Get_Prefix : safe.
Lemma safe_IRC_WriteStrClientPrefix : forall (to : handle) (pref : handle) (f : string) (args : list marg), Forall safe args -> safe (IRC_WriteStrClientPrefix to pref f args).
Proof. intros. unfold IRC_WriteStrClientPrefix. sf. Qed.
#[export] Hint Resolve safe_IRC_WriteStrClientPrefix : safe.
Lemma safe_IRC_WriteStrClient : forall (to : handle) (f : string) (args : list marg), Forall safe args -> safe (IRC_WriteStrClient to f args).
Proof. intros. unfold IRC_WriteStrClient. sf. Qed.
#[export] Hint Resolve safe_IRC_WriteStrClient : safe.
Lemma safe_IRC_WriteErrClient : forall (to : handle) (f : string) (args : list marg), Forall safe args -> safe (IRC_WriteErrClient to f args).
Proof. intros. unfold IRC_WriteErrClient. sf. Qed.
#[export] Hint Resolve safe_IRC_WriteErrClient : safe.
Lemma safe_Send_Marked_Connections : forall (pref : handle) (buf : bytes), safe (Send_Marked_Connections pref buf).
Proof. intros. unfold Send_Marked_Connections. sf. Qed.
#[export] Hint Resolve safe_Send_Marked_Connections : safe.
Lemma safe_Members : forall (ch : chandle), safe (Members ch).
Proof. intros. unfold Members. sf. Qed.
#[export] Hint Resolve safe_Members : safe.
Lemma safe_ChannelsOf : forall (h : handle), safe (ChannelsOf h).
Proof. intros. unfold ChannelsOf. sf. Qed.
#[export] Hint Resolve safe_ChannelsOf : safe.
Lemma safe_Mark_Members : forall (from : handle) (ch : chandle) (remote : bool), safe (Mark_Members from ch remote).
Proof. intros. unfold Mark_Members. sf. Qed.
#[export] Hint Resolve safe_Mark_Members : safe.
Lemma safe_IRC_WriteStrChannelPrefix : forall (from : handle) (ch : chandle) (pref : handle) (remote : bool) (f : string) (args : list marg), Forall safe args -> safe (IRC_WriteStrChannelPrefix from ch pref remote f args).
Proof. intros. unfold IRC_WriteStrChannelPrefix. sf. Qed.
#[export] Hint Resolve safe_IRC_WriteStrChannelPrefix : safe.
Lemma safe_IRC_WriteStrChannel : forall (from : handle) (ch : chandle) (remote : bool) (f : string) (args : list marg), Forall safe args -> safe (IRC_WriteStrChannel from ch remote f args).
Proof. intros. unfold IRC_WriteStrChannel. sf. Qed.
#[export] Hint Resolve safe_IRC_WriteStrChannel : safe.
Lemma safe_IRC_WriteStrRelatedPrefix : forall (h : handle) (pref : handle) (remote : bool) (f : string) (args : list marg), Forall safe args -> safe (IRC_WriteStrRelatedPrefix h pref remote f args).
Proof. intros. unfold IRC_WriteStrRelatedPrefix. sf. Qed.
#[export] Hint Resolve safe_IRC_WriteStrRelatedPrefix : safe.
Lemma safe_IRC_SendWallops : forall (client : handle) (from : handle) (f : string) (args : list marg), Forall safe args -> safe (IRC_SendWallops client from f args).
Proof. intros. unfold IRC_SendWallops. sf. Qed.
#[export] Hint Resolve safe_IRC_SendWallops : safe.
Lemma safe_Chans : safe (Chans ).
Proof. intros. unfold Chans. sf. Qed.
#[export] Hint Resolve safe_Chans : safe.
Lemma safe_Channel_Name : forall (ch : chandle), safe (Channel_Name ch).
Proof. intros. unfold Channel_Name. sf. Qed.
#[export] Hint Resolve safe_Channel_Name : safe.
Lemma safe_Channel_Modes : forall (ch : chandle), safe (Channel_Modes ch).
Proof. intros. unfold Channel_Modes. sf. Qed.
#[export] Hint Resolve safe_Channel_Modes : safe.
Lemma safe_Channel_HasMode : forall (ch : chandle) (m : ascii), safe (Channel_HasMode ch m).
Proof. intros. unfold Channel_HasMode. sf. Qed.
#[export] Hint Resolve safe_Channel_HasMode : safe.
Lemma safe_Channel_Key : forall (ch : chandle), safe (Channel_Key ch).
Proof. intros. unfold Channel_Key. sf. Qed.
#[export] Hint Resolve safe_Channel_Key : safe.
Lemma safe_Channel_MaxUsers : forall (ch : chandle), safe (Channel_MaxUsers ch).
Proof. intros. unfold Channel_MaxUsers. sf. Qed.
#[export] Hint Resolve safe_Channel_MaxUsers : safe.
Lemma safe_Channel_Topic : forall (ch : chandle), safe (Channel_Topic ch).
Proof. intros. unfold Channel_Topic. sf. Qed.
#[export] Hint Resolve safe_Channel_Topic : safe.
Lemma safe_Channel_IsLocal : forall (ch : chandle), safe (Channel_IsLocal ch).
Proof. intros. unfold Channel_IsLocal. sf. Qed.
#[export] Hint Resolve safe_Channel_IsLocal : safe.
Lemma safe_aChan : forall (ch : chandle), safe (aChan ch).
Proof. intros. unfold aChan. sf. Qed.
#[export] Hint Resolve safe_aChan : safe.
Lemma safe_Channel_Search : forall (name : bytes), safe (Channel_Search name).
Proof. intros. unfold Channel_Search. sf. Qed.
#[export] Hint Resolve safe_Channel_Search : safe.
Lemma safe_Get_Cl2Chan : forall (ch : chandle) (h : handle), safe (Get_Cl2Chan ch h).
Proof. intros. unfold Get_Cl2Chan. sf. Qed.
#[export] Hint Resolve safe_Get_Cl2Chan : safe.
Lemma safe_Channel_IsMemberOf : forall (ch : chandle) (h : handle), safe (Channel_IsMemberOf ch h).
Proof. intros. unfold Channel_IsMemberOf. sf. Qed.
#[export] Hint Resolve safe_Channel_IsMemberOf : safe.
Lemma safe_Channel_UserModes : forall (ch : chandle) (h : handle), safe (Channel_UserModes ch h).
Proof. intros. unfold Channel_UserModes. sf. Qed.
#[export] Hint Resolve safe_Channel_UserModes : safe.
Lemma safe_Channel_UserHasMode : forall (ch : chandle) (h : handle) (m : ascii), safe (Channel_UserHasMode ch h m).
Proof. intros. unfold Channel_UserHasMode. sf. Qed.
#[export] Hint Resolve safe_Channel_UserHasMode : safe.
Lemma safe_Channel_MemberCount : forall (ch : chandle), safe (Channel_MemberCount ch).
Proof. intros. unfold Channel_MemberCount. sf. Qed.
#[export] Hint Resolve safe_Channel_MemberCount : safe.
Lemma safe_Channel_CountForUser : forall (h : handle), safe (Channel_CountForUser h).
Proof. intros. unfold Channel_CountForUser. sf. Qed.
#[export] Hint Resolve safe_Channel_CountForUser : safe.
Lemma safe_Channel_CountVisible : forall (o : option handle), safe (Channel_CountVisible o).
Proof. intros. unfold Channel_CountVisible. sf. Qed.
#[export] Hint Resolve safe_Channel_CountVisible : safe.
Lemma safe_Channel_ModeAdd : forall (ch : chandle) (m : ascii), safe (Channel_ModeAdd ch m).
Proof. intros. unfold Channel_ModeAdd. sf. Qed.
#[export] Hint Resolve safe_Channel_ModeAdd : safe.
Lemma safe_Channel_ModeDel : forall (ch : chandle) (m : ascii), safe (Channel_ModeDel ch m).
Proof. intros. unfold Channel_ModeDel. sf. Qed.
#[export] Hint Resolve safe_Channel_ModeDel : safe.
Lemma safe_Channel_UserModeAdd : forall (ch : chandle) (h : handle) (m : ascii), safe (Channel_UserModeAdd ch h m).
Proof. intros. unfold Channel_UserModeAdd. sf. Qed.
#[export] Hint Resolve safe_Channel_UserModeAdd : safe.
Lemma safe_Channel_UserModeDel : forall (ch : chandle) (h : handle) (m : ascii), safe (Channel_UserModeDel ch h m).
Proof. intros. unfold Channel_UserModeDel. sf. Qed.
#[export] Hint Resolve safe_Channel_UserModeDel : safe.
Lemma safe_Channel_SetTopic : forall (ch : chandle) (o : option handle) (topic : bytes), safe (Channel_SetTopic ch o topic).
Proof. intros. unfold Channel_SetTopic. sf. Qed.
#[export] Hint Resolve safe_Channel_SetTopic : safe.
Lemma safe_Channel_SetModes : forall (ch : chandle) (m : bytes), safe (Channel_SetModes ch m).
Proof. intros. unfold Channel_SetModes. sf. Qed.
#[export] Hint Resolve safe_Channel_SetModes : safe.
Lemma safe_Channel_SetKey : forall (ch : chandle) (k : bytes), safe (Channel_SetKey ch k).
Proof. intros. unfold Channel_SetKey. sf. Qed.
#[export] Hint Resolve safe_Channel_SetKey : safe.
Lemma safe_Channel_SetMaxUsers : forall (ch : chandle) (n : Z), safe (Channel_SetMaxUsers ch n).
Proof. intros. unfold Channel_SetMaxUsers. sf. Qed.
#[export] Hint Resolve safe_Channel_SetMaxUsers : safe.
Lemma safe_Channel_Create : forall (name : bytes), safe (Channel_Create name).
Proof. intros. unfold Channel_Create. sf. Qed.
#[export] Hint Resolve safe_Channel_Create : safe.
Lemma safe_Add_Client : forall (ch : chandle) (h : handle), safe (Add_Client ch h).
Proof. intros. unfold Add_Client. sf. Qed.
#[export] Hint Resolve safe_Add_Client : safe.
Lemma safe_Channel_Join : forall (h : handle) (name : bytes), safe (Channel_Join h name).
Proof. intros. unfold Channel_Join. sf. Qed.
#[export] Hint Resolve safe_Channel_Join : safe.
Lemma safe_Delete_Channel : forall (ch : chandle), safe (Delete_Channel ch).
Proof. intros. unfold Delete_Channel. sf. Qed.
#[export] Hint Resolve safe_Delete_Channel : safe.
Lemma safe_Remove_Client : forall (ty : remove_type) (ch : chandle) (h : handle) (origin : handle) (reason : bytes) (inform : bool), safe (Remove_Client ty ch h origin reason inform).
Proof. intros. unfold Remove_Client. sf. Qed.
#[export] Hint Resolve safe_Remove_Client : safe.
Lemma safe_Channel_Part : forall (h : handle) (origin : handle) (name : bytes) (reason : bytes), safe (Channel_Part h origin name reason).
Proof. intros. unfold Channel_Part. sf. Qed.
#[export] Hint Resolve safe_Channel_Part : safe.
Lemma safe_can_kick : forall (ch : chandle) (peer : handle) (target : handle) (origin : handle), safe (can_kick ch peer target origin).
Proof. intros. unfold can_kick. sf. Qed.
#[export] Hint Resolve safe_can_kick : safe.
Lemma safe_Channel_Kick : forall (peer : handle) (target : handle) (origin : handle) (name : bytes) (reason : bytes), safe (Channel_Kick peer target origin name reason).
Proof. intros. unfold Channel_Kick. sf. Qed.
#[export] Hint Resolve safe_Channel_Kick : safe.
Lemma safe_Channel_Quit : forall (h : handle) (reason : bytes), safe (Channel_Quit h reason).
Proof. intros. unfold Channel_Quit. sf. Qed.
#[export] Hint Resolve safe_Channel_Quit : safe.
Lemma safe_Check_List : forall (get : M mlist) (put : mlist -> M unit) (h : handle), safe get -> (forall y0, safe (put y0)) -> safe (Check_List get put h).
Proof. intros. unfold Check_List. sf. Qed.
#[export] Hint Resolve safe_Check_List : safe.
Lemma safe_Check_Bans : forall (ch : chandle) (h : handle), safe (Check_Bans ch h).
Proof. intros. unfold Check_Bans. sf. Qed.
#[export] Hint Resolve safe_Check_Bans : safe.
Lemma safe_Check_Excepts : forall (ch : chandle) (h : handle), safe (Check_Excepts ch h).
Proof. intros. unfold Check_Excepts. sf. Qed.
#[export] Hint Resolve safe_Check_Excepts : safe.
Lemma safe_Check_Invites : forall (ch : chandle) (h : handle), safe (Check_Invites ch h).
Proof. intros. unfold Check_Invites. sf. Qed.
#[export] Hint Resolve safe_Check_Invites : safe.
Lemma safe_Can_Send_To_Channel : forall (ch : chandle) (from : handle), safe (Can_Send_To_Channel ch from).
Proof. intros. unfold Can_Send_To_Channel. sf. Qed.
#[export] Hint Resolve safe_Can_Send_To_Channel : safe.
Lemma safe_Channel_Write : forall (ch : chandle) (from : handle) (client : handle) (cmd : bytes) (senderrors : bool) (text : bytes), safe (Channel_Write ch from client cmd senderrors text).
Proof. intros. unfold Channel_Write. sf. Qed.
#[export] Hint Resolve safe_Channel_Write : safe.
Lemma safe_Channel_AddBan : forall (ch : chandle) (mask : bytes) (who : bytes), safe (Channel_AddBan ch mask who).
Proof. intros. unfold Channel_AddBan. sf. Qed.
#[export] Hint Resolve safe_Channel_AddBan : safe.
Lemma safe_Channel_AddExcept : forall (ch : chandle) (mask : bytes) (who : bytes), safe (Channel_AddExcept ch mask who).
Proof. intros. unfold Channel_AddExcept. sf. Qed.
#[export] Hint Resolve safe_Channel_AddExcept : safe.
Lemma safe_Channel_AddInvite : forall (ch : chandle) (mask : bytes) (once : bool) (who : bytes), safe (Channel_AddInvite ch mask once who).
Proof. intros. unfold Channel_AddInvite. sf. Qed.
#[export] Hint Resolve safe_Channel_AddInvite : safe.
Lemma safe_ShowChannelList : forall (l : mlist) (h : handle) (ch : chandle) (msg : string) (msg_end : string), safe (ShowChannelList l h ch msg msg_end).
Proof. intros. unfold ShowChannelList. sf. Qed.
#[export] Hint Resolve safe_ShowChannelList : safe.
Lemma safe_Channel_ShowBans : forall (h : handle) (ch : chandle), safe (Channel_ShowBans h ch).
Proof. intros. unfold Channel_ShowBans. sf. Qed.
#[export] Hint Resolve safe_Channel_ShowBans : safe.
Lemma safe_Channel_ShowExcepts : forall (h : handle) (ch : chandle), safe (Channel_ShowExcepts h ch).
Proof. intros. unfold Channel_ShowExcepts. sf. Qed.
#[export] Hint Resolve safe_Channel_ShowExcepts : safe.
Lemma safe_Channel_ShowInvites : forall (h : handle) (ch : chandle), safe (Channel_ShowInvites h ch).
Proof. intros. unfold Channel_ShowInvites. sf. Qed.
#[export] Hint Resolve safe_Channel_ShowInvites : safe.
Lemma safe_Channel_LogServer : forall (msg : bytes), safe (Channel_LogServer msg).
Proof. intros. unfold Channel_LogServer. sf. Qed.
#[export] Hint Resolve safe_Channel_LogServer : safe.
Lemma safe_Channel_CheckKey : forall (ch : chandle) (h : handle) (key : bytes), safe (Channel_CheckKey ch h key).
Proof. intros. unfold Channel_CheckKey. sf. Qed.
#[export] Hint Resolve safe_Channel_CheckKey : safe.
Lemma safe_Log_ServerNotice : forall (mode : ascii) (f : string) (args : list marg), Forall safe args -> safe (Log_ServerNotice mode f args).
Proof. intros. unfold Log_ServerNotice. sf. Qed.
#[export] Hint Resolve safe_Log_ServerNotice : safe.
Lemma safe_Log_snotice : forall (f : string) (args : list marg), Forall safe args -> safe (Log_snotice f args).
Proof. intros. unfold Log_snotice. sf. Qed.
#[export] Hint Resolve safe_Log_snotice : safe.
Lemma safe_Client_RegisterWhowas : forall (h : handle), safe (Client_RegisterWhowas h).
Proof. intros. unfold Client_RegisterWhowas. sf. Qed.
#[export] Hint Resolve safe_Client_RegisterWhowas : safe.
Lemma safe_Destroy_UserOrService : forall (h : handle) (txt : bytes) (fwd : option bytes) (sendquit : bool), safe (Destroy_UserOrService h txt fwd sendquit).
Proof. intros. unfold Destroy_UserOrService. sf. Qed.
#[export] Hint Resolve safe_Destroy_UserOrService : safe.
Lemma safe_Free_Client : forall (h : handle), safe (Free_Client h).
Proof. intros. unfold Free_Client. sf. Qed.
#[export] Hint Resolve safe_Free_Client : safe.
Lemma safe_Destroy_Found : forall (h : handle) (txt : bytes) (fwd : option bytes) (sendquit : bool), safe (Destroy_Found h txt fwd sendquit).
Proof. intros. unfold Destroy_Found. sf. Qed.
#[export] Hint Resolve safe_Destroy_Found : safe.
Lemma safe_destroy : forall (n : nat) (h : handle) (log : option bytes) (fwd : option bytes) (sendquit : bool), safe (destroy n h log fwd sendquit).
Proof. intros n h log fwd sendquit. revert h log fwd sendquit. induction n; intros; cbn [destroy]; sf. Qed.
#[export] Hint Resolve safe_destroy : safe.
Lemma safe_Client_Destroy : forall (h : handle) (log : option bytes) (fwd : option bytes) (sendquit : bool), safe (Client_Destroy h log fwd sendquit).
Proof. intros. unfold Client_Destroy. sf. Qed.
#[export] Hint Resolve safe_Client_Destroy : safe.
Lemma safe_Client_Announce : forall (to : handle) (pref : handle) (user : handle), safe (Client_Announce to pref user).
Proof. intros. unfold Client_Announce. sf. Qed.
#[export] Hint Resolve safe_Client_Announce : safe.
Lemma safe_Client_Introduce : forall (from : option handle) (h : handle) (t : ctype), safe (Client_Introduce from h t).
Proof. intros. unfold Client_Introduce. sf. Qed.
#[export] Hint Resolve safe_Client_Introduce : safe.
Lemma safe_Conn_Close : forall (i : connid) (log : option bytes) (fwd : option bytes) (inform : bool), safe (Conn_Close i log fwd inform).
Proof. intros. unfold Conn_Close. sf. Qed.
#[export] Hint Resolve safe_Conn_Close : safe.
Lemma safe_Client_Reject : forall (h : handle) (reason : bytes) (inform : bool), safe (Client_Reject h reason inform).
Proof. intros. unfold Client_Reject. sf. Qed.
#[export] Hint Resolve safe_Client_Reject : safe.
Lemma safe_Client_CheckNick : forall (h : handle) (nick : bytes), safe (Client_CheckNick h nick).
Proof. intros. unfold Client_CheckNick. sf. Qed.
#[export] Hint Resolve safe_Client_CheckNick : safe.
Lemma safe_Client_CheckID : forall (h : handle) (id : bytes), safe (Client_CheckID h id).
Proof. intros. unfold Client_CheckID. sf. Qed.
#[export] Hint Resolve safe_Client_CheckID : safe.
(** ** Info.v *)
Lemma safe_mall : forall (A : Type) (l : list A) (f : A -> M bool), (forall y0, safe (f y0)) -> safe (mall l f).
Proof. intros A l f. revert f. induction l; intros; cbn [mall]; sf. Qed.
#[export] Hint Resolve safe_mall : safe.
Lemma safe_void : forall (A : Type) (m : M A), safe m -> safe (void m).
Proof. intros. unfold void. sf. Qed.
#[export] Hint Resolve safe_void : safe.
Lemma safe_need_more : forall (client : handle) (req : request), safe (need_more client req).
Proof. intros. unfold need_more. sf. Qed.
#[export] Hint Resolve safe_need_more : safe.
Lemma safe_no_sender : forall (client : handle) (p : bytes), safe (no_sender client p).
Proof. intros. unfold no_sender. sf. Qed.
#[export] Hint Resolve safe_no_sender : safe.
Lemma safe_with_sender : forall (client : handle) (req : request) (k : handle -> M bool), (forall y0, safe (k y0)) -> safe (with_sender client req k).
Proof. intros. unfold with_sender. sf. Qed.
#[export] Hint Resolve safe_with_sender : safe.
Lemma safe_with_target : forall (req : request) (n : nat) (from : handle) (k : handle -> M bool), (forall y0, safe (k y0)) -> safe (with_target req n from k).
Proof. intros. unfold with_target. sf. Qed.
#[export] Hint Resolve safe_with_target : safe.
Lemma safe_IRC_CheckListTooBig : forall (from : handle) (count : Z) (limit : Z) (name : bytes), safe (IRC_CheckListTooBig from count limit name).
Proof. intros. unfold IRC_CheckListTooBig. sf. Qed.
#[export] Hint Resolve safe_IRC_CheckListTooBig : safe.
Lemma safe_Op_NoPrivileges : forall (client : handle) (req : request), safe (Op_NoPrivileges client req).
Proof. intros. unfold Op_NoPrivileges. sf. Qed.
#[export] Hint Resolve safe_Op_NoPrivileges : safe.
Lemma safe_Op_Check : forall (client : handle) (req : request), safe (Op_Check client req).
Proof. intros. unfold Op_Check. sf. Qed.
#[export] Hint Resolve safe_Op_Check : safe.
Lemma safe_class_list : forall (c : class), safe (class_list c).
Proof. intros. unfold class_list. sf. Qed.
#[export] Hint Resolve safe_class_list : safe.
Lemma safe_set_class : forall (c : class) (l : mlist), safe (set_class c l).
Proof. intros. unfold set_class. sf. Qed.
#[export] Hint Resolve safe_set_class : safe.
Lemma safe_Class_GetMemberReason : forall (c : class) (h : handle), safe (Class_GetMemberReason c h).
Proof. intros. unfold Class_GetMemberReason. sf. Qed.
#[export] Hint Resolve safe_Class_GetMemberReason : safe.
Lemma safe_Class_HandleServerBans : forall (h : handle), safe (Class_HandleServerBans h).
Proof. intros. unfold Class_HandleServerBans. sf. Qed.
#[export] Hint Resolve safe_Class_HandleServerBans : safe.
Lemma safe_Class_AddMask : forall (c : class) (pattern : bytes) (valid : Z) (reason : bytes), safe (Class_AddMask c pattern valid reason).
Proof. intros. unfold Class_AddMask. sf. Qed.
#[export] Hint Resolve safe_Class_AddMask : safe.
Lemma safe_Class_DeleteMask : forall (c : class) (pattern : bytes), safe (Class_DeleteMask c pattern).
Proof. intros. unfold Class_DeleteMask. sf. Qed.
#[export] Hint Resolve safe_Class_DeleteMask : safe.
Lemma safe_Class_Expire_one : forall (c : class) (name : bytes), safe (Class_Expire_one c name).
Proof. intros. unfold Class_Expire_one. sf. Qed.
#[export] Hint Resolve safe_Class_Expire_one : safe.
Lemma safe_Class_Expire : safe (Class_Expire ).
Proof. intros. unfold Class_Expire. sf. Qed.
#[export] Hint Resolve safe_Class_Expire : safe.
Lemma safe_line : forall (f : string) (args : list marg), Forall safe args -> safe (line f args).
Proof. intros. unfold line. sf. Qed.
#[export] Hint Resolve safe_line : safe.
Lemma safe_write_whoreply : forall (client : handle) (c : handle) (chan : bytes) (flags : bytes), safe (write_whoreply client c chan flags).
Proof. intros. unfold write_whoreply. sf. Qed.
#[export] Hint Resolve safe_write_whoreply : safe.
Lemma safe_who_flags_qualifier : forall (client : handle) (modes : bytes) (str : bytes) (len : nat), safe (who_flags_qualifier client modes str len).
Proof. intros. unfold who_flags_qualifier. sf. Qed.
#[export] Hint Resolve safe_who_flags_qualifier : safe.
Lemma safe_IRC_WHO_Channel : forall (client : handle) (ch : chandle) (onlyops : bool), safe (IRC_WHO_Channel client ch onlyops).
Proof. intros. unfold IRC_WHO_Channel. sf. Qed.
#[export] Hint Resolve safe_IRC_WHO_Channel : safe.
Lemma safe_on_same_channel : forall (a : handle) (b : handle), safe (on_same_channel a b).
Proof. intros. unfold on_same_channel. sf. Qed.
#[export] Hint Resolve safe_on_same_channel : safe.
Lemma safe_IRC_WHO_Mask : forall (client : handle) (mask : option bytes) (onlyops : bool), safe (IRC_WHO_Mask client mask onlyops).
Proof. intros. unfold IRC_WHO_Mask. sf. Qed.
#[export] Hint Resolve safe_IRC_WHO_Mask : safe.
Lemma safe_whois_channels : forall (client : handle) (from : handle) (c : handle), safe (whois_channels client from c).
Proof. intros. unfold whois_channels. sf. Qed.
#[export] Hint Resolve safe_whois_channels : safe.
Lemma safe_whenB : forall (b : bool) (m : M bool), safe m -> safe (whenB b m).
Proof. intros. unfold whenB. sf. Qed.
#[export] Hint Resolve safe_whenB : safe.
Lemma safe_IRC_WHOIS_SendReply : forall (client : handle) (from : handle) (c : handle), safe (IRC_WHOIS_SendReply client from c).
Proof. intros. unfold IRC_WHOIS_SendReply. sf. Qed.
#[export] Hint Resolve safe_IRC_WHOIS_SendReply : safe.
Lemma safe_WHOWAS_EntryWrite : forall (p : handle) (e : whowas), safe (WHOWAS_EntryWrite p e).
Proof. intros. unfold WHOWAS_EntryWrite. sf. Qed.
#[export] Hint Resolve safe_WHOWAS_EntryWrite : safe.
Lemma safe_forward_or : forall (client : handle) (req : request) (n : nat) (fwd : handle -> handle -> M bool) (k : handle -> M bool), (forall y0 y1, safe (fwd y0 y1)) -> (forall y0, safe (k y0)) -> safe (forward_or client req n fwd k).
Proof. intros. unfold forward_or. sf. Qed.
#[export] Hint Resolve safe_forward_or : safe.
Lemma safe_IRC_ADMIN : forall (client : handle) (req : request), safe (IRC_ADMIN client req).
Proof. intros. unfold IRC_ADMIN. sf. Qed.
#[export] Hint Resolve safe_IRC_ADMIN : safe.
Lemma safe_IRC_INFO : forall (client : handle) (req : request), safe (IRC_INFO client req).
Proof. intros. unfold IRC_INFO. sf. Qed.
#[export] Hint Resolve safe_IRC_INFO : safe.
Lemma safe_IRC_LINKS : forall (client : handle) (req : request), safe (IRC_LINKS client req).
Proof. intros. unfold IRC_LINKS. sf. Qed.
#[export] Hint Resolve safe_IRC_LINKS : safe.
Lemma safe_IRC_Send_LUSERS : forall (h : handle), safe (IRC_Send_LUSERS h).
Proof. intros. unfold IRC_Send_LUSERS. sf. Qed.
#[export] Hint Resolve safe_IRC_Send_LUSERS : safe.
Lemma safe_IRC_LUSERS : forall (client : handle) (req : request), safe (IRC_LUSERS client req).
Proof. intros. unfold IRC_LUSERS. sf. Qed.
#[export] Hint Resolve safe_IRC_LUSERS : safe.
Lemma safe_IRC_SERVLIST : forall (client : handle) (req : request), safe (IRC_SERVLIST client req).
Proof. intros. unfold IRC_SERVLIST. sf. Qed.
#[export] Hint Resolve safe_IRC_SERVLIST : safe.
Lemma safe_IRC_Show_MOTD : forall (h : handle), safe (IRC_Show_MOTD h).
Proof. intros. unfold IRC_Show_MOTD. sf. Qed.
#[export] Hint Resolve safe_IRC_Show_MOTD : safe.
Lemma safe_IRC_MOTD : forall (client : handle) (req : request), safe (IRC_MOTD client req).
Proof. intros. unfold IRC_MOTD. sf. Qed.
#[export] Hint Resolve safe_IRC_MOTD : safe.
Lemma safe_IRC_Send_NAMES : forall (client : handle) (ch : chandle), safe (IRC_Send_NAMES client ch).
Proof. intros. unfold IRC_Send_NAMES. sf. Qed.
#[export] Hint Resolve safe_IRC_Send_NAMES : safe.
Lemma safe_IRC_NAMES : forall (client : handle) (req : request), safe (IRC_NAMES client req).
Proof. intros. unfold IRC_NAMES. sf. Qed.
#[export] Hint Resolve safe_IRC_NAMES : safe.
Lemma safe_stats_lines : forall (from : handle) (query : ascii) (l : mlist), safe (stats_lines from query l).
Proof. intros. unfold stats_lines. sf. Qed.
#[export] Hint Resolve safe_stats_lines : safe.
Lemma safe_stats_links : forall (client : handle) (from : handle) (more : bool), safe (stats_links client from more).
Proof. intros. unfold stats_links. sf. Qed.
#[export] Hint Resolve safe_stats_links : safe.
Lemma safe_IRC_STATS : forall (client : handle) (req : request), safe (IRC_STATS client req).
Proof. intros. unfold IRC_STATS. sf. Qed.
#[export] Hint Resolve safe_IRC_STATS : safe.
Lemma safe_IRC_SUMMON : forall (client : handle) (u_1 : request), safe (IRC_SUMMON client u_1).
Proof. intros. unfold IRC_SUMMON. sf. Qed.
#[export] Hint Resolve safe_IRC_SUMMON : safe.
Lemma safe_IRC_TIME : forall (client : handle) (req : request), safe (IRC_TIME client req).
Proof. intros. unfold IRC_TIME. sf. Qed.
#[export] Hint Resolve safe_IRC_TIME : safe.
Lemma safe_IRC_USERS : forall (client : handle) (u_1 : request), safe (IRC_USERS client u_1).
Proof. intros. unfold IRC_USERS. sf. Qed.
#[export] Hint Resolve safe_IRC_USERS : safe.
Lemma safe_IRC_Send_ISUPPORT : forall (h : handle), safe (IRC_Send_ISUPPORT h).
Proof. intros. unfold IRC_Send_ISUPPORT. sf. Qed.
#[export] Hint Resolve safe_IRC_Send_ISUPPORT : safe.
Lemma safe_IRC_VERSION : forall (client : handle) (req : request), safe (IRC_VERSION client req).
Proof. intros. unfold IRC_VERSION. sf. Qed.
#[export] Hint Resolve safe_IRC_VERSION : safe.
Lemma safe_IRC_WHO : forall (client : handle) (req : request), safe (IRC_WHO client req).
Proof. intros. unfold IRC_WHO. sf. Qed.
#[export] Hint Resolve safe_IRC_WHO : safe.
Lemma safe_whois_wild : forall (client : handle) (from : handle) (query : bytes) (n : Z), safe (whois_wild client from query n).
Proof. intros. unfold whois_wild. sf. Qed.
#[export] Hint Resolve safe_whois_wild : safe.
Lemma safe_whois_loop : forall (client : handle) (from : handle) (req : request) (remote : bool) (qs : list bytes) (got : bool) (n : Z), safe (whois_loop client from req remote qs got n).
Proof. intros client from req remote qs got n. revert client from req remote got n. induction qs; intros; cbn [whois_loop]; sf. Qed.
#[export] Hint Resolve safe_whois_loop : safe.
Lemma safe_IRC_WHOIS : forall (client : handle) (req : request), safe (IRC_WHOIS client req).
Proof. intros. unfold IRC_WHOIS. sf. Qed.
#[export] Hint Resolve safe_IRC_WHOIS : safe.
Lemma safe_whowas_scan : forall (n : nat) (p : handle) (nick : bytes) (max : Z) (last : Z) (i : Z) (nc : Z) (count : Z), safe (whowas_scan n p nick max last i nc count).
Proof. intros n p nick max last i nc count. revert p nick max last i nc count. induction n; intros; cbn [whowas_scan]; sf. Qed.
#[export] Hint Resolve safe_whowas_scan : safe.
Lemma safe_whowas_loop : forall (p : handle) (nicks : list bytes) (max : Z) (last : Z) (i : Z) (count : Z), safe (whowas_loop p nicks max last i count).
Proof. intros p nicks max last i count. revert p max last i count. induction nicks; intros; cbn [whowas_loop]; sf. Qed.
#[export] Hint Resolve safe_whowas_loop : safe.
Lemma safe_IRC_WHOWAS : forall (client : handle) (req : request), safe (IRC_WHOWAS client req).
Proof. intros. unfold IRC_WHOWAS. sf. Qed.
#[export] Hint Resolve safe_IRC_WHOWAS : safe.
(** ** Chan.v *)
Lemma safe_Channel_FirstChannelOf : forall (h : handle), safe (Channel_FirstChannelOf h).
Proof. intros. unfold Channel_FirstChannelOf. sf. Qed.
#[export] Hint Resolve safe_Channel_FirstChannelOf : safe.
Lemma safe_part_all : forall (n : nat) (client : handle) (target : handle), safe (part_all n client target).
Proof. intros n client target. revert client target. induction n; intros; cbn [part_all]; sf. Qed.
#[export] Hint Resolve safe_part_all : safe.
Lemma safe_part_from_all_channels : forall (client : handle) (target : handle), safe (part_from_all_channels client target).
Proof. intros. unfold part_from_all_channels. sf. Qed.
#[export] Hint Resolve safe_part_from_all_channels : safe.
Lemma safe_join_allowed : forall (client : handle) (ch : chandle) (channame : bytes) (key : option bytes), safe (join_allowed client ch channame key).
Proof. intros. unfold join_allowed. sf. Qed.
#[export] Hint Resolve safe_join_allowed : safe.
Lemma safe_join_set_channelmodes : forall (ch : chandle) (target : handle) (flags : option bytes), safe (join_set_channelmodes ch target flags).
Proof. intros. unfold join_set_channelmodes. sf. Qed.
#[export] Hint Resolve safe_join_set_channelmodes : safe.
Lemma safe_cb_join_forward : forall (to : handle) (pref : handle) (data : bytes), safe (cb_join_forward to pref data).
Proof. intros. unfold cb_join_forward. sf. Qed.
#[export] Hint Resolve safe_cb_join_forward : safe.
Lemma safe_join_forward : forall (client : handle) (target : handle) (ch : chandle) (channame : bytes), safe (join_forward client target ch channame).
Proof. intros. unfold join_forward. sf. Qed.
#[export] Hint Resolve safe_join_forward : safe.
Lemma safe_IRC_Send_Channel_Info : forall (client : handle) (ch : chandle), safe (IRC_Send_Channel_Info client ch).
Proof. intros. unfold IRC_Send_Channel_Info. sf. Qed.
#[export] Hint Resolve safe_IRC_Send_Channel_Info : safe.
Lemma safe_join_check : forall (client : handle) (target : handle) (channame : bytes) (o : option chandle) (key : option bytes) (flags : option bytes), safe (join_check client target channame o key flags).
Proof. intros. unfold join_check. sf. Qed.
#[export] Hint Resolve safe_join_check : safe.
Lemma safe_join_one : forall (client : handle) (target : handle) (channame : bytes) (key : option bytes), safe (join_one client target channame key).
Proof. intros. unfold join_one. sf. Qed.
#[export] Hint Resolve safe_join_one : safe.
Lemma safe_join_loop : forall (client : handle) (target : handle) (chans : list bytes) (keys : list bytes), safe (join_loop client target chans keys).
Proof. intros client target chans keys. revert client target keys. induction chans; intros; cbn [join_loop]; sf. Qed.
#[export] Hint Resolve safe_join_loop : safe.
Lemma safe_IRC_JOIN : forall (client : handle) (req : request), safe (IRC_JOIN client req).
Proof. intros. unfold IRC_JOIN. sf. Qed.
#[export] Hint Resolve safe_IRC_JOIN : safe.
Lemma safe_IRC_PART : forall (client : handle) (req : request), safe (IRC_PART client req).
Proof. intros. unfold IRC_PART. sf. Qed.
#[export] Hint Resolve safe_IRC_PART : safe.
Lemma safe_IRC_TOPIC : forall (client : handle) (req : request), safe (IRC_TOPIC client req).
Proof. intros. unfold IRC_TOPIC. sf. Qed.
#[export] Hint Resolve safe_IRC_TOPIC : safe.
Lemma safe_list_chans : forall (from : handle) (pattern : bytes) (l : list chandle) (count : Z), safe (list_chans from pattern l count).
Proof. intros from pattern l count. revert from pattern count. induction l; intros; cbn [list_chans]; sf. Qed.
#[export] Hint Resolve safe_list_chans : safe.
Lemma safe_list_pats : forall (from : handle) (pats : list bytes) (count : Z), safe (list_pats from pats count).
Proof. intros from pats count. revert from count. induction pats; intros; cbn [list_pats]; sf. Qed.
#[export] Hint Resolve safe_list_pats : safe.
Lemma safe_IRC_LIST : forall (client : handle) (req : request), safe (IRC_LIST client req).
Proof. intros. unfold IRC_LIST. sf. Qed.
#[export] Hint Resolve safe_IRC_LIST : safe.
Lemma safe_chaninfo_create : forall (name : bytes), safe (chaninfo_create name).
Proof. intros. unfold chaninfo_create. sf. Qed.
#[export] Hint Resolve safe_chaninfo_create : safe.
Lemma safe_IRC_CHANINFO : forall (client : handle) (req : request), safe (IRC_CHANINFO client req).
Proof. intros. unfold IRC_CHANINFO. sf. Qed.
#[export] Hint Resolve safe_IRC_CHANINFO : safe.
(** ** Mode.v *)
Lemma safe_Mode_Limit_Reached : forall (h : handle) (count : Z), safe (Mode_Limit_Reached h count).
Proof. intros. unfold Mode_Limit_Reached. sf. Qed.
#[export] Hint Resolve safe_Mode_Limit_Reached : safe.
Lemma safe_user_letter : forall (client : handle) (origin : handle) (set : bool) (c : ascii), safe (user_letter client origin set c).
Proof. intros. unfold user_letter. sf. Qed.
#[export] Hint Resolve safe_user_letter : safe.
Lemma safe_user_modes_reply : forall (client : handle) (origin : handle) (target : handle) (the_modes : bytes) (ok : bool) (hh : bool), safe (user_modes_reply client origin target the_modes ok hh).
Proof. intros. unfold user_modes_reply. sf. Qed.
#[export] Hint Resolve safe_user_modes_reply : safe.
Lemma safe_Channel_Mode_Answer_Request : forall (origin : handle) (ch : chandle), safe (Channel_Mode_Answer_Request origin ch).
Proof. intros. unfold Channel_Mode_Answer_Request. sf. Qed.
#[export] Hint Resolve safe_Channel_Mode_Answer_Request : safe.
Lemma safe_Send_ListChange : forall (add : bool) (mode : ascii) (pref : handle) (client : handle) (ch : chandle) (mask : bytes), safe (Send_ListChange add mode pref client ch mask).
Proof. intros. unfold Send_ListChange. sf. Qed.
#[export] Hint Resolve safe_Send_ListChange : safe.
Lemma safe_Add_To_List : forall (what : ascii) (pref : handle) (client : handle) (ch : chandle) (pattern : bytes), safe (Add_To_List what pref client ch pattern).
Proof. intros. unfold Add_To_List. sf. Qed.
#[export] Hint Resolve safe_Add_To_List : safe.
Lemma safe_Del_From_List : forall (what : ascii) (pref : handle) (client : handle) (ch : chandle) (pattern : bytes), safe (Del_From_List what pref client ch pattern).
Proof. intros. unfold Del_From_List. sf. Qed.
#[export] Hint Resolve safe_Del_From_List : safe.
Lemma safe_deny : forall (origin : handle) (ch : chandle) (msg : string), safe (deny origin ch msg).
Proof. intros. unfold deny. sf. Qed.
#[export] Hint Resolve safe_deny : safe.
Lemma safe_deny_exit : forall (origin : handle) (ch : chandle) (msg : string), safe (deny_exit origin ch msg).
Proof. intros. unfold deny_exit. sf. Qed.
#[export] Hint Resolve safe_deny_exit : safe.
Lemma safe_deny_next : forall (origin : handle) (ch : chandle) (msg : string) (st : cmst), safe (deny_next origin ch msg st).
Proof. intros. unfold deny_next. sf. Qed.
#[export] Hint Resolve safe_deny_next : safe.
Lemma safe_exit_unless_machine : forall (is_machine : bool) (m : M bool), safe m -> safe (exit_unless_machine is_machine m).
Proof. intros. unfold exit_unless_machine. sf. Qed.
#[export] Hint Resolve safe_exit_unless_machine : safe.
Lemma safe_letter_flag : forall (origin : handle) (ch : chandle) (is_oper : bool) (is_machine : bool) (st : cmst) (c : ascii), safe (letter_flag origin ch is_oper is_machine st c).
Proof. intros. unfold letter_flag. sf. Qed.
#[export] Hint Resolve safe_letter_flag : safe.
Lemma safe_letter_k : forall (client : handle) (origin : handle) (command : bytes) (ch : chandle) (is_oper : bool) (is_machine : bool) (st : cmst) (c : ascii), safe (letter_k client origin command ch is_oper is_machine st c).
Proof. intros. unfold letter_k. sf. Qed.
#[export] Hint Resolve safe_letter_k : safe.
Lemma safe_letter_l : forall (client : handle) (origin : handle) (command : bytes) (ch : chandle) (is_oper : bool) (is_machine : bool) (st : cmst) (c : ascii), safe (letter_l client origin command ch is_oper is_machine st c).
Proof. intros. unfold letter_l. sf. Qed.
#[export] Hint Resolve safe_letter_l : safe.
Lemma safe_letter_OP : forall (origin : handle) (ch : chandle) (is_oper : bool) (is_machine : bool) (st : cmst) (c : ascii), safe (letter_OP origin ch is_oper is_machine st c).
Proof. intros. unfold letter_OP. sf. Qed.
#[export] Hint Resolve safe_letter_OP : safe.
Lemma safe_letter_user : forall (origin : handle) (ch : chandle) (is_oper : bool) (is_machine : bool) (st : cmst) (c : ascii), safe (letter_user origin ch is_oper is_machine st c).
Proof. intros. unfold letter_user. sf. Qed.
#[export] Hint Resolve safe_letter_user : safe.
Lemma safe_letter_list : forall (client : handle) (origin : handle) (ch : chandle) (is_oper : bool) (is_machine : bool) (st : cmst) (c : ascii), safe (letter_list client origin ch is_oper is_machine st c).
Proof. intros. unfold letter_list. sf. Qed.
#[export] Hint Resolve safe_letter_list : safe.
Lemma safe_chan_letter : forall (client : handle) (origin : handle) (command : bytes) (ch : chandle) (is_oper : bool) (is_machine : bool) (st : cmst) (c : ascii), safe (chan_letter client origin command ch is_oper is_machine st c).
Proof. intros. unfold chan_letter. sf. Qed.
#[export] Hint Resolve safe_chan_letter : safe.
Lemma safe_chan_apply : forall (origin : handle) (ch : chandle) (st : cmst) (x : ascii) (argadd : bytes) (target : option handle), safe (chan_apply origin ch st x argadd target).
Proof. intros. unfold chan_apply. sf. Qed.
#[export] Hint Resolve safe_chan_apply : safe.
Lemma safe_chan_privs : forall (client : handle) (ch : chandle) (is_oper : bool) (is_machine : bool) (st : cmst), safe (chan_privs client ch is_oper is_machine st).
Proof. intros. unfold chan_privs. sf. Qed.
#[export] Hint Resolve safe_chan_privs : safe.
Lemma safe_chan_modes_reply : forall (client : handle) (origin : handle) (ch : chandle) (the_modes : bytes) (the_args : bytes) (ok : bool), safe (chan_modes_reply client origin ch the_modes the_args ok).
Proof. intros. unfold chan_modes_reply. sf. Qed.
#[export] Hint Resolve safe_chan_modes_reply : safe.
Lemma safe_IRC_AWAY : forall (client : handle) (req : request), safe (IRC_AWAY client req).
Proof. intros. unfold IRC_AWAY. sf. Qed.
#[export] Hint Resolve safe_IRC_AWAY : safe.
