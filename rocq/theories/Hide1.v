(** Generated by tools/gen_hide.py: the functions of the model that do not look at channels
    work in the same way when a channel is taken out of the state (C30). *)
From Coq Require Import List Ascii String ZArith NArith Bool Lia Arith.
From Verif Require Import Bytes Strl Match Lists Hash ParseReq State Messages Monad Core Write Info Chan Mode Msg Login Oper Server Dispatch Conn Hide0.
Import ListNotations.
Local Open Scope m_scope.

(** ** Core.v *)
Lemma comm_aS : forall q (s : bytes), comm q (aS s).
Proof. intros. unfold aS. cm. Qed.
#[export] Hint Resolve comm_aS : comm.
Lemma comm_aD : forall q (z : Z), comm q (aD z).
Proof. intros. unfold aD. cm. Qed.
#[export] Hint Resolve comm_aD : comm.
Lemma comm_aC : forall q (c : ascii), comm q (aC c).
Proof. intros. unfold aC. cm. Qed.
#[export] Hint Resolve comm_aC : comm.
Lemma comm_vsn : forall q (n : nat) (f : string) (args : list marg), Forall (comm q) args -> comm q (vsn n f args).
Proof. intros. unfold vsn. cm. Qed.
#[export] Hint Resolve comm_vsn : comm.
Lemma comm_emit : forall q (i : connid) (l : bytes), comm q (emit i l).
Proof. intros. unfold emit. cm. Qed.
#[export] Hint Resolve comm_emit : comm.
Lemma comm_Conn_WriteStr : forall q (i : connid) (f : string) (args : list marg), Forall (comm q) args -> comm q (Conn_WriteStr i f args).
Proof. intros. unfold Conn_WriteStr. cm. Qed.
#[export] Hint Resolve comm_Conn_WriteStr : comm.
Lemma comm_Conn_GetClient : forall q (i : connid), comm q (Conn_GetClient i).
Proof. intros. unfold Conn_GetClient. cm. Qed.
#[export] Hint Resolve comm_Conn_GetClient : comm.
Lemma comm_Conn_Password : forall q (i : connid), comm q (Conn_Password i).
Proof. intros. unfold Conn_Password. cm. Qed.
#[export] Hint Resolve comm_Conn_Password : comm.
Lemma comm_Conn_SetPassword : forall q (i : connid) (p : bytes), comm q (Conn_SetPassword i p).
Proof. intros. unfold Conn_SetPassword. cm. Qed.
#[export] Hint Resolve comm_Conn_SetPassword : comm.
Lemma comm_Conn_IPA : forall q (i : connid), comm q (Conn_IPA i).
Proof. intros. unfold Conn_IPA. cm. Qed.
#[export] Hint Resolve comm_Conn_IPA : comm.
Lemma comm_Conn_UpdateIdle : forall q (i : connid), comm q (Conn_UpdateIdle i).
Proof. intros. unfold Conn_UpdateIdle. cm. Qed.
#[export] Hint Resolve comm_Conn_UpdateIdle : comm.
Lemma comm_Conn_UpdatePing : forall q (i : connid) (t : Z), comm q (Conn_UpdatePing i t).
Proof. intros. unfold Conn_UpdatePing. cm. Qed.
#[export] Hint Resolve comm_Conn_UpdatePing : comm.
Lemma comm_Conn_GetSignon : forall q (i : connid), comm q (Conn_GetSignon i).
Proof. intros. unfold Conn_GetSignon. cm. Qed.
#[export] Hint Resolve comm_Conn_GetSignon : comm.
Lemma comm_Conn_GetIdle : forall q (i : connid), comm q (Conn_GetIdle i).
Proof. intros. unfold Conn_GetIdle. cm. Qed.
#[export] Hint Resolve comm_Conn_GetIdle : comm.
Lemma comm_Conn_LastPing : forall q (i : connid), comm q (Conn_LastPing i).
Proof. intros. unfold Conn_LastPing. cm. Qed.
#[export] Hint Resolve comm_Conn_LastPing : comm.
Lemma comm_Conn_SetPenalty : forall q (i : connid) (secs : Z), comm q (Conn_SetPenalty i secs).
Proof. intros. unfold Conn_SetPenalty. cm. Qed.
#[export] Hint Resolve comm_Conn_SetPenalty : comm.
Lemma comm_Conn_ClearFlags : forall q , comm q (Conn_ClearFlags ).
Proof. intros. unfold Conn_ClearFlags. cm. Qed.
#[export] Hint Resolve comm_Conn_ClearFlags : comm.
Lemma comm_Conn_SetFlag : forall q (i : connid) (f : nat), comm q (Conn_SetFlag i f).
Proof. intros. unfold Conn_SetFlag. cm. Qed.
#[export] Hint Resolve comm_Conn_SetFlag : comm.
Lemma comm_Conn_All : forall q , comm q (Conn_All ).
Proof. intros. unfold Conn_All. cm. Qed.
#[export] Hint Resolve comm_Conn_All : comm.
Lemma comm_Client_Type : forall q (h : handle), comm q (Client_Type h).
Proof. intros. unfold Client_Type. cm. Qed.
#[export] Hint Resolve comm_Client_Type : comm.
Lemma comm_is_type : forall q (h : handle) (t : ctype), comm q (is_type h t).
Proof. intros. unfold is_type. cm. Qed.
#[export] Hint Resolve comm_is_type : comm.
Lemma comm_Client_Conn : forall q (h : handle), comm q (Client_Conn h).
Proof. intros. unfold Client_Conn. cm. Qed.
#[export] Hint Resolve comm_Client_Conn : comm.
Lemma comm_Client_ID : forall q (h : handle), comm q (Client_ID h).
Proof. intros. unfold Client_ID. cm. Qed.
#[export] Hint Resolve comm_Client_ID : comm.
Lemma comm_Client_Info : forall q (h : handle), comm q (Client_Info h).
Proof. intros. unfold Client_Info. cm. Qed.
#[export] Hint Resolve comm_Client_Info : comm.
Lemma comm_Client_User : forall q (h : handle), comm q (Client_User h).
Proof. intros. unfold Client_User. cm. Qed.
#[export] Hint Resolve comm_Client_User : comm.
Lemma comm_Client_Hostname : forall q (h : handle), comm q (Client_Hostname h).
Proof. intros. unfold Client_Hostname. cm. Qed.
#[export] Hint Resolve comm_Client_Hostname : comm.
Lemma comm_Client_Modes : forall q (h : handle), comm q (Client_Modes h).
Proof. intros. unfold Client_Modes. cm. Qed.
#[export] Hint Resolve comm_Client_Modes : comm.
Lemma comm_Client_Hops : forall q (h : handle), comm q (Client_Hops h).
Proof. intros. unfold Client_Hops. cm. Qed.
#[export] Hint Resolve comm_Client_Hops : comm.
Lemma comm_Client_Token : forall q (h : handle), comm q (Client_Token h).
Proof. intros. unfold Client_Token. cm. Qed.
#[export] Hint Resolve comm_Client_Token : comm.
Lemma comm_Client_MyToken : forall q (h : handle), comm q (Client_MyToken h).
Proof. intros. unfold Client_MyToken. cm. Qed.
#[export] Hint Resolve comm_Client_MyToken : comm.
Lemma comm_Client_Away : forall q (h : handle), comm q (Client_Away h).
Proof. intros. unfold Client_Away. cm. Qed.
#[export] Hint Resolve comm_Client_Away : comm.
Lemma comm_Client_AccountName : forall q (h : handle), comm q (Client_AccountName h).
Proof. intros. unfold Client_AccountName. cm. Qed.
#[export] Hint Resolve comm_Client_AccountName : comm.
Lemma comm_Client_Introducer : forall q (h : handle), comm q (Client_Introducer h).
Proof. intros. unfold Client_Introducer. cm. Qed.
#[export] Hint Resolve comm_Client_Introducer : comm.
Lemma comm_Client_TopServer : forall q (h : handle), comm q (Client_TopServer h).
Proof. intros. unfold Client_TopServer. cm. Qed.
#[export] Hint Resolve comm_Client_TopServer : comm.
Lemma comm_Client_HasMode : forall q (h : handle) (m : ascii), comm q (Client_HasMode h m).
Proof. intros. unfold Client_HasMode. cm. Qed.
#[export] Hint Resolve comm_Client_HasMode : comm.
Lemma comm_Client_HasFlag : forall q (h : handle) (m : ascii), comm q (Client_HasFlag h m).
Proof. intros. unfold Client_HasFlag. cm. Qed.
#[export] Hint Resolve comm_Client_HasFlag : comm.
Lemma comm_Client_IPAText : forall q (h : handle), comm q (Client_IPAText h).
Proof. intros. unfold Client_IPAText. cm. Qed.
#[export] Hint Resolve comm_Client_IPAText : comm.
Lemma comm_Client_TypeText : forall q (h : handle), comm q (Client_TypeText h).
Proof. intros. unfold Client_TypeText. cm. Qed.
#[export] Hint Resolve comm_Client_TypeText : comm.
Lemma comm_Clients : forall q , comm q (Clients ).
Proof. intros. unfold Clients. cm. Qed.
#[export] Hint Resolve comm_Clients : comm.
Lemma comm_aID : forall q (h : handle), comm q (aID h).
Proof. intros. unfold aID. cm. Qed.
#[export] Hint Resolve comm_aID : comm.
Lemma comm_aUser : forall q (h : handle), comm q (aUser h).
Proof. intros. unfold aUser. cm. Qed.
#[export] Hint Resolve comm_aUser : comm.
Lemma comm_aHost : forall q (h : handle), comm q (aHost h).
Proof. intros. unfold aHost. cm. Qed.
#[export] Hint Resolve comm_aHost : comm.
Lemma comm_aInfo : forall q (h : handle), comm q (aInfo h).
Proof. intros. unfold aInfo. cm. Qed.
#[export] Hint Resolve comm_aInfo : comm.
Lemma comm_aModes : forall q (h : handle), comm q (aModes h).
Proof. intros. unfold aModes. cm. Qed.
#[export] Hint Resolve comm_aModes : comm.
Lemma comm_aHops1 : forall q (h : handle), comm q (aHops1 h).
Proof. intros. unfold aHops1. cm. Qed.
#[export] Hint Resolve comm_aHops1 : comm.
Lemma comm_NextHop : forall q (n : nat) (h : handle), comm q (NextHop n h).
Proof. intros q n h. revert h. induction n; intros; cbn [NextHop]; cm. Qed.
#[export] Hint Resolve comm_NextHop : comm.
Lemma comm_Client_NextHop : forall q (h : handle), comm q (Client_NextHop h).
Proof. intros. unfold Client_NextHop. cm. Qed.
#[export] Hint Resolve comm_Client_NextHop : comm.
Lemma comm_Client_Mask : forall q (h : handle), comm q (Client_Mask h).
Proof. intros. unfold Client_Mask. cm. Qed.
#[export] Hint Resolve comm_Client_Mask : comm.
Lemma comm_aMask : forall q (h : handle), comm q (aMask h).
Proof. intros. unfold aMask. cm. Qed.
#[export] Hint Resolve comm_aMask : comm.
Lemma comm_Client_Search : forall q (nick : bytes), comm q (Client_Search nick).
Proof. intros. unfold Client_Search. cm. Qed.
#[export] Hint Resolve comm_Client_Search : comm.
Lemma comm_Client_SearchServer : forall q (mask : bytes), comm q (Client_SearchServer mask).
Proof. intros. unfold Client_SearchServer. cm. Qed.
#[export] Hint Resolve comm_Client_SearchServer : comm.
Lemma comm_Client_GetFromToken : forall q (h : handle) (token : Z), comm q (Client_GetFromToken h token).
Proof. intros. unfold Client_GetFromToken. cm. Qed.
#[export] Hint Resolve comm_Client_GetFromToken : comm.
Lemma comm_Client_IsValidNick : forall q (nick : bytes), comm q (Client_IsValidNick nick).
Proof. intros. unfold Client_IsValidNick. cm. Qed.
#[export] Hint Resolve comm_Client_IsValidNick : comm.
Lemma comm_Client_SetHostname : forall q (h : handle) (host : bytes), comm q (Client_SetHostname h host).
Proof. intros. unfold Client_SetHostname. cm. Qed.
#[export] Hint Resolve comm_Client_SetHostname : comm.
Lemma comm_Client_SetIPAText : forall q (h : handle) (t : bytes), comm q (Client_SetIPAText h t).
Proof. intros. unfold Client_SetIPAText. cm. Qed.
#[export] Hint Resolve comm_Client_SetIPAText : comm.
Lemma comm_Client_SetID : forall q (h : handle) (id : bytes), comm q (Client_SetID h id).
Proof. intros. unfold Client_SetID. cm. Qed.
#[export] Hint Resolve comm_Client_SetID : comm.
Lemma comm_Client_SetUser : forall q (h : handle) (user : bytes) (idented : bool), comm q (Client_SetUser h user idented).
Proof. intros. unfold Client_SetUser. cm. Qed.
#[export] Hint Resolve comm_Client_SetUser : comm.
Lemma comm_Client_SetInfo : forall q (h : handle) (info : bytes), comm q (Client_SetInfo h info).
Proof. intros. unfold Client_SetInfo. cm. Qed.
#[export] Hint Resolve comm_Client_SetInfo : comm.
Lemma comm_Client_SetModes : forall q (h : handle) (m : bytes), comm q (Client_SetModes h m).
Proof. intros. unfold Client_SetModes. cm. Qed.
#[export] Hint Resolve comm_Client_SetModes : comm.
Lemma comm_Client_SetFlags : forall q (h : handle) (f : bytes), comm q (Client_SetFlags h f).
Proof. intros. unfold Client_SetFlags. cm. Qed.
#[export] Hint Resolve comm_Client_SetFlags : comm.
Lemma comm_Client_SetAccountName : forall q (h : handle) (a : bytes), comm q (Client_SetAccountName h a).
Proof. intros. unfold Client_SetAccountName. cm. Qed.
#[export] Hint Resolve comm_Client_SetAccountName : comm.
Lemma comm_Client_SetAway : forall q (h : handle) (t : bytes), comm q (Client_SetAway h t).
Proof. intros. unfold Client_SetAway. cm. Qed.
#[export] Hint Resolve comm_Client_SetAway : comm.
Lemma comm_Client_SetHops : forall q (h : handle) (n : Z), comm q (Client_SetHops h n).
Proof. intros. unfold Client_SetHops. cm. Qed.
#[export] Hint Resolve comm_Client_SetHops : comm.
Lemma comm_Client_SetToken : forall q (h : handle) (n : Z), comm q (Client_SetToken h n).
Proof. intros. unfold Client_SetToken. cm. Qed.
#[export] Hint Resolve comm_Client_SetToken : comm.
Lemma comm_Client_SetIntroducer : forall q (h : handle) (i : handle), comm q (Client_SetIntroducer h i).
Proof. intros. unfold Client_SetIntroducer. cm. Qed.
#[export] Hint Resolve comm_Client_SetIntroducer : comm.
Lemma comm_Client_ModeAdd : forall q (h : handle) (m : ascii), comm q (Client_ModeAdd h m).
Proof. intros. unfold Client_ModeAdd. cm. Qed.
#[export] Hint Resolve comm_Client_ModeAdd : comm.
Lemma comm_Client_ModeDel : forall q (h : handle) (m : ascii), comm q (Client_ModeDel h m).
Proof. intros. unfold Client_ModeDel. cm. Qed.
#[export] Hint Resolve comm_Client_ModeDel : comm.
Lemma comm_Count : forall q (t : ctype), comm q (Count t).
Proof. intros. unfold Count. cm. Qed.
#[export] Hint Resolve comm_Count : comm.
Lemma comm_MyCount : forall q (t : ctype), comm q (MyCount t).
Proof. intros. unfold MyCount. cm. Qed.
#[export] Hint Resolve comm_MyCount : comm.
Lemma comm_Client_MyServerCount : forall q , comm q (Client_MyServerCount ).
Proof. intros. unfold Client_MyServerCount. cm. Qed.
#[export] Hint Resolve comm_Client_MyServerCount : comm.
Lemma comm_Client_OperCount : forall q , comm q (Client_OperCount ).
Proof. intros. unfold Client_OperCount. cm. Qed.
#[export] Hint Resolve comm_Client_OperCount : comm.
Lemma comm_Client_UnknownCount : forall q , comm q (Client_UnknownCount ).
Proof. intros. unfold Client_UnknownCount. cm. Qed.
#[export] Hint Resolve comm_Client_UnknownCount : comm.
Lemma comm_Generate_MyToken : forall q (h : handle), comm q (Generate_MyToken h).
Proof. intros. unfold Generate_MyToken. cm. Qed.
#[export] Hint Resolve comm_Generate_MyToken : comm.
Lemma comm_opt : forall q (A : Type) (o : option A) (f : A -> M unit), (forall y0, comm q (f y0)) -> comm q (opt o f).
Proof. intros. unfold opt. cm. Qed.
#[export] Hint Resolve comm_opt : comm.
Lemma comm_sv_at : forall q (n : nat), comm q (sv_at n).
Proof. intros. unfold sv_at. cm. Qed.
#[export] Hint Resolve comm_sv_at : comm.
Lemma comm_upd_sv : forall q (n : nat) (f : cserver -> cserver), comm q (upd_sv n f).
Proof. intros. unfold upd_sv. cm. Qed.
#[export] Hint Resolve comm_upd_sv : comm.
Lemma comm_Conf_GetServer : forall q (i : connid), comm q (Conf_GetServer i).
Proof. intros. unfold Conf_GetServer. cm. Qed.
#[export] Hint Resolve comm_Conf_GetServer : comm.
Lemma comm_Conf_UnsetServer : forall q (i : connid), comm q (Conf_UnsetServer i).
Proof. intros. unfold Conf_UnsetServer. cm. Qed.
#[export] Hint Resolve comm_Conf_UnsetServer : comm.
Lemma comm_Conf_NickIsBlocked : forall q (nick : bytes), comm q (Conf_NickIsBlocked nick).
Proof. intros. unfold Conf_NickIsBlocked. cm. Qed.
#[export] Hint Resolve comm_Conf_NickIsBlocked : comm.
(** ** Write.v *)
Lemma comm_IRC_SetPenalty : forall q (h : handle) (secs : Z), comm q (IRC_SetPenalty h secs).
Proof. intros. unfold IRC_SetPenalty. cm. Qed.
#[export] Hint Resolve comm_IRC_SetPenalty : comm.
Lemma comm_Write_Server : forall q (to : handle) (pref : handle) (buf : bytes), comm q (Write_Server to pref buf).
Proof. intros. unfold Write_Server. cm. Qed.
#[export] Hint Resolve comm_Write_Server : comm.
Lemma comm_Servers_CB : forall q (except : option handle) (flag : option ascii) (cb : handle -> M unit), (forall y0, comm q (cb y0)) -> comm q (Servers_CB except flag cb).
Proof. intros. unfold Servers_CB. cm. Qed.
#[export] Hint Resolve comm_Servers_CB : comm.
Lemma comm_IRC_WriteStrServersPrefixFlag : forall q (except : option handle) (pref : handle) (flag : option ascii) (f : string) (args : list marg), Forall (comm q) args -> comm q (IRC_WriteStrServersPrefixFlag except pref flag f args).
Proof. intros. unfold IRC_WriteStrServersPrefixFlag. cm. Qed.
#[export] Hint Resolve comm_IRC_WriteStrServersPrefixFlag : comm.
Lemma comm_IRC_WriteStrServersPrefix : forall q (except : option handle) (pref : handle) (f : string) (args : list marg), Forall (comm q) args -> comm q (IRC_WriteStrServersPrefix except pref f args).
Proof. intros. unfold IRC_WriteStrServersPrefix. cm. Qed.
#[export] Hint Resolve comm_IRC_WriteStrServersPrefix : comm.
Lemma comm_IRC_WriteStrServers : forall q (except : option handle) (f : string) (args : list marg), Forall (comm q) args -> comm q (IRC_WriteStrServers except f args).
Proof. intros. unfold IRC_WriteStrServers. cm. Qed.
#[export] Hint Resolve comm_IRC_WriteStrServers : comm.
Lemma comm_Client_UpdateCloakedHostname : forall q (h : handle) (origin : option handle) (host : option bytes), comm q (Client_UpdateCloakedHostname h origin host).
Proof. intros. unfold Client_UpdateCloakedHostname. cm. Qed.
#[export] Hint Resolve comm_Client_UpdateCloakedHostname : comm.
Lemma comm_Client_HostnameDisplayed : forall q (h : handle), comm q (Client_HostnameDisplayed h).
Proof. intros. unfold Client_HostnameDisplayed. cm. Qed.
#[export] Hint Resolve comm_Client_HostnameDisplayed : comm.
Lemma comm_aHostD : forall q (h : handle), comm q (aHostD h).
Proof. intros. unfold aHostD. cm. Qed.
#[export] Hint Resolve comm_aHostD : comm.
Lemma comm_Client_MaskCloaked : forall q (h : handle), comm q (Client_MaskCloaked h).
Proof. intros. unfold Client_MaskCloaked. cm. Qed.
#[export] Hint Resolve comm_Client_MaskCloaked : comm.
Lemma comm_aMaskC : forall q (h : handle), comm q (aMaskC h).
Proof. intros. unfold aMaskC. cm. Qed.
#[export] Hint Resolve comm_aMaskC : comm.
Lemma comm_Get_Prefix : forall q (target : handle) (h : handle), comm q (Get_Prefix target h).
Proof. intros. unfold Get_Prefix. cm. Qed.
#[export] Hint Resolve comm_Get_Prefix : comm.
Lemma comm_IRC_WriteStrClientPrefix : forall q (to : handle) (pref : handle) (f : string) (args : list marg), Forall (comm q) args -> comm q (IRC_WriteStrClientPrefix to pref f args).
Proof. intros. unfold IRC_WriteStrClientPrefix. cm. Qed.
#[export] Hint Resolve comm_IRC_WriteStrClientPrefix : comm.
Lemma comm_IRC_WriteStrClient : forall q (to : handle) (f : string) (args : list marg), Forall (comm q) args -> comm q (IRC_WriteStrClient to f args).
Proof. intros. unfold IRC_WriteStrClient. cm. Qed.
#[export] Hint Resolve comm_IRC_WriteStrClient : comm.
Lemma comm_IRC_WriteErrClient : forall q (to : handle) (f : string) (args : list marg), Forall (comm q) args -> comm q (IRC_WriteErrClient to f args).
Proof. intros. unfold IRC_WriteErrClient. cm. Qed.
#[export] Hint Resolve comm_IRC_WriteErrClient : comm.
Lemma comm_Send_Marked_Connections : forall q (pref : handle) (buf : bytes), comm q (Send_Marked_Connections pref buf).
Proof. intros. unfold Send_Marked_Connections. cm. Qed.
#[export] Hint Resolve comm_Send_Marked_Connections : comm.
Lemma comm_IRC_SendWallops : forall q (client : handle) (from : handle) (f : string) (args : list marg), Forall (comm q) args -> comm q (IRC_SendWallops client from f args).
Proof. intros. unfold IRC_SendWallops. cm. Qed.
#[export] Hint Resolve comm_IRC_SendWallops : comm.
Lemma comm_Check_List : forall q (get : M mlist) (put : mlist -> M unit) (h : handle), comm q get -> (forall y0, comm q (put y0)) -> comm q (Check_List get put h).
Proof. intros. unfold Check_List. cm. Qed.
#[export] Hint Resolve comm_Check_List : comm.
Lemma comm_Log_ServerNotice : forall q (mode : ascii) (f : string) (args : list marg), Forall (comm q) args -> comm q (Log_ServerNotice mode f args).
Proof. intros. unfold Log_ServerNotice. cm. Qed.
#[export] Hint Resolve comm_Log_ServerNotice : comm.
Lemma comm_Client_RegisterWhowas : forall q (h : handle), comm q (Client_RegisterWhowas h).
Proof. intros. unfold Client_RegisterWhowas. cm. Qed.
#[export] Hint Resolve comm_Client_RegisterWhowas : comm.
Lemma comm_Client_Announce : forall q (to : handle) (pref : handle) (user : handle), comm q (Client_Announce to pref user).
Proof. intros. unfold Client_Announce. cm. Qed.
#[export] Hint Resolve comm_Client_Announce : comm.
Lemma comm_Client_CheckNick : forall q (h : handle) (nick : bytes), comm q (Client_CheckNick h nick).
Proof. intros. unfold Client_CheckNick. cm. Qed.
#[export] Hint Resolve comm_Client_CheckNick : comm.
(** ** Info.v *)
Lemma comm_mall : forall q (A : Type) (l : list A) (f : A -> M bool), (forall y0, comm q (f y0)) -> comm q (mall l f).
Proof. intros q A l f. revert f. induction l; intros; cbn [mall]; cm. Qed.
#[export] Hint Resolve comm_mall : comm.
Lemma comm_void : forall q (A : Type) (m : M A), comm q m -> comm q (void m).
Proof. intros. unfold void. cm. Qed.
#[export] Hint Resolve comm_void : comm.
Lemma comm_need_more : forall q (client : handle) (req : request), comm q (need_more client req).
Proof. intros. unfold need_more. cm. Qed.
#[export] Hint Resolve comm_need_more : comm.
Lemma comm_no_sender : forall q (client : handle) (p : bytes), comm q (no_sender client p).
Proof. intros. unfold no_sender. cm. Qed.
#[export] Hint Resolve comm_no_sender : comm.
Lemma comm_with_sender : forall q (client : handle) (req : request) (k : handle -> M bool), (forall y0, comm q (k y0)) -> comm q (with_sender client req k).
Proof. intros. unfold with_sender. cm. Qed.
#[export] Hint Resolve comm_with_sender : comm.
Lemma comm_with_target : forall q (req : request) (n : nat) (from : handle) (k : handle -> M bool), (forall y0, comm q (k y0)) -> comm q (with_target req n from k).
Proof. intros. unfold with_target. cm. Qed.
#[export] Hint Resolve comm_with_target : comm.
Lemma comm_IRC_CheckListTooBig : forall q (from : handle) (count : Z) (limit : Z) (name : bytes), comm q (IRC_CheckListTooBig from count limit name).
Proof. intros. unfold IRC_CheckListTooBig. cm. Qed.
#[export] Hint Resolve comm_IRC_CheckListTooBig : comm.
Lemma comm_Op_Check : forall q (client : handle) (req : request), comm q (Op_Check client req).
Proof. intros. unfold Op_Check. cm. Qed.
#[export] Hint Resolve comm_Op_Check : comm.
Lemma comm_line : forall q (f : string) (args : list marg), Forall (comm q) args -> comm q (line f args).
Proof. intros. unfold line. cm. Qed.
#[export] Hint Resolve comm_line : comm.
Lemma comm_who_flags_qualifier : forall q (client : handle) (modes : bytes) (str : bytes) (len : nat), comm q (who_flags_qualifier client modes str len).
Proof. intros. unfold who_flags_qualifier. cm. Qed.
#[export] Hint Resolve comm_who_flags_qualifier : comm.
Lemma comm_whenB : forall q (b : bool) (m : M bool), comm q m -> comm q (whenB b m).
Proof. intros. unfold whenB. cm. Qed.
#[export] Hint Resolve comm_whenB : comm.
Lemma comm_WHOWAS_EntryWrite : forall q (p : handle) (e : whowas), comm q (WHOWAS_EntryWrite p e).
Proof. intros. unfold WHOWAS_EntryWrite. cm. Qed.
#[export] Hint Resolve comm_WHOWAS_EntryWrite : comm.
Lemma comm_forward_or : forall q (client : handle) (req : request) (n : nat) (fwd : handle -> handle -> M bool) (k : handle -> M bool), (forall y0 y1, comm q (fwd y0 y1)) -> (forall y0, comm q (k y0)) -> comm q (forward_or client req n fwd k).
Proof. intros. unfold forward_or. cm. Qed.
#[export] Hint Resolve comm_forward_or : comm.
Lemma comm_IRC_ADMIN : forall q (client : handle) (req : request), comm q (IRC_ADMIN client req).
Proof. intros. unfold IRC_ADMIN. cm. Qed.
#[export] Hint Resolve comm_IRC_ADMIN : comm.
Lemma comm_IRC_INFO : forall q (client : handle) (req : request), comm q (IRC_INFO client req).
Proof. intros. unfold IRC_INFO. cm. Qed.
#[export] Hint Resolve comm_IRC_INFO : comm.
Lemma comm_IRC_LINKS : forall q (client : handle) (req : request), comm q (IRC_LINKS client req).
Proof. intros. unfold IRC_LINKS. cm. Qed.
#[export] Hint Resolve comm_IRC_LINKS : comm.
Lemma comm_IRC_SERVLIST : forall q (client : handle) (req : request), comm q (IRC_SERVLIST client req).
Proof. intros. unfold IRC_SERVLIST. cm. Qed.
#[export] Hint Resolve comm_IRC_SERVLIST : comm.
Lemma comm_IRC_Show_MOTD : forall q (h : handle), comm q (IRC_Show_MOTD h).
Proof. intros. unfold IRC_Show_MOTD. cm. Qed.
#[export] Hint Resolve comm_IRC_Show_MOTD : comm.
Lemma comm_IRC_MOTD : forall q (client : handle) (req : request), comm q (IRC_MOTD client req).
Proof. intros. unfold IRC_MOTD. cm. Qed.
#[export] Hint Resolve comm_IRC_MOTD : comm.
Lemma comm_stats_lines : forall q (from : handle) (query : ascii) (l : mlist), comm q (stats_lines from query l).
Proof. intros. unfold stats_lines. cm. Qed.
#[export] Hint Resolve comm_stats_lines : comm.
Lemma comm_stats_links : forall q (client : handle) (from : handle) (more : bool), comm q (stats_links client from more).
Proof. intros. unfold stats_links. cm. Qed.
#[export] Hint Resolve comm_stats_links : comm.
Lemma comm_IRC_SUMMON : forall q (client : handle) (u_1 : request), comm q (IRC_SUMMON client u_1).
Proof. intros. unfold IRC_SUMMON. cm. Qed.
#[export] Hint Resolve comm_IRC_SUMMON : comm.
Lemma comm_IRC_TIME : forall q (client : handle) (req : request), comm q (IRC_TIME client req).
Proof. intros. unfold IRC_TIME. cm. Qed.
#[export] Hint Resolve comm_IRC_TIME : comm.
Lemma comm_IRC_USERS : forall q (client : handle) (u_1 : request), comm q (IRC_USERS client u_1).
Proof. intros. unfold IRC_USERS. cm. Qed.
#[export] Hint Resolve comm_IRC_USERS : comm.
Lemma comm_IRC_Send_ISUPPORT : forall q (h : handle), comm q (IRC_Send_ISUPPORT h).
Proof. intros. unfold IRC_Send_ISUPPORT. cm. Qed.
#[export] Hint Resolve comm_IRC_Send_ISUPPORT : comm.
Lemma comm_IRC_VERSION : forall q (client : handle) (req : request), comm q (IRC_VERSION client req).
Proof. intros. unfold IRC_VERSION. cm. Qed.
#[export] Hint Resolve comm_IRC_VERSION : comm.
Lemma comm_whowas_scan : forall q (n : nat) (p : handle) (nick : bytes) (max : Z) (last : Z) (i : Z) (nc : Z) (count : Z), comm q (whowas_scan n p nick max last i nc count).
Proof. intros q n p nick max last i nc count. revert p nick max last i nc count. induction n; intros; cbn [whowas_scan]; cm. Qed.
#[export] Hint Resolve comm_whowas_scan : comm.
Lemma comm_whowas_loop : forall q (p : handle) (nicks : list bytes) (max : Z) (last : Z) (i : Z) (count : Z), comm q (whowas_loop p nicks max last i count).
Proof. intros q p nicks max last i count. revert p max last i count. induction nicks; intros; cbn [whowas_loop]; cm. Qed.
#[export] Hint Resolve comm_whowas_loop : comm.
Lemma comm_IRC_WHOWAS : forall q (client : handle) (req : request), comm q (IRC_WHOWAS client req).
Proof. intros. unfold IRC_WHOWAS. cm. Qed.
#[export] Hint Resolve comm_IRC_WHOWAS : comm.
