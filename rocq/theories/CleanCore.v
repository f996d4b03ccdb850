(** Generated by tools/gen_clv.py from Core.v: its functions keep strings clean (C08). *)
From Coq Require Import List Ascii String ZArith NArith Bool Lia Arith.
From Verif Require Import Bytes Strl Match Lists Hash ParseReq State Messages Monad Core Clean0 CleanRec Clean CleanTac CleanLists CleanParseReq .
Import ListNotations.
Local Open Scope m_scope.

Lemma clv_DEFAULT_AWAY_MSG : clv DEFAULT_AWAY_MSG.
Proof. intros. unfold DEFAULT_AWAY_MSG. cl_all. Qed.
#[export] Hint Resolve clv_DEFAULT_AWAY_MSG : clv.
Lemma clv_DEFAULT_TOPIC_ID : clv DEFAULT_TOPIC_ID.
Proof. intros. unfold DEFAULT_TOPIC_ID. cl_all. Qed.
#[export] Hint Resolve clv_DEFAULT_TOPIC_ID : clv.
Lemma clv_aS : forall (s : bytes), clv s -> clv (aS s).
Proof. intros. unfold aS. cl_all. Qed.
#[export] Hint Resolve clv_aS : clv.
Lemma clv_aD : forall (z : Z), clv (aD z).
Proof. intros. unfold aD. cl_all. Qed.
#[export] Hint Resolve clv_aD : clv.
Lemma clv_aC : forall (c : ascii), clv c -> clv (aC c).
Proof. intros. unfold aC. cl_all. Qed.
#[export] Hint Resolve clv_aC : clv.
Lemma clv_vsn : forall (n : nat) (f : string) (args : list marg), clv (B f) -> clv args -> clv (vsn n f args).
Proof. intros. unfold vsn. cl_all. Qed.
#[export] Hint Resolve clv_vsn : clv.
Lemma wire_legal : forall t : bytes, clv t -> legal_line (wire t).
Proof.
  intros t H. apply clv_cut0 in H. unfold wire.
  assert (N : ~ In NUL (cut0 t)) by (clear H; induction t as [|c t IH]; [intros []|]; cbn [cut0]; destruct (Ascii.eqb c NUL) eqn:E; [intros []|]; intros [X|X]; [subst c; discriminate|auto]).
  assert (K : forall x : bytes, clv x -> ~ In CR x /\ ~ In LF x) by (intros x Hx; unfold clv, Cl_bytes, Cl_list in Hx; rewrite Forall_forall in Hx; split; intro X; apply Hx in X; destruct X; congruence).
  eexists. split; [reflexivity|]. destruct (511 <=? List.length (cut0 t)) eqn:L.
  - assert (Q : clv (firstn 505 (cut0 t) ++ B "[CUT]")) by (apply (clv_app ascii Cl_ascii); [apply (clv_firstn ascii Cl_ascii); exact H|apply okb_clv; reflexivity]).
    destruct (K _ Q). split; [|split; [assumption|split; [assumption|]]].
    + rewrite app_length, firstn_length. simpl (List.length (B _)). lia.
    + intro X. apply in_app_or in X. destruct X as [X|X]; [apply N; revert X; clear; generalize 505; induction (cut0 t); intros [|n] X; simpl in *; try contradiction; destruct X; eauto|]. simpl in X. decompose [or] X; try contradiction; discriminate.
  - apply Nat.leb_gt in L. destruct (K _ H). repeat split; auto; lia.
Qed.
Lemma clv_emit : forall i l, legal_line l -> clv (emit i l).
Proof.
  intros i l H. unfold emit. cl_bind; [|cl_auto]. apply clv_modify. intros s S. apply clv_set_s_out; [constructor; [exact H|apply S]|]. cl_auto.
Qed.
#[export] Hint Resolve wire_legal clv_emit : clv.
Lemma clv_Conn_WriteStr : forall (i : connid) (f : string) (args : list marg), clv (B f) -> clv args -> clv (Conn_WriteStr i f args).
Proof. intros. unfold Conn_WriteStr. cl_all. Qed.
#[export] Hint Resolve clv_Conn_WriteStr : clv.
Lemma clv_Conn_GetClient : forall (i : connid), clv (Conn_GetClient i).
Proof. intros. unfold Conn_GetClient. cl_all. Qed.
#[export] Hint Resolve clv_Conn_GetClient : clv.
Lemma clv_Conn_Password : forall (i : connid), clv (Conn_Password i).
Proof. intros. unfold Conn_Password. cl_all. Qed.
#[export] Hint Resolve clv_Conn_Password : clv.
Lemma clv_Conn_SetPassword : forall (i : connid) (p : bytes), clv p -> clv (Conn_SetPassword i p).
Proof. intros. unfold Conn_SetPassword. cl_all. Qed.
#[export] Hint Resolve clv_Conn_SetPassword : clv.
Lemma clv_Conn_IPA : forall (i : connid), clv (Conn_IPA i).
Proof. intros. unfold Conn_IPA. cl_all. Qed.
#[export] Hint Resolve clv_Conn_IPA : clv.
Lemma clv_Conn_UpdateIdle : forall (i : connid), clv (Conn_UpdateIdle i).
Proof. intros. unfold Conn_UpdateIdle. cl_all. Qed.
#[export] Hint Resolve clv_Conn_UpdateIdle : clv.
Lemma clv_Conn_UpdatePing : forall (i : connid) (t : Z), clv (Conn_UpdatePing i t).
Proof. intros. unfold Conn_UpdatePing. cl_all. Qed.
#[export] Hint Resolve clv_Conn_UpdatePing : clv.
Lemma clv_Conn_GetSignon : forall (i : connid), clv (Conn_GetSignon i).
Proof. intros. unfold Conn_GetSignon. cl_all. Qed.
#[export] Hint Resolve clv_Conn_GetSignon : clv.
Lemma clv_Conn_GetIdle : forall (i : connid), clv (Conn_GetIdle i).
Proof. intros. unfold Conn_GetIdle. cl_all. Qed.
#[export] Hint Resolve clv_Conn_GetIdle : clv.
Lemma clv_Conn_LastPing : forall (i : connid), clv (Conn_LastPing i).
Proof. intros. unfold Conn_LastPing. cl_all. Qed.
#[export] Hint Resolve clv_Conn_LastPing : clv.
Lemma clv_Conn_SetPenalty : forall (i : connid) (secs : Z), clv (Conn_SetPenalty i secs).
Proof. intros. unfold Conn_SetPenalty. cl_all. Qed.
#[export] Hint Resolve clv_Conn_SetPenalty : clv.
Lemma clv_Conn_ClearFlags : clv Conn_ClearFlags.
Proof. intros. unfold Conn_ClearFlags. cl_all. Qed.
#[export] Hint Resolve clv_Conn_ClearFlags : clv.
Lemma clv_Conn_SetFlag : forall (i : connid) (f : nat), clv (Conn_SetFlag i f).
Proof. intros. unfold Conn_SetFlag. cl_all. Qed.
#[export] Hint Resolve clv_Conn_SetFlag : clv.
Lemma clv_Conn_All : clv Conn_All.
Proof. intros. unfold Conn_All. cl_all. Qed.
#[export] Hint Resolve clv_Conn_All : clv.
Lemma clv_Client_Type : forall (h : handle), clv (Client_Type h).
Proof. intros. unfold Client_Type. cl_all. Qed.
#[export] Hint Resolve clv_Client_Type : clv.
Lemma clv_is_type : forall (h : handle) (t : ctype), clv (is_type h t).
Proof. intros. unfold is_type. cl_all. Qed.
#[export] Hint Resolve clv_is_type : clv.
Lemma clv_Client_Conn : forall (h : handle), clv (Client_Conn h).
Proof. intros. unfold Client_Conn. cl_all. Qed.
#[export] Hint Resolve clv_Client_Conn : clv.
Lemma clv_Client_ID : forall (h : handle), clv (Client_ID h).
Proof. intros. unfold Client_ID. cl_all. Qed.
#[export] Hint Resolve clv_Client_ID : clv.
Lemma clv_Client_Info : forall (h : handle), clv (Client_Info h).
Proof. intros. unfold Client_Info. cl_all. Qed.
#[export] Hint Resolve clv_Client_Info : clv.
Lemma clv_Client_User : forall (h : handle), clv (Client_User h).
Proof. intros. unfold Client_User. cl_all. Qed.
#[export] Hint Resolve clv_Client_User : clv.
Lemma clv_Client_Hostname : forall (h : handle), clv (Client_Hostname h).
Proof. intros. unfold Client_Hostname. cl_all. Qed.
#[export] Hint Resolve clv_Client_Hostname : clv.
Lemma clv_Client_Modes : forall (h : handle), clv (Client_Modes h).
Proof. intros. unfold Client_Modes. cl_all. Qed.
#[export] Hint Resolve clv_Client_Modes : clv.
Lemma clv_Client_Hops : forall (h : handle), clv (Client_Hops h).
Proof. intros. unfold Client_Hops. cl_all. Qed.
#[export] Hint Resolve clv_Client_Hops : clv.
Lemma clv_Client_Token : forall (h : handle), clv (Client_Token h).
Proof. intros. unfold Client_Token. cl_all. Qed.
#[export] Hint Resolve clv_Client_Token : clv.
Lemma clv_Client_MyToken : forall (h : handle), clv (Client_MyToken h).
Proof. intros. unfold Client_MyToken. cl_all. Qed.
#[export] Hint Resolve clv_Client_MyToken : clv.
Lemma clv_Client_Away : forall (h : handle), clv (Client_Away h).
Proof. intros. unfold Client_Away. cl_all. Qed.
#[export] Hint Resolve clv_Client_Away : clv.
Lemma clv_Client_AccountName : forall (h : handle), clv (Client_AccountName h).
Proof. intros. unfold Client_AccountName. cl_all. Qed.
#[export] Hint Resolve clv_Client_AccountName : clv.
Lemma clv_Client_Introducer : forall (h : handle), clv (Client_Introducer h).
Proof. intros. unfold Client_Introducer. cl_all. Qed.
#[export] Hint Resolve clv_Client_Introducer : clv.
Lemma clv_Client_TopServer : forall (h : handle), clv (Client_TopServer h).
Proof. intros. unfold Client_TopServer. cl_all. Qed.
#[export] Hint Resolve clv_Client_TopServer : clv.
Lemma clv_Client_HasMode : forall (h : handle) (m : ascii), clv m -> clv (Client_HasMode h m).
Proof. intros. unfold Client_HasMode. cl_all. Qed.
#[export] Hint Resolve clv_Client_HasMode : clv.
Lemma clv_Client_HasFlag : forall (h : handle) (m : ascii), clv m -> clv (Client_HasFlag h m).
Proof. intros. unfold Client_HasFlag. cl_all. Qed.
#[export] Hint Resolve clv_Client_HasFlag : clv.
Lemma clv_Client_IPAText : forall (h : handle), clv (Client_IPAText h).
Proof. intros. unfold Client_IPAText. cl_all. Qed.
#[export] Hint Resolve clv_Client_IPAText : clv.
Lemma clv_Client_TypeText : forall (h : handle), clv (Client_TypeText h).
Proof. intros. unfold Client_TypeText. cl_all. Qed.
#[export] Hint Resolve clv_Client_TypeText : clv.
Lemma clv_Clients : clv Clients.
Proof. intros. unfold Clients. cl_all. Qed.
#[export] Hint Resolve clv_Clients : clv.
Lemma clv_aID : forall (h : handle), clv (aID h).
Proof. intros. unfold aID. cl_all. Qed.
#[export] Hint Resolve clv_aID : clv.
Lemma clv_aUser : forall (h : handle), clv (aUser h).
Proof. intros. unfold aUser. cl_all. Qed.
#[export] Hint Resolve clv_aUser : clv.
Lemma clv_aHost : forall (h : handle), clv (aHost h).
Proof. intros. unfold aHost. cl_all. Qed.
#[export] Hint Resolve clv_aHost : clv.
Lemma clv_aInfo : forall (h : handle), clv (aInfo h).
Proof. intros. unfold aInfo. cl_all. Qed.
#[export] Hint Resolve clv_aInfo : clv.
Lemma clv_aModes : forall (h : handle), clv (aModes h).
Proof. intros. unfold aModes. cl_all. Qed.
#[export] Hint Resolve clv_aModes : clv.
Lemma clv_aHops1 : forall (h : handle), clv (aHops1 h).
Proof. intros. unfold aHops1. cl_all. Qed.
#[export] Hint Resolve clv_aHops1 : clv.
Lemma clv_NextHop : forall (n : nat) (h : handle), clv (NextHop n h).
Proof. intros n h. revert h. induction n; intros; cl_invs; cbn [NextHop]; cl_all. Qed.
#[export] Hint Resolve clv_NextHop : clv.
Lemma clv_Client_NextHop : forall (h : handle), clv (Client_NextHop h).
Proof. intros. unfold Client_NextHop. cl_all. Qed.
#[export] Hint Resolve clv_Client_NextHop : clv.
Lemma clv_mask_of : forall (c : client) (host : bytes), clv c -> clv host -> clv (mask_of c host).
Proof. intros. unfold mask_of. cl_all. Qed.
#[export] Hint Resolve clv_mask_of : clv.
Lemma clv_Client_Mask : forall (h : handle), clv (Client_Mask h).
Proof. intros. unfold Client_Mask. cl_all. Qed.
#[export] Hint Resolve clv_Client_Mask : clv.
Lemma clv_aMask : forall (h : handle), clv (aMask h).
Proof. intros. unfold aMask. cl_all. Qed.
#[export] Hint Resolve clv_aMask : clv.
Lemma clv_search_id : forall (nick : bytes), clv nick -> clv (search_id nick).
Proof. intros. unfold search_id. cl_all. Qed.
#[export] Hint Resolve clv_search_id : clv.
Lemma clv_Client_Search : forall (nick : bytes), clv nick -> clv (Client_Search nick).
Proof. intros. unfold Client_Search. cl_all. Qed.
#[export] Hint Resolve clv_Client_Search : clv.
Lemma clv_Client_SearchServer : forall (mask : bytes), clv mask -> clv (Client_SearchServer mask).
Proof. intros. unfold Client_SearchServer. cl_all. Qed.
#[export] Hint Resolve clv_Client_SearchServer : clv.
Lemma clv_Client_GetFromToken : forall (h : handle) (token : Z), clv (Client_GetFromToken h token).
Proof. intros. unfold Client_GetFromToken. cl_all. Qed.
#[export] Hint Resolve clv_Client_GetFromToken : clv.
Lemma clv_goodchars : clv goodchars.
Proof. intros. unfold goodchars. cl_all. Qed.
#[export] Hint Resolve clv_goodchars : clv.
Lemma clv_Client_IsValidNick : forall (nick : bytes), clv nick -> clv (Client_IsValidNick nick).
Proof. intros. unfold Client_IsValidNick. cl_all. Qed.
#[export] Hint Resolve clv_Client_IsValidNick : clv.
Lemma clv_cloak : forall (n : nat) (f : bytes) (host : bytes) (salt : bytes) (n2 : nat), clv f -> clv host -> clv salt -> clv (cloak n f host salt n2).
Proof. intros. unfold cloak. cl_all. Qed.
#[export] Hint Resolve clv_cloak : clv.
Lemma clv_Client_SetHostname : forall (h : handle) (host : bytes), clv host -> clv (Client_SetHostname h host).
Proof. intros. unfold Client_SetHostname. cl_all. Qed.
#[export] Hint Resolve clv_Client_SetHostname : clv.
Lemma clv_Client_SetIPAText : forall (h : handle) (t : bytes), clv t -> clv (Client_SetIPAText h t).
Proof. intros. unfold Client_SetIPAText. cl_all. Qed.
#[export] Hint Resolve clv_Client_SetIPAText : clv.
Lemma clv_set_id : forall (usertonick : bool) (id : bytes) (c : client), clv id -> clv c -> clv (set_id usertonick id c).
Proof. intros. unfold set_id. cl_all. Qed.
#[export] Hint Resolve clv_set_id : clv.
Lemma clv_Client_SetID : forall (h : handle) (id : bytes), clv id -> clv (Client_SetID h id).
Proof. intros. unfold Client_SetID. cl_all. Qed.
#[export] Hint Resolve clv_Client_SetID : clv.
Lemma clv_set_user : forall (usertonick : bool) (user : bytes) (idented : bool) (c : client), clv user -> clv c -> clv (set_user usertonick user idented c).
Proof. intros. unfold set_user. cl_all. Qed.
#[export] Hint Resolve clv_set_user : clv.
Lemma clv_Client_SetUser : forall (h : handle) (user : bytes) (idented : bool), clv user -> clv (Client_SetUser h user idented).
Proof. intros. unfold Client_SetUser. cl_all. Qed.
#[export] Hint Resolve clv_Client_SetUser : clv.
Lemma clv_set_info : forall (usertonick : bool) (info : bytes) (c : client), clv info -> clv c -> clv (set_info usertonick info c).
Proof. intros. unfold set_info. cl_all. Qed.
#[export] Hint Resolve clv_set_info : clv.
Lemma clv_Client_SetInfo : forall (h : handle) (info : bytes), clv info -> clv (Client_SetInfo h info).
Proof. intros. unfold Client_SetInfo. cl_all. Qed.
#[export] Hint Resolve clv_Client_SetInfo : clv.
Lemma clv_Client_SetModes : forall (h : handle) (m : bytes), clv m -> clv (Client_SetModes h m).
Proof. intros. unfold Client_SetModes. cl_all. Qed.
#[export] Hint Resolve clv_Client_SetModes : clv.
Lemma clv_Client_SetFlags : forall (h : handle) (f : bytes), clv f -> clv (Client_SetFlags h f).
Proof. intros. unfold Client_SetFlags. cl_all. Qed.
#[export] Hint Resolve clv_Client_SetFlags : clv.
Lemma clv_Client_SetAccountName : forall (h : handle) (a : bytes), clv a -> clv (Client_SetAccountName h a).
Proof. intros. unfold Client_SetAccountName. cl_all. Qed.
#[export] Hint Resolve clv_Client_SetAccountName : clv.
Lemma clv_Client_SetAway : forall (h : handle) (t : bytes), clv t -> clv (Client_SetAway h t).
Proof. intros. unfold Client_SetAway. cl_all. Qed.
#[export] Hint Resolve clv_Client_SetAway : clv.
Lemma clv_Client_SetHops : forall (h : handle) (n : Z), clv (Client_SetHops h n).
Proof. intros. unfold Client_SetHops. cl_all. Qed.
#[export] Hint Resolve clv_Client_SetHops : clv.
Lemma clv_Client_SetToken : forall (h : handle) (n : Z), clv (Client_SetToken h n).
Proof. intros. unfold Client_SetToken. cl_all. Qed.
#[export] Hint Resolve clv_Client_SetToken : clv.
Lemma clv_Client_SetIntroducer : forall (h : handle) (i : handle), clv (Client_SetIntroducer h i).
Proof. intros. unfold Client_SetIntroducer. cl_all. Qed.
#[export] Hint Resolve clv_Client_SetIntroducer : clv.
Lemma clv_mode_add : forall (m : bytes) (c : ascii), clv m -> clv c -> clv (mode_add m c).
Proof. intros. unfold mode_add. cl_all. Qed.
#[export] Hint Resolve clv_mode_add : clv.
Lemma clv_del_first : forall (c : ascii) (m : bytes), clv c -> clv m -> clv (del_first c m).
Proof. intros c m. revert c. induction m; intros; cl_invs; cbn [del_first]; cl_all. Qed.
#[export] Hint Resolve clv_del_first : clv.
Lemma clv_mode_del : forall (m : bytes) (c : ascii), clv m -> clv c -> clv (mode_del m c).
Proof. intros. unfold mode_del. cl_all. Qed.
#[export] Hint Resolve clv_mode_del : clv.
Lemma clv_Client_ModeAdd : forall (h : handle) (m : ascii), clv m -> clv (Client_ModeAdd h m).
Proof. intros. unfold Client_ModeAdd. cl_all. Qed.
#[export] Hint Resolve clv_Client_ModeAdd : clv.
Lemma clv_Client_ModeDel : forall (h : handle) (m : ascii), clv m -> clv (Client_ModeDel h m).
Proof. intros. unfold Client_ModeDel. cl_all. Qed.
#[export] Hint Resolve clv_Client_ModeDel : clv.
Lemma clv_Count : forall (t : ctype), clv (Count t).
Proof. intros. unfold Count. cl_all. Qed.
#[export] Hint Resolve clv_Count : clv.
Lemma clv_MyCount : forall (t : ctype), clv (MyCount t).
Proof. intros. unfold MyCount. cl_all. Qed.
#[export] Hint Resolve clv_MyCount : clv.
Lemma clv_Client_MyServerCount : clv Client_MyServerCount.
Proof. intros. unfold Client_MyServerCount. cl_all. Qed.
#[export] Hint Resolve clv_Client_MyServerCount : clv.
Lemma clv_Client_OperCount : clv Client_OperCount.
Proof. intros. unfold Client_OperCount. cl_all. Qed.
#[export] Hint Resolve clv_Client_OperCount : clv.
Lemma clv_Client_UnknownCount : clv Client_UnknownCount.
Proof. intros. unfold Client_UnknownCount. cl_all. Qed.
#[export] Hint Resolve clv_Client_UnknownCount : clv.
Lemma clv_Generate_MyToken : forall (h : handle), clv (Generate_MyToken h).
Proof. intros. unfold Generate_MyToken. cl_all. Qed.
#[export] Hint Resolve clv_Generate_MyToken : clv.
Lemma clv_Adjust_Counters : forall (h : handle), clv (Adjust_Counters h).
Proof. intros. unfold Adjust_Counters. cl_all. Qed.
#[export] Hint Resolve clv_Adjust_Counters : clv.
Lemma clv_odd : forall (b : bool) (o : oddity), clv (odd b o).
Proof. intros. unfold odd. cl_auto. Qed.
#[export] Hint Resolve clv_odd : clv.
Lemma clv_Client_SetType : forall (h : handle) (t : ctype), clv (Client_SetType h t).
Proof. intros. unfold Client_SetType. cl_all. Qed.
#[export] Hint Resolve clv_Client_SetType : clv.
Lemma clv_new_client : clv new_client.
Proof. constructor; cbn; repeat constructor. Qed.
#[export] Hint Resolve clv_new_client : clv.
Lemma clv_opt : forall A (C : Cl A) (o : option A) f, clv o -> (forall a, clv a -> clv (f a)) -> clv (opt o f).
Proof. intros A C [a|] f H Hf; [apply Hf; exact H|apply clv_ret; exact I]. Qed.
#[export] Hint Extern 0 (@clv _ _ (opt _ _)) => (match goal with |- @clv _ _ (@opt ?A ?o ?f) => let C := inst A in apply (clv_opt A C o f); [|cl_intro; cbv beta] end) : clv.
Lemma clv_Init_New_Client : forall (idx : option connid) (intro : handle) (top : option handle) (t : ctype) (id : option bytes) (user : option bytes) (host : option bytes) (info : option bytes) (hops : Z) (token : Z) (modes : option bytes) (idented : bool), clv id -> clv user -> clv host -> clv info -> clv modes -> clv (Init_New_Client idx intro top t id user host info hops token modes idented).
Proof. intros. unfold Init_New_Client. cl_all. Qed.
#[export] Hint Resolve clv_Init_New_Client : clv.
Lemma clv_Client_NewLocal : forall (i : connid) (host : option bytes) (t : ctype) (idented : bool), clv host -> clv (Client_NewLocal i host t idented).
Proof. intros. unfold Client_NewLocal. cl_all. Qed.
#[export] Hint Resolve clv_Client_NewLocal : clv.
Lemma clv_Client_NewRemoteServer : forall (intro : handle) (host : bytes) (top : option handle) (hops : Z) (token : Z) (info : bytes) (idented : bool), clv host -> clv info -> clv (Client_NewRemoteServer intro host top hops token info idented).
Proof. intros. unfold Client_NewRemoteServer. cl_all. Qed.
#[export] Hint Resolve clv_Client_NewRemoteServer : clv.
Lemma clv_Client_NewRemoteUser : forall (intro : handle) (nick : bytes) (hops : Z) (user : bytes) (host : bytes) (token : Z) (modes : bytes) (info : bytes) (idented : bool), clv nick -> clv user -> clv host -> clv modes -> clv info -> clv (Client_NewRemoteUser intro nick hops user host token modes info idented).
Proof. intros. unfold Client_NewRemoteUser. cl_all. Qed.
#[export] Hint Resolve clv_Client_NewRemoteUser : clv.
Lemma clv_upd_nth : forall (A : Type) (CA : Cl A) (n : nat) (f : A -> A) (l : list A), clv f -> clv l -> clv (upd_nth n f l).
Proof. intros. unfold upd_nth. cl_all. Qed.
#[export] Hint Resolve clv_upd_nth : clv.
Lemma clv_sv_at : forall (n : nat), clv (sv_at n).
Proof. intros. unfold sv_at. cl_all. Qed.
#[export] Hint Resolve clv_sv_at : clv.
Lemma clv_upd_sv : forall (n : nat) (f : cserver -> cserver), clv f -> clv (upd_sv n f).
Proof. intros. unfold upd_sv. cl_all. Qed.
#[export] Hint Resolve clv_upd_sv : clv.
Lemma clv_new_cserver : clv new_cserver.
Proof. constructor; cbn; repeat constructor. Qed.
#[export] Hint Resolve clv_new_cserver : clv.
Lemma clv_Conf_GetServer : forall (i : connid), clv (Conf_GetServer i).
Proof. intros. unfold Conf_GetServer. cl_all. Qed.
#[export] Hint Resolve clv_Conf_GetServer : clv.
Lemma clv_Conf_UnsetServer : forall (i : connid), clv (Conf_UnsetServer i).
Proof. intros. unfold Conf_UnsetServer. cl_all. Qed.
#[export] Hint Resolve clv_Conf_UnsetServer : clv.
Lemma clv_Conf_NickIsBlocked : forall (nick : bytes), clv nick -> clv (Conf_NickIsBlocked nick).
Proof. intros. unfold Conf_NickIsBlocked. cl_all. Qed.
#[export] Hint Resolve clv_Conf_NickIsBlocked : clv.
