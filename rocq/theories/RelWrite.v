(* GENERATED by tools/gen_rel.py from tools/rel_write.spec *)
(** The functions of conn-func.c, client.c (accessors), irc-write.c and log.c only write. *)
From Coq Require Import List Ascii String ZArith NArith Bool Lia.
From Coq Require Import Relations RelationClasses.
From Verif Require Import Bytes Match Lists Hash ParseReq State Messages Monad Core Write Rel.
Import ListNotations.
Local Open Scope m_scope.
Section R.
Context {X : state -> state -> Prop} {PO : PreOrder X} {WS : WrSub X}.
Lemma aS_rel : forall (s : bytes), rel X (aS s).
Proof. intros. unfold aS; rel_auto. Qed.
#[local] Hint Extern 0 (rel _ (aS _)) => apply aS_rel : rel.
Lemma aD_rel : forall (z : Z), rel X (aD z).
Proof. intros. unfold aD; rel_auto. Qed.
#[local] Hint Extern 0 (rel _ (aD _)) => apply aD_rel : rel.
Lemma aC_rel : forall (c : ascii), rel X (aC c).
Proof. intros. unfold aC; rel_auto. Qed.
#[local] Hint Extern 0 (rel _ (aC _)) => apply aC_rel : rel.
Lemma upd_con_minor : forall i f, (forall c, cminor c (f c)) -> rel X (upd_con i f).
Proof. intros i f Hf s a s' H. apply upd_con_ok in H. subst. apply wr_sub. apply ws_minor; auto. Qed.
Ltac minor := apply upd_con_minor; intros []; split; reflexivity.
Lemma emit_rel : forall i t s c u s', assoc i (s_conns s) = Some c -> co_open c = true -> emit i (wire t) s = Ok u s' -> X s s'.
Proof.
  intros i t s c u s' Hc Ho H. unfold emit in H. apply bind_ok in H. destruct H as (u1 & s1 & H1 & H2).
  apply modify_ok in H1. subst s1. transitivity (set_s_out ((i, wire t) :: s_out s) (set_s_wcounter (s_wcounter s + Z.of_nat (List.length (wire t))) s)).
  - apply wr_sub. eapply ws_out; eauto.
  - revert H2. apply upd_con_minor. intros []; split; reflexivity.
Qed.
Lemma Conn_WriteStr_rel : forall (i : connid) (f : string) (args : list marg), Forall (rel X) args -> rel X (Conn_WriteStr i f args).
Proof. intros. unfold Conn_WriteStr. apply rel_bind; [rel_auto|intro l]. intros s a s' Hr. 
    apply bind_ok in Hr. destruct Hr as (c & s0 & Hc & Hr). apply con_ok in Hc. destruct Hc as [-> Hc]. 
    apply bind_ok in Hr. destruct Hr as (ok & s1 & Hk & Hr). 
    assert (X s s1) as H1. { destruct (co_open c) eqn:Ho. 
      - destruct Hc as [Hc|[_ Hc]]; [|subst c; discriminate Ho]. 
        apply bind_ok in Hk. destruct Hk as (u & s2 & Hk1 & Hk). 
        assert (s2 = s) as -> by (destruct (co_client c); minv Hk1; reflexivity). 
        apply bind_ok in Hk. destruct Hk as (u2 & s3 & Hk2 & Hk). apply ret_ok in Hk. destruct Hk as [_ ->]. 
        eapply emit_rel; eauto. 
      - minv Hk. reflexivity. } 
    transitivity s1; auto. minv Hr. apply wr_sub. apply ws_minor. intros []; split; reflexivity. Qed.
#[local] Hint Extern 0 (rel _ (Conn_WriteStr _ _ _)) => apply Conn_WriteStr_rel : rel.
Lemma Conn_GetClient_rel : forall (i : connid), rel X (Conn_GetClient i).
Proof. intros. unfold Conn_GetClient; rel_auto. Qed.
#[local] Hint Extern 0 (rel _ (Conn_GetClient _)) => apply Conn_GetClient_rel : rel.
Lemma Conn_Password_rel : forall (i : connid), rel X (Conn_Password i).
Proof. intros. unfold Conn_Password; rel_auto. Qed.
#[local] Hint Extern 0 (rel _ (Conn_Password _)) => apply Conn_Password_rel : rel.
Lemma Conn_IPA_rel : forall (i : connid), rel X (Conn_IPA i).
Proof. intros. unfold Conn_IPA; rel_auto. Qed.
#[local] Hint Extern 0 (rel _ (Conn_IPA _)) => apply Conn_IPA_rel : rel.
Lemma Conn_UpdateIdle_rel : forall (i : connid), rel X (Conn_UpdateIdle i).
Proof. intros. unfold Conn_UpdateIdle. apply rel_bind; [rel_auto|intro]. minor. Qed.
#[local] Hint Extern 0 (rel _ (Conn_UpdateIdle _)) => apply Conn_UpdateIdle_rel : rel.
Lemma Conn_GetSignon_rel : forall (i : connid), rel X (Conn_GetSignon i).
Proof. intros. unfold Conn_GetSignon; rel_auto. Qed.
#[local] Hint Extern 0 (rel _ (Conn_GetSignon _)) => apply Conn_GetSignon_rel : rel.
Lemma Conn_GetIdle_rel : forall (i : connid), rel X (Conn_GetIdle i).
Proof. intros. unfold Conn_GetIdle; rel_auto. Qed.
#[local] Hint Extern 0 (rel _ (Conn_GetIdle _)) => apply Conn_GetIdle_rel : rel.
Lemma Conn_LastPing_rel : forall (i : connid), rel X (Conn_LastPing i).
Proof. intros. unfold Conn_LastPing; rel_auto. Qed.
#[local] Hint Extern 0 (rel _ (Conn_LastPing _)) => apply Conn_LastPing_rel : rel.
Lemma Conn_SetPenalty_rel : forall (i : connid) (secs : Z), (0 <= secs)%Z -> rel X (Conn_SetPenalty i secs).
Proof. intros. unfold Conn_SetPenalty. intros s a s' Hr. minv Hr. apply wr_sub. apply ws_pen. auto. Qed.
#[local] Hint Extern 0 (rel _ (Conn_SetPenalty _ _)) => (apply Conn_SetPenalty_rel; solve [discriminate|assumption]) : rel.
Lemma Conn_ClearFlags_rel : rel X (Conn_ClearFlags).
Proof. intros. intros s a s' Hr. apply modify_ok in Hr. subst. apply wr_sub. apply ws_flags. Qed.
#[local] Hint Extern 0 (rel _ (Conn_ClearFlags)) => apply Conn_ClearFlags_rel : rel.
Lemma Conn_SetFlag_rel : forall (i : connid) (f : nat), rel X (Conn_SetFlag i f).
Proof. intros. unfold Conn_SetFlag. minor. Qed.
#[local] Hint Extern 0 (rel _ (Conn_SetFlag _ _)) => apply Conn_SetFlag_rel : rel.
Lemma Conn_All_rel : rel X (Conn_All).
Proof. intros. unfold Conn_All; rel_auto. Qed.
#[local] Hint Extern 0 (rel _ (Conn_All)) => apply Conn_All_rel : rel.
Lemma Client_Type_rel : forall (h : handle), rel X (Client_Type h).
Proof. intros. unfold Client_Type; rel_auto. Qed.
#[local] Hint Extern 0 (rel _ (Client_Type _)) => apply Client_Type_rel : rel.
Lemma is_type_rel : forall (h : handle) (t : ctype), rel X (is_type h t).
Proof. intros. unfold is_type; rel_auto. Qed.
#[local] Hint Extern 0 (rel _ (is_type _ _)) => apply is_type_rel : rel.
Lemma Client_Conn_rel : forall (h : handle), rel X (Client_Conn h).
Proof. intros. unfold Client_Conn; rel_auto. Qed.
#[local] Hint Extern 0 (rel _ (Client_Conn _)) => apply Client_Conn_rel : rel.
Lemma Client_ID_rel : forall (h : handle), rel X (Client_ID h).
Proof. intros. unfold Client_ID; rel_auto. Qed.
#[local] Hint Extern 0 (rel _ (Client_ID _)) => apply Client_ID_rel : rel.
Lemma Client_Info_rel : forall (h : handle), rel X (Client_Info h).
Proof. intros. unfold Client_Info; rel_auto. Qed.
#[local] Hint Extern 0 (rel _ (Client_Info _)) => apply Client_Info_rel : rel.
Lemma Client_User_rel : forall (h : handle), rel X (Client_User h).
Proof. intros. unfold Client_User; rel_auto. Qed.
#[local] Hint Extern 0 (rel _ (Client_User _)) => apply Client_User_rel : rel.
Lemma Client_Hostname_rel : forall (h : handle), rel X (Client_Hostname h).
Proof. intros. unfold Client_Hostname; rel_auto. Qed.
#[local] Hint Extern 0 (rel _ (Client_Hostname _)) => apply Client_Hostname_rel : rel.
Lemma Client_Modes_rel : forall (h : handle), rel X (Client_Modes h).
Proof. intros. unfold Client_Modes; rel_auto. Qed.
#[local] Hint Extern 0 (rel _ (Client_Modes _)) => apply Client_Modes_rel : rel.
Lemma Client_Hops_rel : forall (h : handle), rel X (Client_Hops h).
Proof. intros. unfold Client_Hops; rel_auto. Qed.
#[local] Hint Extern 0 (rel _ (Client_Hops _)) => apply Client_Hops_rel : rel.
Lemma Client_Token_rel : forall (h : handle), rel X (Client_Token h).
Proof. intros. unfold Client_Token; rel_auto. Qed.
#[local] Hint Extern 0 (rel _ (Client_Token _)) => apply Client_Token_rel : rel.
Lemma Client_MyToken_rel : forall (h : handle), rel X (Client_MyToken h).
Proof. intros. unfold Client_MyToken; rel_auto. Qed.
#[local] Hint Extern 0 (rel _ (Client_MyToken _)) => apply Client_MyToken_rel : rel.
Lemma Client_Away_rel : forall (h : handle), rel X (Client_Away h).
Proof. intros. unfold Client_Away; rel_auto. Qed.
#[local] Hint Extern 0 (rel _ (Client_Away _)) => apply Client_Away_rel : rel.
Lemma Client_AccountName_rel : forall (h : handle), rel X (Client_AccountName h).
Proof. intros. unfold Client_AccountName; rel_auto. Qed.
#[local] Hint Extern 0 (rel _ (Client_AccountName _)) => apply Client_AccountName_rel : rel.
Lemma Client_Introducer_rel : forall (h : handle), rel X (Client_Introducer h).
Proof. intros. unfold Client_Introducer; rel_auto. Qed.
#[local] Hint Extern 0 (rel _ (Client_Introducer _)) => apply Client_Introducer_rel : rel.
Lemma Client_TopServer_rel : forall (h : handle), rel X (Client_TopServer h).
Proof. intros. unfold Client_TopServer; rel_auto. Qed.
#[local] Hint Extern 0 (rel _ (Client_TopServer _)) => apply Client_TopServer_rel : rel.
Lemma Client_HasMode_rel : forall (h : handle) (m : ascii), rel X (Client_HasMode h m).
Proof. intros. unfold Client_HasMode; rel_auto. Qed.
#[local] Hint Extern 0 (rel _ (Client_HasMode _ _)) => apply Client_HasMode_rel : rel.
Lemma Client_HasFlag_rel : forall (h : handle) (m : ascii), rel X (Client_HasFlag h m).
Proof. intros. unfold Client_HasFlag; rel_auto. Qed.
#[local] Hint Extern 0 (rel _ (Client_HasFlag _ _)) => apply Client_HasFlag_rel : rel.
Lemma Client_IPAText_rel : forall (h : handle), rel X (Client_IPAText h).
Proof. intros. unfold Client_IPAText; rel_auto. Qed.
#[local] Hint Extern 0 (rel _ (Client_IPAText _)) => apply Client_IPAText_rel : rel.
Lemma Client_TypeText_rel : forall (h : handle), rel X (Client_TypeText h).
Proof. intros. unfold Client_TypeText; rel_auto. Qed.
#[local] Hint Extern 0 (rel _ (Client_TypeText _)) => apply Client_TypeText_rel : rel.
Lemma Clients_rel : rel X (Clients).
Proof. intros. unfold Clients; rel_auto. Qed.
#[local] Hint Extern 0 (rel _ (Clients)) => apply Clients_rel : rel.
Lemma aID_rel : forall (h : handle), rel X (aID h).
Proof. intros. unfold aID; rel_auto. Qed.
#[local] Hint Extern 0 (rel _ (aID _)) => apply aID_rel : rel.
Lemma aUser_rel : forall (h : handle), rel X (aUser h).
Proof. intros. unfold aUser; rel_auto. Qed.
#[local] Hint Extern 0 (rel _ (aUser _)) => apply aUser_rel : rel.
Lemma aHost_rel : forall (h : handle), rel X (aHost h).
Proof. intros. unfold aHost; rel_auto. Qed.
#[local] Hint Extern 0 (rel _ (aHost _)) => apply aHost_rel : rel.
Lemma aInfo_rel : forall (h : handle), rel X (aInfo h).
Proof. intros. unfold aInfo; rel_auto. Qed.
#[local] Hint Extern 0 (rel _ (aInfo _)) => apply aInfo_rel : rel.
Lemma aModes_rel : forall (h : handle), rel X (aModes h).
Proof. intros. unfold aModes; rel_auto. Qed.
#[local] Hint Extern 0 (rel _ (aModes _)) => apply aModes_rel : rel.
Lemma aHops1_rel : forall (h : handle), rel X (aHops1 h).
Proof. intros. unfold aHops1; rel_auto. Qed.
#[local] Hint Extern 0 (rel _ (aHops1 _)) => apply aHops1_rel : rel.
Lemma NextHop_rel : forall (n : nat) (h : handle), rel X (NextHop n h).
Proof. intros. revert h; induction n; intros; simpl; rel_auto. Qed.
#[local] Hint Extern 0 (rel _ (NextHop _ _)) => apply NextHop_rel : rel.
Lemma Client_NextHop_rel : forall (h : handle), rel X (Client_NextHop h).
Proof. intros. unfold Client_NextHop; rel_auto. Qed.
#[local] Hint Extern 0 (rel _ (Client_NextHop _)) => apply Client_NextHop_rel : rel.
Lemma Client_Mask_rel : forall (h : handle), rel X (Client_Mask h).
Proof. intros. unfold Client_Mask; rel_auto. Qed.
#[local] Hint Extern 0 (rel _ (Client_Mask _)) => apply Client_Mask_rel : rel.
Lemma aMask_rel : forall (h : handle), rel X (aMask h).
Proof. intros. unfold aMask; rel_auto. Qed.
#[local] Hint Extern 0 (rel _ (aMask _)) => apply aMask_rel : rel.
Lemma Client_Search_rel : forall (nick : bytes), rel X (Client_Search nick).
Proof. intros. unfold Client_Search; cbv zeta; rel_auto. Qed.
#[local] Hint Extern 0 (rel _ (Client_Search _)) => apply Client_Search_rel : rel.
Lemma Client_SearchServer_rel : forall (mask : bytes), rel X (Client_SearchServer mask).
Proof. intros. unfold Client_SearchServer; rel_auto. Qed.
#[local] Hint Extern 0 (rel _ (Client_SearchServer _)) => apply Client_SearchServer_rel : rel.
Lemma Client_GetFromToken_rel : forall (h : handle) (token : Z), rel X (Client_GetFromToken h token).
Proof. intros. unfold Client_GetFromToken; rel_auto. Qed.
#[local] Hint Extern 0 (rel _ (Client_GetFromToken _ _)) => apply Client_GetFromToken_rel : rel.
Lemma Client_IsValidNick_rel : forall (nick : bytes), rel X (Client_IsValidNick nick).
Proof. intros. unfold Client_IsValidNick; rel_auto. Qed.
#[local] Hint Extern 0 (rel _ (Client_IsValidNick _)) => apply Client_IsValidNick_rel : rel.
Lemma Count_rel : forall (t : ctype), rel X (Count t).
Proof. intros. unfold Count; rel_auto. Qed.
#[local] Hint Extern 0 (rel _ (Count _)) => apply Count_rel : rel.
Lemma MyCount_rel : forall (t : ctype), rel X (MyCount t).
Proof. intros. unfold MyCount; rel_auto. Qed.
#[local] Hint Extern 0 (rel _ (MyCount _)) => apply MyCount_rel : rel.
Lemma Client_MyServerCount_rel : rel X (Client_MyServerCount).
Proof. intros. unfold Client_MyServerCount; rel_auto. Qed.
#[local] Hint Extern 0 (rel _ (Client_MyServerCount)) => apply Client_MyServerCount_rel : rel.
Lemma Client_OperCount_rel : rel X (Client_OperCount).
Proof. intros. unfold Client_OperCount; rel_auto. Qed.
#[local] Hint Extern 0 (rel _ (Client_OperCount)) => apply Client_OperCount_rel : rel.
Lemma Client_UnknownCount_rel : rel X (Client_UnknownCount).
Proof. intros. unfold Client_UnknownCount; rel_auto. Qed.
#[local] Hint Extern 0 (rel _ (Client_UnknownCount)) => apply Client_UnknownCount_rel : rel.
Lemma sv_at_rel : forall (n : nat), rel X (sv_at n).
Proof. intros. unfold sv_at; rel_auto. Qed.
#[local] Hint Extern 0 (rel _ (sv_at _)) => apply sv_at_rel : rel.
Lemma Conf_GetServer_rel : forall (i : connid), rel X (Conf_GetServer i).
Proof. intros. unfold Conf_GetServer; rel_auto. Qed.
#[local] Hint Extern 0 (rel _ (Conf_GetServer _)) => apply Conf_GetServer_rel : rel.
Lemma Conf_NickIsBlocked_rel : forall (nick : bytes), rel X (Conf_NickIsBlocked nick).
Proof. intros. unfold Conf_NickIsBlocked; rel_auto. Qed.
#[local] Hint Extern 0 (rel _ (Conf_NickIsBlocked _)) => apply Conf_NickIsBlocked_rel : rel.
Lemma IRC_SetPenalty_rel : forall (h : handle) (secs : Z), (0 <= secs)%Z -> rel X (IRC_SetPenalty h secs).
Proof. intros. unfold IRC_SetPenalty; rel_auto. Qed.
#[local] Hint Extern 0 (rel _ (IRC_SetPenalty _ _)) => (apply IRC_SetPenalty_rel; solve [discriminate|assumption]) : rel.
Lemma Write_Server_rel : forall (to pref : handle) (buf : bytes), rel X (Write_Server to pref buf).
Proof. intros. unfold Write_Server; rel_auto. Qed.
#[local] Hint Extern 0 (rel _ (Write_Server _ _ _)) => apply Write_Server_rel : rel.
Lemma Servers_CB_rel : forall (except : option handle) (flag : option ascii) (cb : handle -> M unit), (forall x0, rel X (cb x0)) -> rel X (Servers_CB except flag cb).
Proof. intros. unfold Servers_CB; rel_go; auto. Qed.
#[local] Hint Extern 0 (rel _ (Servers_CB _ _ _)) => apply Servers_CB_rel : rel.
Lemma IRC_WriteStrServersPrefixFlag_rel : forall (except : option handle) (pref : handle) (flag : option ascii) (f : string) (args : list marg), Forall (rel X) args -> rel X (IRC_WriteStrServersPrefixFlag except pref flag f args).
Proof. intros. unfold IRC_WriteStrServersPrefixFlag; rel_go. Qed.
#[local] Hint Extern 0 (rel _ (IRC_WriteStrServersPrefixFlag _ _ _ _ _)) => apply IRC_WriteStrServersPrefixFlag_rel : rel.
Lemma IRC_WriteStrServersPrefix_rel : forall (except : option handle) (pref : handle) (f : string) (args : list marg), Forall (rel X) args -> rel X (IRC_WriteStrServersPrefix except pref f args).
Proof. intros. unfold IRC_WriteStrServersPrefix; rel_auto. Qed.
#[local] Hint Extern 0 (rel _ (IRC_WriteStrServersPrefix _ _ _ _)) => apply IRC_WriteStrServersPrefix_rel : rel.
Lemma IRC_WriteStrServers_rel : forall (except : option handle) (f : string) (args : list marg), Forall (rel X) args -> rel X (IRC_WriteStrServers except f args).
Proof. intros. unfold IRC_WriteStrServers; rel_auto. Qed.
#[local] Hint Extern 0 (rel _ (IRC_WriteStrServers _ _ _)) => apply IRC_WriteStrServers_rel : rel.
Lemma Cloak_new_ok : forall (h : handle) (c : client) (cx salt : bytes) (host : option bytes) s new s',
  (match host with
   | Some t => ret (strlcpy CLIENT_HOST_LEN t)
   | None => if negb (beq cx []) then ret (cloak CLIENT_HOST_LEN cx (cl_host c) salt CLIENT_HOST_LEN)
             else i <- nonnull (cl_introducer c) ;; id <- Client_ID i ;; ret (strlcpy CLIENT_HOST_LEN id)
   end) s = Ok new s' -> s' = s /\ (List.length new < CLIENT_HOST_LEN)%nat /\
   (host = None -> cx = cf_cloakhostmodex (s_conf s) -> salt = cf_cloaksalt (s_conf s) -> new = cloak_name s c).
Proof.
  intros h c cx salt host s new s' Hn.
  assert (forall z, List.length (strlcpy CLIENT_HOST_LEN z) < CLIENT_HOST_LEN)%nat as Hl
    by (intro z; pose proof (strlcpy_length CLIENT_HOST_LEN z) as Hz; unfold CLIENT_HOST_LEN in *; lia).
  destruct host as [t|]; [|destruct (negb (beq cx [])) eqn:E].
  - apply ret_ok in Hn. destruct Hn as [-> ->]. split; [reflexivity|]. split; [apply Hl|]. discriminate.
  - apply ret_ok in Hn. destruct Hn as [-> ->]. split; [reflexivity|]. split.
    + unfold cloak. rewrite firstn_length. unfold CLIENT_HOST_LEN. lia.
    + intros _ -> ->. unfold cloak_name. rewrite E. reflexivity.
  - apply bind_ok in Hn. destruct Hn as (i & s3 & Hi & Hn). apply nonnull_ok in Hi. destruct Hi as [Ei ->].
    apply bind_ok in Hn. destruct Hn as (id & s3 & Hi & Hn). apply ret_ok in Hn. destruct Hn as [-> ->].
    unfold Client_ID in Hi. apply bind_ok in Hi. destruct Hi as (d & s4 & Hd & Hi). apply cli_ok in Hd. destruct Hd as [Hd ->].
    apply bind_ok in Hi. destruct Hi as (mx & s4 & Hm & Hi). unfold cf in Hm. apply gets_ok in Hm. destruct Hm as [_ ->].
    apply bind_ok in Hi. destruct Hi as (u & s4 & Hm & Hi). apply assertM_ok in Hm. destruct Hm as [_ ->].
    apply ret_ok in Hi. destruct Hi as [-> ->]. split; [reflexivity|]. split; [apply Hl|].
    intros _ -> ->. unfold cloak_name. rewrite E, Ei, Hd. reflexivity.
Qed.
(** the first use stores the cloaked host name *)
Lemma Client_UpdateCloakedHostname_rel : forall (h : handle) s a s' c, assoc h (s_heap s) = Some c -> cl_cloaked c = None ->
  Client_UpdateCloakedHostname h None None s = Ok a s' -> X s s'.
Proof.
  intros h s a s' c Hc Nc Hr. unfold Client_UpdateCloakedHostname in Hr.
  apply bind_ok in Hr. destruct Hr as (c1 & s1 & H1 & Hr). apply cli_ok in H1. destruct H1 as [H1 ->]. rewrite Hc in H1. injection H1 as <-. cbv zeta in Hr.
  apply bind_ok in Hr. destruct Hr as (cx & s1 & H1 & Hr). unfold cf in H1. apply gets_ok in H1. destruct H1 as [-> ->].
  apply bind_ok in Hr. destruct Hr as (salt & s1 & H1 & Hr). unfold cf in H1. apply gets_ok in H1. destruct H1 as [-> ->].
  apply bind_ok in Hr. destruct Hr as (new & s1 & Hn & Hr).
  destruct (Cloak_new_ok h c _ _ None _ _ _ Hn) as (-> & H2 & H3).
  apply bind_ok in Hr. destruct Hr as (u & s2 & Hu & Hr). apply upd_cli_ok in Hu. destruct Hu as (c' & Hc' & Hs). subst s2.
  etransitivity; [apply wr_sub; apply (ws_cloak s h c new); auto|]. revert Hr.
  match goal with |- ?m _ = _ -> _ => assert (rel X m) as Hm by rel_auto end. apply Hm.
Qed.
Lemma Client_HostnameDisplayed_rel : forall (h : handle), rel X (Client_HostnameDisplayed h).
Proof.
  intros h s a s' Hr. unfold Client_HostnameDisplayed in Hr. apply bind_ok in Hr. destruct Hr as (c & s1 & H1 & Hr). apply cli_ok in H1. destruct H1 as [H1 ->].
  destruct (negb _); [revert Hr; apply rel_ret|]. destruct (cl_cloaked c) eqn:E; [revert Hr; apply rel_ret|].
  apply bind_ok in Hr. destruct Hr as (u & s1 & H2 & Hr). transitivity s1; [eapply Client_UpdateCloakedHostname_rel; eauto|]. revert Hr.
  match goal with |- ?m _ = _ -> _ => assert (rel X m) as Hm by rel_auto end. apply Hm.
Qed.
#[local] Hint Extern 0 (rel _ (Client_HostnameDisplayed _)) => apply Client_HostnameDisplayed_rel : rel.
Lemma aHostD_rel : forall (h : handle), rel X (aHostD h).
Proof. intros. unfold aHostD; rel_auto. Qed.
#[local] Hint Extern 0 (rel _ (aHostD _)) => apply aHostD_rel : rel.
Lemma Client_MaskCloaked_rel : forall (h : handle), rel X (Client_MaskCloaked h).
Proof. intros. unfold Client_MaskCloaked; rel_auto. Qed.
#[local] Hint Extern 0 (rel _ (Client_MaskCloaked _)) => apply Client_MaskCloaked_rel : rel.
Lemma aMaskC_rel : forall (h : handle), rel X (aMaskC h).
Proof. intros. unfold aMaskC; rel_auto. Qed.
#[local] Hint Extern 0 (rel _ (aMaskC _)) => apply aMaskC_rel : rel.
Lemma Get_Prefix_rel : forall (target h : handle), rel X (Get_Prefix target h).
Proof. intros. unfold Get_Prefix; rel_auto. Qed.
#[local] Hint Extern 0 (rel _ (Get_Prefix _ _)) => apply Get_Prefix_rel : rel.
Lemma IRC_WriteStrClientPrefix_rel : forall (to pref : handle) (f : string) (args : list marg), Forall (rel X) args -> rel X (IRC_WriteStrClientPrefix to pref f args).
Proof. intros. unfold IRC_WriteStrClientPrefix; rel_auto. Qed.
#[local] Hint Extern 0 (rel _ (IRC_WriteStrClientPrefix _ _ _ _)) => apply IRC_WriteStrClientPrefix_rel : rel.
Lemma IRC_WriteStrClient_rel : forall (to : handle) (f : string) (args : list marg), Forall (rel X) args -> rel X (IRC_WriteStrClient to f args).
Proof. intros. unfold IRC_WriteStrClient; rel_auto. Qed.
#[local] Hint Extern 0 (rel _ (IRC_WriteStrClient _ _ _)) => apply IRC_WriteStrClient_rel : rel.
Lemma IRC_WriteErrClient_rel : forall (to : handle) (f : string) (args : list marg), Forall (rel X) args -> rel X (IRC_WriteErrClient to f args).
Proof. intros. unfold IRC_WriteErrClient; rel_auto. Qed.
#[local] Hint Extern 0 (rel _ (IRC_WriteErrClient _ _ _)) => apply IRC_WriteErrClient_rel : rel.
Lemma Send_Marked_Connections_rel : forall (pref : handle) (buf : bytes), rel X (Send_Marked_Connections pref buf).
Proof. intros. unfold Send_Marked_Connections; rel_auto. Qed.
#[local] Hint Extern 0 (rel _ (Send_Marked_Connections _ _)) => apply Send_Marked_Connections_rel : rel.
Lemma Members_rel : forall (ch : chandle), rel X (Members ch).
Proof. intros. unfold Members; rel_auto. Qed.
#[local] Hint Extern 0 (rel _ (Members _)) => apply Members_rel : rel.
Lemma ChannelsOf_rel : forall (h : handle), rel X (ChannelsOf h).
Proof. intros. unfold ChannelsOf; rel_auto. Qed.
#[local] Hint Extern 0 (rel _ (ChannelsOf _)) => apply ChannelsOf_rel : rel.
Lemma Mark_Members_rel : forall (from : handle) (ch : chandle) (remote : bool), rel X (Mark_Members from ch remote).
Proof. intros. unfold Mark_Members; rel_auto. Qed.
#[local] Hint Extern 0 (rel _ (Mark_Members _ _ _)) => apply Mark_Members_rel : rel.
Lemma IRC_WriteStrChannelPrefix_rel : forall (from : handle) (ch : chandle) (pref : handle) (remote : bool) (f : string) (args : list marg), Forall (rel X) args -> rel X (IRC_WriteStrChannelPrefix from ch pref remote f args).
Proof. intros. unfold IRC_WriteStrChannelPrefix; rel_auto. Qed.
#[local] Hint Extern 0 (rel _ (IRC_WriteStrChannelPrefix _ _ _ _ _ _)) => apply IRC_WriteStrChannelPrefix_rel : rel.
Lemma IRC_WriteStrChannel_rel : forall (from : handle) (ch : chandle) (remote : bool) (f : string) (args : list marg), Forall (rel X) args -> rel X (IRC_WriteStrChannel from ch remote f args).
Proof. intros. unfold IRC_WriteStrChannel; rel_auto. Qed.
#[local] Hint Extern 0 (rel _ (IRC_WriteStrChannel _ _ _ _ _)) => apply IRC_WriteStrChannel_rel : rel.
Lemma IRC_WriteStrRelatedPrefix_rel : forall (h pref : handle) (remote : bool) (f : string) (args : list marg), Forall (rel X) args -> rel X (IRC_WriteStrRelatedPrefix h pref remote f args).
Proof. intros. unfold IRC_WriteStrRelatedPrefix; rel_auto. Qed.
#[local] Hint Extern 0 (rel _ (IRC_WriteStrRelatedPrefix _ _ _ _ _)) => apply IRC_WriteStrRelatedPrefix_rel : rel.
Lemma IRC_SendWallops_rel : forall (client from : handle) (f : string) (args : list marg), Forall (rel X) args -> rel X (IRC_SendWallops client from f args).
Proof. intros. unfold IRC_SendWallops; rel_auto. Qed.
#[local] Hint Extern 0 (rel _ (IRC_SendWallops _ _ _ _)) => apply IRC_SendWallops_rel : rel.
Lemma Chans_rel : rel X (Chans).
Proof. intros. unfold Chans; rel_auto. Qed.
#[local] Hint Extern 0 (rel _ (Chans)) => apply Chans_rel : rel.
Lemma Channel_Name_rel : forall (ch : chandle), rel X (Channel_Name ch).
Proof. intros. unfold Channel_Name; rel_auto. Qed.
#[local] Hint Extern 0 (rel _ (Channel_Name _)) => apply Channel_Name_rel : rel.
Lemma Channel_Modes_rel : forall (ch : chandle), rel X (Channel_Modes ch).
Proof. intros. unfold Channel_Modes; rel_auto. Qed.
#[local] Hint Extern 0 (rel _ (Channel_Modes _)) => apply Channel_Modes_rel : rel.
Lemma Channel_HasMode_rel : forall (ch : chandle) (m : ascii), rel X (Channel_HasMode ch m).
Proof. intros. unfold Channel_HasMode; rel_auto. Qed.
#[local] Hint Extern 0 (rel _ (Channel_HasMode _ _)) => apply Channel_HasMode_rel : rel.
Lemma Channel_Key_rel : forall (ch : chandle), rel X (Channel_Key ch).
Proof. intros. unfold Channel_Key; rel_auto. Qed.
#[local] Hint Extern 0 (rel _ (Channel_Key _)) => apply Channel_Key_rel : rel.
Lemma Channel_MaxUsers_rel : forall (ch : chandle), rel X (Channel_MaxUsers ch).
Proof. intros. unfold Channel_MaxUsers; rel_auto. Qed.
#[local] Hint Extern 0 (rel _ (Channel_MaxUsers _)) => apply Channel_MaxUsers_rel : rel.
Lemma Channel_Topic_rel : forall (ch : chandle), rel X (Channel_Topic ch).
Proof. intros. unfold Channel_Topic; rel_auto. Qed.
#[local] Hint Extern 0 (rel _ (Channel_Topic _)) => apply Channel_Topic_rel : rel.
Lemma Channel_IsLocal_rel : forall (ch : chandle), rel X (Channel_IsLocal ch).
Proof. intros. unfold Channel_IsLocal; rel_auto. Qed.
#[local] Hint Extern 0 (rel _ (Channel_IsLocal _)) => apply Channel_IsLocal_rel : rel.
Lemma aChan_rel : forall (ch : chandle), rel X (aChan ch).
Proof. intros. unfold aChan; rel_auto. Qed.
#[local] Hint Extern 0 (rel _ (aChan _)) => apply aChan_rel : rel.
Lemma Channel_Search_rel : forall (name : bytes), rel X (Channel_Search name).
Proof. intros. unfold Channel_Search; rel_auto. Qed.
#[local] Hint Extern 0 (rel _ (Channel_Search _)) => apply Channel_Search_rel : rel.
Lemma Get_Cl2Chan_rel : forall (ch : chandle) (h : handle), rel X (Get_Cl2Chan ch h).
Proof. intros. unfold Get_Cl2Chan; rel_auto. Qed.
#[local] Hint Extern 0 (rel _ (Get_Cl2Chan _ _)) => apply Get_Cl2Chan_rel : rel.
Lemma Channel_IsMemberOf_rel : forall (ch : chandle) (h : handle), rel X (Channel_IsMemberOf ch h).
Proof. intros. unfold Channel_IsMemberOf; rel_auto. Qed.
#[local] Hint Extern 0 (rel _ (Channel_IsMemberOf _ _)) => apply Channel_IsMemberOf_rel : rel.
Lemma Channel_UserModes_rel : forall (ch : chandle) (h : handle), rel X (Channel_UserModes ch h).
Proof. intros. unfold Channel_UserModes; rel_auto. Qed.
#[local] Hint Extern 0 (rel _ (Channel_UserModes _ _)) => apply Channel_UserModes_rel : rel.
Lemma Channel_UserHasMode_rel : forall (ch : chandle) (h : handle) (m : ascii), rel X (Channel_UserHasMode ch h m).
Proof. intros. unfold Channel_UserHasMode; rel_auto. Qed.
#[local] Hint Extern 0 (rel _ (Channel_UserHasMode _ _ _)) => apply Channel_UserHasMode_rel : rel.
Lemma Channel_MemberCount_rel : forall (ch : chandle), rel X (Channel_MemberCount ch).
Proof. intros. unfold Channel_MemberCount; rel_auto. Qed.
#[local] Hint Extern 0 (rel _ (Channel_MemberCount _)) => apply Channel_MemberCount_rel : rel.
Lemma Channel_CountForUser_rel : forall (h : handle), rel X (Channel_CountForUser h).
Proof. intros. unfold Channel_CountForUser; rel_auto. Qed.
#[local] Hint Extern 0 (rel _ (Channel_CountForUser _)) => apply Channel_CountForUser_rel : rel.
Lemma Channel_CountVisible_rel : forall (o : option handle), rel X (Channel_CountVisible o).
Proof. intros. unfold Channel_CountVisible; rel_auto. Qed.
#[local] Hint Extern 0 (rel _ (Channel_CountVisible _)) => apply Channel_CountVisible_rel : rel.
Lemma can_kick_rel : forall (ch : chandle) (peer target origin : handle), rel X (can_kick ch peer target origin).
Proof. intros. unfold can_kick; rel_auto. Qed.
#[local] Hint Extern 0 (rel _ (can_kick _ _ _ _)) => apply can_kick_rel : rel.
Lemma ShowChannelList_rel : forall (l : mlist) (h : handle) (ch : chandle) (msg msg_end : string), rel X (ShowChannelList l h ch msg msg_end).
Proof. intros. unfold ShowChannelList; rel_auto. Qed.
#[local] Hint Extern 0 (rel _ (ShowChannelList _ _ _ _ _)) => apply ShowChannelList_rel : rel.
Lemma Channel_ShowBans_rel : forall (h : handle) (ch : chandle), rel X (Channel_ShowBans h ch).
Proof. intros. unfold Channel_ShowBans; rel_auto. Qed.
#[local] Hint Extern 0 (rel _ (Channel_ShowBans _ _)) => apply Channel_ShowBans_rel : rel.
Lemma Channel_ShowExcepts_rel : forall (h : handle) (ch : chandle), rel X (Channel_ShowExcepts h ch).
Proof. intros. unfold Channel_ShowExcepts; rel_auto. Qed.
#[local] Hint Extern 0 (rel _ (Channel_ShowExcepts _ _)) => apply Channel_ShowExcepts_rel : rel.
Lemma Channel_ShowInvites_rel : forall (h : handle) (ch : chandle), rel X (Channel_ShowInvites h ch).
Proof. intros. unfold Channel_ShowInvites; rel_auto. Qed.
#[local] Hint Extern 0 (rel _ (Channel_ShowInvites _ _)) => apply Channel_ShowInvites_rel : rel.
Lemma Channel_LogServer_rel : forall (msg : bytes), rel X (Channel_LogServer msg).
Proof. intros. unfold Channel_LogServer. apply rel_bind; [rel_auto|intros [sc|]]; [|rel_auto]. 
    unfold Channel_Write, Can_Send_To_Channel. change (heq This_Server This_Server) with true. cbv iota. 
    apply rel_bind; [|rel_auto]. intros s a s' Hr. apply bind_ok in Hr. destruct Hr as (b & s1 & Hb & Hr). minv Hb. 
    cbn [negb] in Hr. revert Hr. match goal with |- ?m _ = _ -> _ => assert (rel X m) as Hm by rel_auto end. apply Hm. Qed.
#[local] Hint Extern 0 (rel _ (Channel_LogServer _)) => apply Channel_LogServer_rel : rel.
Lemma Channel_CheckKey_rel : forall (ch : chandle) (h : handle) (key : bytes), rel X (Channel_CheckKey ch h key).
Proof. intros. unfold Channel_CheckKey; rel_auto. Qed.
#[local] Hint Extern 0 (rel _ (Channel_CheckKey _ _ _)) => apply Channel_CheckKey_rel : rel.
Lemma Log_ServerNotice_rel : forall (mode : ascii) (f : string) (args : list marg), Forall (rel X) args -> rel X (Log_ServerNotice mode f args).
Proof. intros. unfold Log_ServerNotice; rel_auto. Qed.
#[local] Hint Extern 0 (rel _ (Log_ServerNotice _ _ _)) => apply Log_ServerNotice_rel : rel.
Lemma Log_snotice_rel : forall (f : string) (args : list marg), Forall (rel X) args -> rel X (Log_snotice f args).
Proof. intros. unfold Log_snotice; rel_auto. Qed.
#[local] Hint Extern 0 (rel _ (Log_snotice _ _)) => apply Log_snotice_rel : rel.
Lemma Client_Announce_rel : forall (to pref user : handle), rel X (Client_Announce to pref user).
Proof. intros. unfold Client_Announce; rel_auto. Qed.
#[local] Hint Extern 0 (rel _ (Client_Announce _ _ _)) => apply Client_Announce_rel : rel.
Lemma Client_CheckNick_rel : forall (h : handle) (nick : bytes), rel X (Client_CheckNick h nick).
Proof. intros. unfold Client_CheckNick; rel_auto. Qed.
#[local] Hint Extern 0 (rel _ (Client_CheckNick _ _)) => apply Client_CheckNick_rel : rel.
End R.
#[export] Hint Extern 0 (rel _ (aS _)) => apply aS_rel : rel.
#[export] Hint Extern 0 (rel _ (aD _)) => apply aD_rel : rel.
#[export] Hint Extern 0 (rel _ (aC _)) => apply aC_rel : rel.
#[export] Hint Extern 0 (rel _ (Conn_WriteStr _ _ _)) => apply Conn_WriteStr_rel : rel.
#[export] Hint Extern 0 (rel _ (Conn_GetClient _)) => apply Conn_GetClient_rel : rel.
#[export] Hint Extern 0 (rel _ (Conn_Password _)) => apply Conn_Password_rel : rel.
#[export] Hint Extern 0 (rel _ (Conn_IPA _)) => apply Conn_IPA_rel : rel.
#[export] Hint Extern 0 (rel _ (Conn_UpdateIdle _)) => apply Conn_UpdateIdle_rel : rel.
#[export] Hint Extern 0 (rel _ (Conn_GetSignon _)) => apply Conn_GetSignon_rel : rel.
#[export] Hint Extern 0 (rel _ (Conn_GetIdle _)) => apply Conn_GetIdle_rel : rel.
#[export] Hint Extern 0 (rel _ (Conn_LastPing _)) => apply Conn_LastPing_rel : rel.
#[export] Hint Extern 0 (rel _ (Conn_SetPenalty _ _)) => (apply Conn_SetPenalty_rel; solve [discriminate|assumption]) : rel.
#[export] Hint Extern 0 (rel _ (Conn_ClearFlags)) => apply Conn_ClearFlags_rel : rel.
#[export] Hint Extern 0 (rel _ (Conn_SetFlag _ _)) => apply Conn_SetFlag_rel : rel.
#[export] Hint Extern 0 (rel _ (Conn_All)) => apply Conn_All_rel : rel.
#[export] Hint Extern 0 (rel _ (Client_Type _)) => apply Client_Type_rel : rel.
#[export] Hint Extern 0 (rel _ (is_type _ _)) => apply is_type_rel : rel.
#[export] Hint Extern 0 (rel _ (Client_Conn _)) => apply Client_Conn_rel : rel.
#[export] Hint Extern 0 (rel _ (Client_ID _)) => apply Client_ID_rel : rel.
#[export] Hint Extern 0 (rel _ (Client_Info _)) => apply Client_Info_rel : rel.
#[export] Hint Extern 0 (rel _ (Client_User _)) => apply Client_User_rel : rel.
#[export] Hint Extern 0 (rel _ (Client_Hostname _)) => apply Client_Hostname_rel : rel.
#[export] Hint Extern 0 (rel _ (Client_Modes _)) => apply Client_Modes_rel : rel.
#[export] Hint Extern 0 (rel _ (Client_Hops _)) => apply Client_Hops_rel : rel.
#[export] Hint Extern 0 (rel _ (Client_Token _)) => apply Client_Token_rel : rel.
#[export] Hint Extern 0 (rel _ (Client_MyToken _)) => apply Client_MyToken_rel : rel.
#[export] Hint Extern 0 (rel _ (Client_Away _)) => apply Client_Away_rel : rel.
#[export] Hint Extern 0 (rel _ (Client_AccountName _)) => apply Client_AccountName_rel : rel.
#[export] Hint Extern 0 (rel _ (Client_Introducer _)) => apply Client_Introducer_rel : rel.
#[export] Hint Extern 0 (rel _ (Client_TopServer _)) => apply Client_TopServer_rel : rel.
#[export] Hint Extern 0 (rel _ (Client_HasMode _ _)) => apply Client_HasMode_rel : rel.
#[export] Hint Extern 0 (rel _ (Client_HasFlag _ _)) => apply Client_HasFlag_rel : rel.
#[export] Hint Extern 0 (rel _ (Client_IPAText _)) => apply Client_IPAText_rel : rel.
#[export] Hint Extern 0 (rel _ (Client_TypeText _)) => apply Client_TypeText_rel : rel.
#[export] Hint Extern 0 (rel _ (Clients)) => apply Clients_rel : rel.
#[export] Hint Extern 0 (rel _ (aID _)) => apply aID_rel : rel.
#[export] Hint Extern 0 (rel _ (aUser _)) => apply aUser_rel : rel.
#[export] Hint Extern 0 (rel _ (aHost _)) => apply aHost_rel : rel.
#[export] Hint Extern 0 (rel _ (aInfo _)) => apply aInfo_rel : rel.
#[export] Hint Extern 0 (rel _ (aModes _)) => apply aModes_rel : rel.
#[export] Hint Extern 0 (rel _ (aHops1 _)) => apply aHops1_rel : rel.
#[export] Hint Extern 0 (rel _ (NextHop _ _)) => apply NextHop_rel : rel.
#[export] Hint Extern 0 (rel _ (Client_NextHop _)) => apply Client_NextHop_rel : rel.
#[export] Hint Extern 0 (rel _ (Client_Mask _)) => apply Client_Mask_rel : rel.
#[export] Hint Extern 0 (rel _ (aMask _)) => apply aMask_rel : rel.
#[export] Hint Extern 0 (rel _ (Client_Search _)) => apply Client_Search_rel : rel.
#[export] Hint Extern 0 (rel _ (Client_SearchServer _)) => apply Client_SearchServer_rel : rel.
#[export] Hint Extern 0 (rel _ (Client_GetFromToken _ _)) => apply Client_GetFromToken_rel : rel.
#[export] Hint Extern 0 (rel _ (Client_IsValidNick _)) => apply Client_IsValidNick_rel : rel.
#[export] Hint Extern 0 (rel _ (Count _)) => apply Count_rel : rel.
#[export] Hint Extern 0 (rel _ (MyCount _)) => apply MyCount_rel : rel.
#[export] Hint Extern 0 (rel _ (Client_MyServerCount)) => apply Client_MyServerCount_rel : rel.
#[export] Hint Extern 0 (rel _ (Client_OperCount)) => apply Client_OperCount_rel : rel.
#[export] Hint Extern 0 (rel _ (Client_UnknownCount)) => apply Client_UnknownCount_rel : rel.
#[export] Hint Extern 0 (rel _ (sv_at _)) => apply sv_at_rel : rel.
#[export] Hint Extern 0 (rel _ (Conf_GetServer _)) => apply Conf_GetServer_rel : rel.
#[export] Hint Extern 0 (rel _ (Conf_NickIsBlocked _)) => apply Conf_NickIsBlocked_rel : rel.
#[export] Hint Extern 0 (rel _ (IRC_SetPenalty _ _)) => (apply IRC_SetPenalty_rel; solve [discriminate|assumption]) : rel.
#[export] Hint Extern 0 (rel _ (Write_Server _ _ _)) => apply Write_Server_rel : rel.
#[export] Hint Extern 0 (rel _ (Servers_CB _ _ _)) => apply Servers_CB_rel : rel.
#[export] Hint Extern 0 (rel _ (IRC_WriteStrServersPrefixFlag _ _ _ _ _)) => apply IRC_WriteStrServersPrefixFlag_rel : rel.
#[export] Hint Extern 0 (rel _ (IRC_WriteStrServersPrefix _ _ _ _)) => apply IRC_WriteStrServersPrefix_rel : rel.
#[export] Hint Extern 0 (rel _ (IRC_WriteStrServers _ _ _)) => apply IRC_WriteStrServers_rel : rel.
#[export] Hint Extern 0 (rel _ (Client_HostnameDisplayed _)) => apply Client_HostnameDisplayed_rel : rel.
#[export] Hint Extern 0 (rel _ (aHostD _)) => apply aHostD_rel : rel.
#[export] Hint Extern 0 (rel _ (Client_MaskCloaked _)) => apply Client_MaskCloaked_rel : rel.
#[export] Hint Extern 0 (rel _ (aMaskC _)) => apply aMaskC_rel : rel.
#[export] Hint Extern 0 (rel _ (Get_Prefix _ _)) => apply Get_Prefix_rel : rel.
#[export] Hint Extern 0 (rel _ (IRC_WriteStrClientPrefix _ _ _ _)) => apply IRC_WriteStrClientPrefix_rel : rel.
#[export] Hint Extern 0 (rel _ (IRC_WriteStrClient _ _ _)) => apply IRC_WriteStrClient_rel : rel.
#[export] Hint Extern 0 (rel _ (IRC_WriteErrClient _ _ _)) => apply IRC_WriteErrClient_rel : rel.
#[export] Hint Extern 0 (rel _ (Send_Marked_Connections _ _)) => apply Send_Marked_Connections_rel : rel.
#[export] Hint Extern 0 (rel _ (Members _)) => apply Members_rel : rel.
#[export] Hint Extern 0 (rel _ (ChannelsOf _)) => apply ChannelsOf_rel : rel.
#[export] Hint Extern 0 (rel _ (Mark_Members _ _ _)) => apply Mark_Members_rel : rel.
#[export] Hint Extern 0 (rel _ (IRC_WriteStrChannelPrefix _ _ _ _ _ _)) => apply IRC_WriteStrChannelPrefix_rel : rel.
#[export] Hint Extern 0 (rel _ (IRC_WriteStrChannel _ _ _ _ _)) => apply IRC_WriteStrChannel_rel : rel.
#[export] Hint Extern 0 (rel _ (IRC_WriteStrRelatedPrefix _ _ _ _ _)) => apply IRC_WriteStrRelatedPrefix_rel : rel.
#[export] Hint Extern 0 (rel _ (IRC_SendWallops _ _ _ _)) => apply IRC_SendWallops_rel : rel.
#[export] Hint Extern 0 (rel _ (Chans)) => apply Chans_rel : rel.
#[export] Hint Extern 0 (rel _ (Channel_Name _)) => apply Channel_Name_rel : rel.
#[export] Hint Extern 0 (rel _ (Channel_Modes _)) => apply Channel_Modes_rel : rel.
#[export] Hint Extern 0 (rel _ (Channel_HasMode _ _)) => apply Channel_HasMode_rel : rel.
#[export] Hint Extern 0 (rel _ (Channel_Key _)) => apply Channel_Key_rel : rel.
#[export] Hint Extern 0 (rel _ (Channel_MaxUsers _)) => apply Channel_MaxUsers_rel : rel.
#[export] Hint Extern 0 (rel _ (Channel_Topic _)) => apply Channel_Topic_rel : rel.
#[export] Hint Extern 0 (rel _ (Channel_IsLocal _)) => apply Channel_IsLocal_rel : rel.
#[export] Hint Extern 0 (rel _ (aChan _)) => apply aChan_rel : rel.
#[export] Hint Extern 0 (rel _ (Channel_Search _)) => apply Channel_Search_rel : rel.
#[export] Hint Extern 0 (rel _ (Get_Cl2Chan _ _)) => apply Get_Cl2Chan_rel : rel.
#[export] Hint Extern 0 (rel _ (Channel_IsMemberOf _ _)) => apply Channel_IsMemberOf_rel : rel.
#[export] Hint Extern 0 (rel _ (Channel_UserModes _ _)) => apply Channel_UserModes_rel : rel.
#[export] Hint Extern 0 (rel _ (Channel_UserHasMode _ _ _)) => apply Channel_UserHasMode_rel : rel.
#[export] Hint Extern 0 (rel _ (Channel_MemberCount _)) => apply Channel_MemberCount_rel : rel.
#[export] Hint Extern 0 (rel _ (Channel_CountForUser _)) => apply Channel_CountForUser_rel : rel.
#[export] Hint Extern 0 (rel _ (Channel_CountVisible _)) => apply Channel_CountVisible_rel : rel.
#[export] Hint Extern 0 (rel _ (can_kick _ _ _ _)) => apply can_kick_rel : rel.
#[export] Hint Extern 0 (rel _ (ShowChannelList _ _ _ _ _)) => apply ShowChannelList_rel : rel.
#[export] Hint Extern 0 (rel _ (Channel_ShowBans _ _)) => apply Channel_ShowBans_rel : rel.
#[export] Hint Extern 0 (rel _ (Channel_ShowExcepts _ _)) => apply Channel_ShowExcepts_rel : rel.
#[export] Hint Extern 0 (rel _ (Channel_ShowInvites _ _)) => apply Channel_ShowInvites_rel : rel.
#[export] Hint Extern 0 (rel _ (Channel_LogServer _)) => apply Channel_LogServer_rel : rel.
#[export] Hint Extern 0 (rel _ (Channel_CheckKey _ _ _)) => apply Channel_CheckKey_rel : rel.
#[export] Hint Extern 0 (rel _ (Log_ServerNotice _ _ _)) => apply Log_ServerNotice_rel : rel.
#[export] Hint Extern 0 (rel _ (Log_snotice _ _)) => apply Log_snotice_rel : rel.
#[export] Hint Extern 0 (rel _ (Client_Announce _ _ _)) => apply Client_Announce_rel : rel.
#[export] Hint Extern 0 (rel _ (Client_CheckNick _ _)) => apply Client_CheckNick_rel : rel.
