(* GENERATED by tools/gen_rel.py from tools/rel_srv.spec *)
(** Closing connections, registration, operator and server commands, as sequences of the
    elementary changes of RelBase.v. *)
From Coq Require Import List Ascii String ZArith NArith Bool Lia.
From Coq Require Import Relations RelationClasses.
From Verif Require Import Bytes Match Lists Hash ParseReq State Messages Monad Core Write Info Chan Mode Msg Login Oper Server Dispatch Conn Rel RelWrite RelInfo RelBase RelChan.
Import ListNotations.
Local Open Scope m_scope.

Section R.
Context {X : state -> state -> Prop} {PO : PreOrder X} {WS : WrSub X}.
Context {P_meta : PS L_meta X} {P_attr : PS L_attr X} {P_umode : PS L_umode X} {P_oper : PS L_oper X}
  {P_create : PS L_create X} {P_create_any : PS L_create_any X} {P_create_pre : PS L_create_pre X} {P_addmb : PS L_addmb X} {P_remove : PS L_remove X}
  {P_mbmode : PS L_mbmode X} {P_chadd : PS L_chadd X} {P_chdel : PS L_chdel X}
  {P_setmodes : PS L_setmodes X} {P_topic : PS L_topic X} {P_key : PS L_key X} {P_limit : PS L_limit X}
  {P_keyfile : PS L_keyfile X} {P_lists : PS L_lists X} {P_away : PS L_away X} {P_check : PS L_check X} {P_useinv : PS L_useinv X} {P_addinv : PS L_addinv X} {P_class : PS L_class X} {P_whowas : PS L_whowas X}
  {P_sv : PS L_sv X} {P_sig : PS L_sig X} {P_wc : PS L_wc X} {P_conn : PS L_conn X}
  {P_intro : PS L_intro X} {P_id : PS L_id X} {P_register : PS L_register X} {P_type : PS L_type X} {P_type0 : PS L_type0 X} {P_new : PS L_new X}
  {P_service : PS L_service X} {P_destroy : PS L_destroy X} {P_close : PS L_close X}
  {P_accept : PS L_accept X} {P_newserver : PS L_newserver X} {P_time : PS L_time X}.
#[local] Hint Resolve me_host me_ipa me_user me_info me_flags me_account me_away me_hops me_token me_cap_pending me_cap_multi : rel.
#[local] Hint Extern 1 (rel _ (upd_cli _ _)) => (apply upd_attr_rel; intro; split; [|reflexivity|reflexivity]) : rel.
#[local] Hint Extern 2 (rel _ (upd_cli _ _)) => (apply upd_meta_rel; intro) : rel.
Lemma Conn_Close_rel : forall i log fwd inform, rel X (Conn_Close i log fwd inform).
Proof. intros i log fwd inform s [] s' H. apply (ps (l := L_close)). eapply p_close; eauto. Qed.
#[local] Hint Extern 0 (rel _ (Conn_Close _ _ _ _)) => apply Conn_Close_rel : rel.
#[local] Hint Extern 0 (rel _ (modify (set_s_wcounter 0))) => (intros ? ? ? Hm; apply modify_ok in Hm; subst; apply (ps (l := L_wc)); apply p_wc) : rel.
#[local] Hint Extern 0 (rel _ (modify (set_s_sigquit true))) => (intros ? ? ? Hm; apply modify_ok in Hm; subst; apply (ps (l := L_sig)); apply p_sigquit) : rel.
#[local] Hint Extern 0 (rel _ (modify (set_s_sigrehash true))) => (intros ? ? ? Hm; apply modify_ok in Hm; subst; apply (ps (l := L_sig)); apply p_sigrehash) : rel.
#[local] Hint Extern 0 (rel _ (modify (set_s_sigrestart true))) => (intros ? ? ? Hm; apply modify_ok in Hm; subst; apply (ps (l := L_sig)); apply p_sigrestart) : rel.
#[local] Hint Extern 2 (rel _ (upd_con _ _)) => (apply upd_cconn_rel; intros []; split; reflexivity) : rel.
Lemma destroy_remote_rel : forall c (A : connid -> M unit) log fwd sq B (F : M B), (forall i, rel X (A i)) -> rel X F ->
  rel X (k <- Client_Conn c ;; (match k with Some i => A i | None => Client_Destroy c log fwd sq end) ;;; F).
Proof.
  intros c A log fwd sq B F HA HF s a s' Hr. apply bind_ok in Hr. destruct Hr as (k & s1 & H1 & Hr). apply Client_Conn_ok in H1.
  destruct H1 as (-> & x & Hx & ->). apply bind_ok in Hr. destruct Hr as (u & s2 & H2 & Hr). transitivity s2; [|eapply HF; eauto].
  destruct (cl_conn x) eqn:E; [eapply HA; eauto|]. destruct u. apply (ps (l := L_destroy)). eapply p_destroy; eauto.
Qed.
#[local] Hint Extern 0 (rel _ (bind (Client_Conn _) (fun k => bind (match k with Some i => _ | None => Client_Destroy _ _ _ _ end) _))) => (apply destroy_remote_rel; [intro|]) : rel.
Lemma Client_Reject_rel : forall (h : handle) (reason : bytes) (inform : bool), rel X (Client_Reject h reason inform).
Proof. intros. unfold Client_Reject; rel_auto. Qed.
#[local] Hint Extern 0 (rel _ (Client_Reject _ _ _)) => apply Client_Reject_rel : rel.
Lemma Class_HandleServerBans_rel : forall (h : handle), rel X (Class_HandleServerBans h).
Proof. intros. unfold Class_HandleServerBans; rel_auto. Qed.
#[local] Hint Extern 0 (rel _ (Class_HandleServerBans _)) => apply Class_HandleServerBans_rel : rel.
Lemma Client_CheckID_rel : forall (h : handle) (id : bytes), rel X (Client_CheckID h id).
Proof. intros. unfold Client_CheckID; rel_auto. Qed.
#[local] Hint Extern 0 (rel _ (Client_CheckID _ _)) => apply Client_CheckID_rel : rel.
Lemma IRC_ERROR_rel : forall (client : handle) (req : request), rel X (IRC_ERROR client req).
Proof. intros. unfold IRC_ERROR; rel_auto. Qed.
#[local] Hint Extern 0 (rel _ (IRC_ERROR _ _)) => apply IRC_ERROR_rel : rel.
Lemma IRC_KillClient_rel : forall (client from : option handle) (nick reason : bytes), rel X (IRC_KillClient client from nick reason).
Proof. intros. unfold IRC_KillClient; rel_auto. Qed.
#[local] Hint Extern 0 (rel _ (IRC_KillClient _ _ _ _)) => apply IRC_KillClient_rel : rel.
Lemma IRC_KILL_rel : forall (client : handle) (req : request), rel X (IRC_KILL client req).
Proof. intros. unfold IRC_KILL; rel_auto. Qed.
#[local] Hint Extern 0 (rel _ (IRC_KILL _ _)) => apply IRC_KILL_rel : rel.
Lemma send_one_rel : forall (client from : handle) (forcetype : ctype) (errors : bool) (command target message : bytes), rel X (send_one client from forcetype errors command target message).
Proof. intros. unfold send_one; rel_auto. Qed.
#[local] Hint Extern 0 (rel _ (send_one _ _ _ _ _ _ _)) => apply send_one_rel : rel.
Lemma send_loop_rel : forall (client from : handle) (forcetype : ctype) (errors : bool) (command message : bytes) (seen targets : list bytes), rel X (send_loop client from forcetype errors command message seen targets).
Proof. intros. revert seen command; induction targets; intros; cbn [send_loop]; rel_go. Qed.
#[local] Hint Extern 0 (rel _ (send_loop _ _ _ _ _ _ _ _)) => apply send_loop_rel : rel.
Lemma Send_Message_rel : forall (client : handle) (req : request) (forcetype : ctype) (errors : bool), rel X (Send_Message client req forcetype errors).
Proof. intros. unfold Send_Message; rel_auto. Qed.
#[local] Hint Extern 0 (rel _ (Send_Message _ _ _ _)) => apply Send_Message_rel : rel.
Lemma IRC_NOTICE_rel : forall (client : handle) (req : request), rel X (IRC_NOTICE client req).
Proof. intros. unfold IRC_NOTICE; rel_auto. Qed.
#[local] Hint Extern 0 (rel _ (IRC_NOTICE _ _)) => apply IRC_NOTICE_rel : rel.
Lemma IRC_PRIVMSG_rel : forall (client : handle) (req : request), rel X (IRC_PRIVMSG client req).
Proof. intros. unfold IRC_PRIVMSG; rel_auto. Qed.
#[local] Hint Extern 0 (rel _ (IRC_PRIVMSG _ _)) => apply IRC_PRIVMSG_rel : rel.
Lemma IRC_SQUERY_rel : forall (client : handle) (req : request), rel X (IRC_SQUERY client req).
Proof. intros. unfold IRC_SQUERY; rel_auto. Qed.
#[local] Hint Extern 0 (rel _ (IRC_SQUERY _ _)) => apply IRC_SQUERY_rel : rel.
Lemma Login_Autojoin_rel : forall (client : handle), rel X (Login_Autojoin client).
Proof. intros. unfold Login_Autojoin; rel_auto. Qed.
#[local] Hint Extern 0 (rel _ (Login_Autojoin _)) => apply Login_Autojoin_rel : rel.
Lemma Login_Modes_rel : forall (client : handle), rel X (Login_Modes client).
Proof. intros. unfold Login_Modes; rel_auto. Qed.
#[local] Hint Extern 0 (rel _ (Login_Modes _)) => apply Login_Modes_rel : rel.
Lemma IRC_WEBIRC_rel : forall (client : handle) (req : request), rel X (IRC_WEBIRC client req).
Proof. intros. unfold IRC_WEBIRC; rel_auto. Qed.
#[local] Hint Extern 0 (rel _ (IRC_WEBIRC _ _)) => apply IRC_WEBIRC_rel : rel.
Lemma IRC_METADATA_rel : forall (client : handle) (req : request), rel X (IRC_METADATA client req).
Proof. intros. unfold IRC_METADATA; rel_auto. Qed.
#[local] Hint Extern 0 (rel _ (IRC_METADATA _ _)) => apply IRC_METADATA_rel : rel.
Lemma Set_CAP_Negotiation_rel : forall (client : handle), rel X (Set_CAP_Negotiation client).
Proof. intros. unfold Set_CAP_Negotiation; rel_auto. Qed.
#[local] Hint Extern 0 (rel _ (Set_CAP_Negotiation _)) => apply Set_CAP_Negotiation_rel : rel.
Lemma Handle_CAP_LS_rel : forall (client : handle), rel X (Handle_CAP_LS client).
Proof. intros. unfold Handle_CAP_LS; rel_auto. Qed.
#[local] Hint Extern 0 (rel _ (Handle_CAP_LS _)) => apply Handle_CAP_LS_rel : rel.
Lemma Handle_CAP_REQ_rel : forall (client : handle) (a : bytes), rel X (Handle_CAP_REQ client a).
Proof. intros. unfold Handle_CAP_REQ; rel_auto. Qed.
#[local] Hint Extern 0 (rel _ (Handle_CAP_REQ _ _)) => apply Handle_CAP_REQ_rel : rel.
Lemma Handle_CAP_CLEAR_rel : forall (client : handle), rel X (Handle_CAP_CLEAR client).
Proof. intros. unfold Handle_CAP_CLEAR; rel_auto. Qed.
#[local] Hint Extern 0 (rel _ (Handle_CAP_CLEAR _)) => apply Handle_CAP_CLEAR_rel : rel.
Lemma try_kick_rel : forall (peer from : handle) (nick channel reason : bytes), rel X (try_kick peer from nick channel reason).
Proof. intros. unfold try_kick; rel_auto. Qed.
#[local] Hint Extern 0 (rel _ (try_kick _ _ _ _ _)) => apply try_kick_rel : rel.
Lemma IRC_KICK_rel : forall (client : handle) (req : request), rel X (IRC_KICK client req).
Proof. intros. unfold IRC_KICK; rel_auto. Qed.
#[local] Hint Extern 0 (rel _ (IRC_KICK _ _)) => apply IRC_KICK_rel : rel.
Lemma invite_check_rel : forall (client from target : handle) (req : request) (ch : chandle), rel X (invite_check client from target req ch).
Proof. intros. unfold invite_check; rel_auto. Qed.
#[local] Hint Extern 0 (rel _ (invite_check _ _ _ _ _)) => apply invite_check_rel : rel.
Lemma IRC_INVITE_rel : forall (client : handle) (req : request), rel X (IRC_INVITE client req).
Proof. intros. unfold IRC_INVITE; rel_auto. Qed.
#[local] Hint Extern 0 (rel _ (IRC_INVITE _ _)) => apply IRC_INVITE_rel : rel.
Lemma Conf_SetServer_rel : forall (n : nat) (i : connid), rel X (Conf_SetServer n i).
Proof. intros. unfold Conf_SetServer; rel_auto. Qed.
#[local] Hint Extern 0 (rel _ (Conf_SetServer _ _)) => apply Conf_SetServer_rel : rel.
Lemma Conf_EnableServer_rel : forall (name : bytes) (port : Z), rel X (Conf_EnableServer name port).
Proof. intros. unfold Conf_EnableServer; rel_auto. Qed.
#[local] Hint Extern 0 (rel _ (Conf_EnableServer _ _)) => apply Conf_EnableServer_rel : rel.
Lemma Conf_EnablePassiveServer_rel : forall (name : bytes), rel X (Conf_EnablePassiveServer name).
Proof. intros. unfold Conf_EnablePassiveServer; rel_auto. Qed.
#[local] Hint Extern 0 (rel _ (Conf_EnablePassiveServer _)) => apply Conf_EnablePassiveServer_rel : rel.
Lemma Conf_DisableServer_rel : forall (name : bytes), rel X (Conf_DisableServer name).
Proof. intros. unfold Conf_DisableServer; rel_auto. Qed.
#[local] Hint Extern 0 (rel _ (Conf_DisableServer _)) => apply Conf_DisableServer_rel : rel.
Lemma Conf_AddServer_rel : forall (name : bytes) (port : Z) (host mypwd peerpwd : bytes), rel X (Conf_AddServer name port host mypwd peerpwd).
Proof. intros. unfold Conf_AddServer; rel_auto. Qed.
#[local] Hint Extern 0 (rel _ (Conf_AddServer _ _ _ _ _)) => apply Conf_AddServer_rel : rel.
#[local] Hint Extern 0 (rel _ (Client_ModeAdd _ "o")) => apply Client_ModeAdd_oper_rel : rel.
Lemma IRC_OPER_rel : forall (client : handle) (req : request), rel X (IRC_OPER client req).
Proof. intros. unfold IRC_OPER; rel_auto. Qed.
#[local] Hint Extern 0 (rel _ (IRC_OPER _ _)) => apply IRC_OPER_rel : rel.
Lemma IRC_DIE_rel : forall (client : handle) (req : request), rel X (IRC_DIE client req).
Proof. intros. unfold IRC_DIE; rel_auto. Qed.
#[local] Hint Extern 0 (rel _ (IRC_DIE _ _)) => apply IRC_DIE_rel : rel.
Lemma IRC_REHASH_rel : forall (client : handle) (req : request), rel X (IRC_REHASH client req).
Proof. intros. unfold IRC_REHASH; rel_auto. Qed.
#[local] Hint Extern 0 (rel _ (IRC_REHASH _ _)) => apply IRC_REHASH_rel : rel.
Lemma IRC_RESTART_rel : forall (client : handle) (req : request), rel X (IRC_RESTART client req).
Proof. intros. unfold IRC_RESTART; rel_auto. Qed.
#[local] Hint Extern 0 (rel _ (IRC_RESTART _ _)) => apply IRC_RESTART_rel : rel.
Lemma IRC_CONNECT_rel : forall (client : handle) (req : request), rel X (IRC_CONNECT client req).
Proof. intros. unfold IRC_CONNECT; rel_auto. Qed.
#[local] Hint Extern 0 (rel _ (IRC_CONNECT _ _)) => apply IRC_CONNECT_rel : rel.
Lemma IRC_DISCONNECT_rel : forall (client : handle) (req : request), rel X (IRC_DISCONNECT client req).
Proof. intros. unfold IRC_DISCONNECT; rel_auto. Qed.
#[local] Hint Extern 0 (rel _ (IRC_DISCONNECT _ _)) => apply IRC_DISCONNECT_rel : rel.
#[local] Hint Extern 0 (rel _ (Check_List (class_list _) (set_class _) _)) => apply Class_Check_rel : rel.
Lemma xline_kill_rel : forall (client : handle) (cls : class) (reason : bytes), rel X (xline_kill client cls reason).
Proof. intros. unfold xline_kill; rel_auto. Qed.
#[local] Hint Extern 0 (rel _ (xline_kill _ _ _)) => apply xline_kill_rel : rel.
Lemma IRC_xLINE_rel : forall (client : handle) (req : request), rel X (IRC_xLINE client req).
Proof. intros. unfold IRC_xLINE; rel_auto. Qed.
#[local] Hint Extern 0 (rel _ (IRC_xLINE _ _)) => apply IRC_xLINE_rel : rel.
Lemma IRC_Num_ISUPPORT_rel : forall (client : handle) (req : request), rel X (IRC_Num_ISUPPORT client req).
Proof. intros. unfold IRC_Num_ISUPPORT; rel_auto. Qed.
#[local] Hint Extern 0 (rel _ (IRC_Num_ISUPPORT _ _)) => apply IRC_Num_ISUPPORT_rel : rel.
Lemma njoin_one_rel : forall (client : handle) (channame ptr nick_out : bytes), rel X (njoin_one client channame ptr nick_out).
Proof. intros. unfold njoin_one; rel_auto. Qed.
#[local] Hint Extern 0 (rel _ (njoin_one _ _ _ _)) => apply njoin_one_rel : rel.
Lemma IRC_NJOIN_rel : forall (client : handle) (req : request), rel X (IRC_NJOIN client req).
Proof. intros. unfold IRC_NJOIN; rel_auto. Qed.
#[local] Hint Extern 0 (rel _ (IRC_NJOIN _ _)) => apply IRC_NJOIN_rel : rel.
Lemma destroy_pre : forall h log fwd sq, relp (cfact h (fun c => cl_conn c = None)) X (Client_Destroy h log fwd sq).
Proof. intros h log fwd sq s [] s' (c & Hc & Hn) Hr. apply (ps (l := L_destroy)). eapply p_destroy; eauto. Qed.
Lemma squit_do_rel : forall (client from target : handle) (req : request), rel X (squit_do client from target req).
Proof. intros. unfold squit_do. apply relp_rel. apply relp_bind_wr; [apply wstable_True|rel_auto|intro cc]. apply relp_Client_Conn; intro c. 
    apply relp_weaken with (Q := cfact target (fun x => cl_conn x = cl_conn c)). { intros s [_ H]. exists c. auto. } 
    assert (Hs : wstable (cfact target (fun x => cl_conn x = cl_conn c))) by (apply cfact_wstable; auto). 
    apply relp_bind_wr; [exact Hs|rel_auto|intro nh]. apply relp_bind_wr; [exact Hs|rel_auto|intro msg]. 
    destruct (cl_conn c) eqn:E. { apply rel_relp. rel_auto. } 
    apply relp_bind_wr; [exact Hs|rel_auto|intro fs]. apply relp_bind_rel; [|rel_auto]. destruct (negb fs). { apply rel_relp. rel_auto. } 
    apply relp_bind_wr; [exact Hs|rel_auto|intro logmsg]. apply destroy_pre. Qed.
#[local] Hint Extern 0 (rel _ (squit_do _ _ _ _)) => apply squit_do_rel : rel.
Lemma IRC_SQUIT_rel : forall (client : handle) (req : request), rel X (IRC_SQUIT client req).
Proof. intros. unfold IRC_SQUIT; rel_auto. Qed.
#[local] Hint Extern 0 (rel _ (IRC_SQUIT _ _)) => apply IRC_SQUIT_rel : rel.
Lemma predefined_modes_rel : forall (ch : chandle) (cc : cchan), rel X (predefined_modes ch cc).
Proof. intros. unfold predefined_modes; rel_auto. Qed.
#[local] Hint Extern 0 (rel _ (predefined_modes _ _)) => apply predefined_modes_rel : rel.
Lemma search_create_k : forall A n (F G : chandle -> M A) (K : chandle -> M A), valid_chan n = true ->
  (forall ch s a s2, ch = s_chnext s -> F ch (set_s_chnext (S (s_chnext s)) (set_s_chans ((s_chnext s, new_channel n (s_now s)) :: s_chans s) s)) = Ok a s2 ->
     exists m, (m = B "P" \/ m = B "mnPt") /\ G ch (set_chan ch (set_ch_modes m) (set_s_chnext (S (s_chnext s)) (set_s_chans ((s_chnext s, new_channel n (s_now s)) :: s_chans s) s))) = Ok a s2) ->
  (forall ch, rel X (G ch)) -> (forall ch, rel X (K ch)) ->
  rel X (o <- Channel_Search n ;; match o with Some ch => K ch | None => ch <- Channel_Create n ;; F ch end).
Proof.
  intros A n F G K V HF HG HK s a s' Hr. apply bind_ok in Hr. destruct Hr as (o & s1 & H1 & Hr). pose proof (Channel_Search_read _ _ _ _ H1); subst s1.
  destruct o. { eapply HK; eauto. } apply bind_ok in Hr. destruct Hr as (ch & s2 & H2 & Hr).
  unfold Channel_Create in H2. apply bind_ok in H2. destruct H2 as (c0 & t1 & T1 & H2). apply gets_ok in T1. destruct T1 as [-> ->]. apply bind_ok in H2. destruct H2 as (tm & t1 & T1 & H2). unfold now in T1. apply gets_ok in T1. destruct T1 as [-> ->].
  apply bind_ok in H2. destruct H2 as (u & t1 & T1 & H2). apply modify_ok in T1. subst t1. apply ret_ok in H2. destruct H2 as [-> ->].
  edestruct HF as (m & Hm & HR); [reflexivity|exact Hr|]. eapply transitivity; [|eapply HG; exact HR].
  apply (ps (l := L_create_pre)). apply p_create_pre; auto.
Qed.
#[local] Hint Extern 1 (rel _ (upd_chan _ (set_ch_keyfile _))) => apply upd_keyfile_rel : rel.
Lemma Channel_InitPredefined_rel : rel X (Channel_InitPredefined).
Proof. intros. unfold Channel_InitPredefined. apply rel_bind; [rel_auto|intro l]. apply rel_bind. 
    { apply rel_mfor. intro cc. destruct (valid_chan (cc_name cc)) eqn:V; [|rewrite orb_true_r; rel_auto]. rewrite orb_false_r. match goal with |- rel _ (if ?b then _ else _) => destruct b end; [rel_auto|]. 
      apply (search_create_k _ _ _ (fun ch => whenM (negb (beq (cc_topic cc) [])) (Channel_SetTopic ch None (cc_topic cc)) ;;; predefined_modes ch cc ;;; upd_chan ch (set_ch_keyfile (cc_keyfile cc)))); auto; [|intro ch; rel_auto|intro ch; rel_auto]. 
      intros ch s a s2 -> H. exists (B "P"). split; auto. apply bind_ok in H. destruct H as (u & s1 & H1 & H). unfold void in H1. apply bind_ok in H1. destruct H1 as (w & s3 & H1 & H3). apply ret_ok in H3. destruct H3 as [_ ->]. 
      unfold Channel_ModeAdd in H1. apply bind_ok in H1. destruct H1 as (c & s4 & H4 & H1). apply chan_ok in H4. destruct H4 as [H4 ->]. cbn [s_chans set_s_chnext set_s_chans assoc] in H4. rewrite Nat.eqb_refl in H4. inversion H4; subst c. 
      apply bind_ok in H1. destruct H1 as (v & s4 & H5 & H1). apply ret_ok in H1. destruct H1 as [_ ->]. apply upd_chan_ok in H5. destruct H5 as (c & _ & ->). exact H. } 
    intros _. apply (search_create_k _ _ _ (fun ch => Channel_SetTopic ch (Some This_Server) (B "Server Messages")) (fun _ => ret tt)); auto; [|intro ch; rel_auto|intro ch; rel_auto]. 
    intros ch s a s2 -> H. exists (B "mnPt"). split; auto. apply bind_ok in H. destruct H as (u & s1 & H1 & H). unfold Channel_SetModes in H1. apply bind_ok in H1. destruct H1 as (w & s3 & H3 & H1). apply modify_ok in H3. subst s3. apply upd_chan_ok in H1. destruct H1 as (c & _ & ->). exact H. Qed.
#[local] Hint Extern 0 (rel _ (Channel_InitPredefined)) => apply Channel_InitPredefined_rel : rel.
Lemma Throttle_Connection_rel : forall (i : connid) (h : handle), rel X (Throttle_Connection i h).
Proof. intros. unfold Throttle_Connection; rel_auto. Qed.
#[local] Hint Extern 0 (rel _ (Throttle_Connection _ _)) => apply Throttle_Connection_rel : rel.
Lemma Resolver_Result_rel : forall (i : connid) (name : bytes), rel X (Resolver_Result i name).
Proof. intros. unfold Resolver_Result; rel_auto. Qed.
#[local] Hint Extern 0 (rel _ (Resolver_Result _ _)) => apply Resolver_Result_rel : rel.
Lemma max_commands_rel : forall (i : connid) (h : handle), rel X (max_commands i h).
Proof. intros. unfold max_commands; rel_auto. Qed.
#[local] Hint Extern 0 (rel _ (max_commands _ _)) => apply max_commands_rel : rel.
Lemma Server_Connected_rel : forall (i : connid) (ok : bool), rel X (Server_Connected i ok).
Proof. intros. unfold Server_Connected; rel_auto. Qed.
#[local] Hint Extern 0 (rel _ (Server_Connected _ _)) => apply Server_Connected_rel : rel.
Lemma Check_Connection_rel : forall (i : connid), rel X (Check_Connection i).
Proof. intros. unfold Check_Connection; rel_auto. Qed.
#[local] Hint Extern 0 (rel _ (Check_Connection _)) => apply Check_Connection_rel : rel.
Lemma Check_Connections_rel : rel X (Check_Connections).
Proof. intros. unfold Check_Connections; rel_auto. Qed.
#[local] Hint Extern 0 (rel _ (Check_Connections)) => apply Check_Connections_rel : rel.
End R.
(** what setting the default user modes at login does; a class of its own, because it is the only
    way (besides OPER and MODE) by which a mode 'o' could be set *)
Class LM (X : state -> state -> Prop) : Prop := lm : forall h, rel X (Login_Modes h).
#[export] Hint Extern 5 (LM _) => (intro; apply Login_Modes_rel) : typeclass_instances.
#[export] Hint Extern 0 (rel _ (Client_Reject _ _ _)) => apply Client_Reject_rel : rel.
#[export] Hint Extern 0 (rel _ (Class_HandleServerBans _)) => apply Class_HandleServerBans_rel : rel.
#[export] Hint Extern 0 (rel _ (Client_CheckID _ _)) => apply Client_CheckID_rel : rel.
#[export] Hint Extern 0 (rel _ (IRC_ERROR _ _)) => apply IRC_ERROR_rel : rel.
#[export] Hint Extern 0 (rel _ (IRC_KillClient _ _ _ _)) => apply IRC_KillClient_rel : rel.
#[export] Hint Extern 0 (rel _ (IRC_KILL _ _)) => apply IRC_KILL_rel : rel.
#[export] Hint Extern 0 (rel _ (send_one _ _ _ _ _ _ _)) => apply send_one_rel : rel.
#[export] Hint Extern 0 (rel _ (send_loop _ _ _ _ _ _ _ _)) => apply send_loop_rel : rel.
#[export] Hint Extern 0 (rel _ (Send_Message _ _ _ _)) => apply Send_Message_rel : rel.
#[export] Hint Extern 0 (rel _ (IRC_NOTICE _ _)) => apply IRC_NOTICE_rel : rel.
#[export] Hint Extern 0 (rel _ (IRC_PRIVMSG _ _)) => apply IRC_PRIVMSG_rel : rel.
#[export] Hint Extern 0 (rel _ (IRC_SQUERY _ _)) => apply IRC_SQUERY_rel : rel.
#[export] Hint Extern 0 (rel _ (Login_Autojoin _)) => apply Login_Autojoin_rel : rel.
#[export] Hint Extern 0 (rel _ (IRC_WEBIRC _ _)) => apply IRC_WEBIRC_rel : rel.
#[export] Hint Extern 0 (rel _ (IRC_METADATA _ _)) => apply IRC_METADATA_rel : rel.
#[export] Hint Extern 0 (rel _ (Set_CAP_Negotiation _)) => apply Set_CAP_Negotiation_rel : rel.
#[export] Hint Extern 0 (rel _ (Handle_CAP_LS _)) => apply Handle_CAP_LS_rel : rel.
#[export] Hint Extern 0 (rel _ (Handle_CAP_REQ _ _)) => apply Handle_CAP_REQ_rel : rel.
#[export] Hint Extern 0 (rel _ (Handle_CAP_CLEAR _)) => apply Handle_CAP_CLEAR_rel : rel.
#[export] Hint Extern 0 (rel _ (try_kick _ _ _ _ _)) => apply try_kick_rel : rel.
#[export] Hint Extern 0 (rel _ (IRC_KICK _ _)) => apply IRC_KICK_rel : rel.
#[export] Hint Extern 0 (rel _ (invite_check _ _ _ _ _)) => apply invite_check_rel : rel.
#[export] Hint Extern 0 (rel _ (IRC_INVITE _ _)) => apply IRC_INVITE_rel : rel.
#[export] Hint Extern 0 (rel _ (Conf_SetServer _ _)) => apply Conf_SetServer_rel : rel.
#[export] Hint Extern 0 (rel _ (Conf_EnableServer _ _)) => apply Conf_EnableServer_rel : rel.
#[export] Hint Extern 0 (rel _ (Conf_EnablePassiveServer _)) => apply Conf_EnablePassiveServer_rel : rel.
#[export] Hint Extern 0 (rel _ (Conf_DisableServer _)) => apply Conf_DisableServer_rel : rel.
#[export] Hint Extern 0 (rel _ (Conf_AddServer _ _ _ _ _)) => apply Conf_AddServer_rel : rel.
#[export] Hint Extern 0 (rel _ (IRC_OPER _ _)) => apply IRC_OPER_rel : rel.
#[export] Hint Extern 0 (rel _ (IRC_DIE _ _)) => apply IRC_DIE_rel : rel.
#[export] Hint Extern 0 (rel _ (IRC_REHASH _ _)) => apply IRC_REHASH_rel : rel.
#[export] Hint Extern 0 (rel _ (IRC_RESTART _ _)) => apply IRC_RESTART_rel : rel.
#[export] Hint Extern 0 (rel _ (IRC_CONNECT _ _)) => apply IRC_CONNECT_rel : rel.
#[export] Hint Extern 0 (rel _ (IRC_DISCONNECT _ _)) => apply IRC_DISCONNECT_rel : rel.
#[export] Hint Extern 0 (rel _ (xline_kill _ _ _)) => apply xline_kill_rel : rel.
#[export] Hint Extern 0 (rel _ (IRC_xLINE _ _)) => apply IRC_xLINE_rel : rel.
#[export] Hint Extern 0 (rel _ (IRC_Num_ISUPPORT _ _)) => apply IRC_Num_ISUPPORT_rel : rel.
#[export] Hint Extern 0 (rel _ (njoin_one _ _ _ _)) => apply njoin_one_rel : rel.
#[export] Hint Extern 0 (rel _ (IRC_NJOIN _ _)) => apply IRC_NJOIN_rel : rel.
#[export] Hint Extern 0 (rel _ (squit_do _ _ _ _)) => apply squit_do_rel : rel.
#[export] Hint Extern 0 (rel _ (IRC_SQUIT _ _)) => apply IRC_SQUIT_rel : rel.
#[export] Hint Extern 0 (rel _ (predefined_modes _ _)) => apply predefined_modes_rel : rel.
#[export] Hint Extern 0 (rel _ (Channel_InitPredefined)) => apply Channel_InitPredefined_rel : rel.
#[export] Hint Extern 0 (rel _ (Throttle_Connection _ _)) => apply Throttle_Connection_rel : rel.
#[export] Hint Extern 0 (rel _ (Resolver_Result _ _)) => apply Resolver_Result_rel : rel.
#[export] Hint Extern 0 (rel _ (max_commands _ _)) => apply max_commands_rel : rel.
#[export] Hint Extern 0 (rel _ (Server_Connected _ _)) => apply Server_Connected_rel : rel.
#[export] Hint Extern 0 (rel _ (Check_Connection _)) => apply Check_Connection_rel : rel.
#[export] Hint Extern 0 (rel _ (Check_Connections)) => apply Check_Connections_rel : rel.
