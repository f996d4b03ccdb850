(** Generated by tools/gen_safe.py: no function of the model reads outside of a string, except
    those listed in Safe.v (C40). *)
From Coq Require Import List Ascii String ZArith NArith Bool Lia Arith.
From Verif Require Import Bytes Strl Match Lists Hash ParseReq State Messages Monad Core Write Info Chan Mode Msg Login Oper Server Dispatch Conn Safe0 Safe1 Safe2.
Import ListNotations.
Local Open Scope m_scope.

(** ** Msg.v *)
Lemma safe_IRC_ERROR : forall (client : handle) (req : request), safe (IRC_ERROR client req).
Proof. intros. unfold IRC_ERROR. sf. Qed.
#[export] Hint Resolve safe_IRC_ERROR : safe.
Lemma safe_IRC_KillClient : forall (client : option handle) (from : option handle) (nick : bytes) (reason : bytes), safe (IRC_KillClient client from nick reason).
Proof. intros. unfold IRC_KillClient. sf. Qed.
#[export] Hint Resolve safe_IRC_KillClient : safe.
Lemma safe_IRC_KILL : forall (client : handle) (req : request), safe (IRC_KILL client req).
Proof. intros. unfold IRC_KILL. sf. Qed.
#[export] Hint Resolve safe_IRC_KILL : safe.
Lemma safe_target_match : forall (mt : mtarget) (c : handle), safe (target_match mt c).
Proof. intros. unfold target_match. sf. Qed.
#[export] Hint Resolve safe_target_match : safe.
Lemma safe_find_target : forall (t : bytes), safe (find_target t).
Proof. intros. unfold find_target. sf. Qed.
#[export] Hint Resolve safe_find_target : safe.
Lemma safe_Send_Message_Mask : forall (from : handle) (command : bytes) (mask : bytes) (message : bytes) (errors : bool), safe (Send_Message_Mask from command mask message errors).
Proof. intros. unfold Send_Message_Mask. sf. Qed.
#[export] Hint Resolve safe_Send_Message_Mask : safe.
Lemma safe_send_to_client : forall (client : handle) (from : handle) (c : handle) (forcetype : ctype) (errors : bool) (command : bytes) (target : bytes) (message : bytes), safe (send_to_client client from c forcetype errors command target message).
Proof. intros. unfold send_to_client. sf. Qed.
#[export] Hint Resolve safe_send_to_client : safe.
Lemma safe_send_one : forall (client : handle) (from : handle) (forcetype : ctype) (errors : bool) (command : bytes) (target : bytes) (message : bytes), safe (send_one client from forcetype errors command target message).
Proof. intros. unfold send_one. sf. Qed.
#[export] Hint Resolve safe_send_one : safe.
Lemma safe_send_loop : forall (client : handle) (from : handle) (forcetype : ctype) (errors : bool) (command : bytes) (message : bytes) (seen : list bytes) (targets : list bytes), safe (send_loop client from forcetype errors command message seen targets).
Proof.
  intros client from forcetype errors command message seen targets. revert client from forcetype errors command message seen.
  induction targets as [|t r IH]; intros; cbn [send_loop]; [sf|].
  apply safe_bind; [sf|]. intros [[x|] c]; [sf|]. destruct r as [|n r]; [sf|].
  apply safe_bind; [sf|]. intro. apply safe_bind; [sf|]. intro. apply safe_bind; [sf|]. intro. destruct (_ <=? _)%nat; [sf|]. apply IH.
Qed.
#[export] Hint Resolve safe_send_loop : safe.
Lemma safe_Send_Message : forall (client : handle) (req : request) (forcetype : ctype) (errors : bool), safe (Send_Message client req forcetype errors).
Proof. intros. unfold Send_Message. sf. Qed.
#[export] Hint Resolve safe_Send_Message : safe.
Lemma safe_IRC_NOTICE : forall (client : handle) (req : request), safe (IRC_NOTICE client req).
Proof. intros. unfold IRC_NOTICE. sf. Qed.
#[export] Hint Resolve safe_IRC_NOTICE : safe.
Lemma safe_IRC_PRIVMSG : forall (client : handle) (req : request), safe (IRC_PRIVMSG client req).
Proof. intros. unfold IRC_PRIVMSG. sf. Qed.
#[export] Hint Resolve safe_IRC_PRIVMSG : safe.
Lemma safe_IRC_SQUERY : forall (client : handle) (req : request), safe (IRC_SQUERY client req).
Proof. intros. unfold IRC_SQUERY. sf. Qed.
#[export] Hint Resolve safe_IRC_SQUERY : safe.
Lemma safe_IRC_TRACE : forall (client : handle) (req : request), safe (IRC_TRACE client req).
Proof. intros. unfold IRC_TRACE. sf. Qed.
#[export] Hint Resolve safe_IRC_TRACE : safe.
Lemma safe_help_lines : forall (client : handle) (topic : bytes) (l : list bytes) (in_article : bool) (n : nat), safe (help_lines client topic l in_article n).
Proof. intros client topic l in_article n. revert client topic in_article n. induction l; intros; cbn [help_lines]; sf. Qed.
#[export] Hint Resolve safe_help_lines : safe.
Lemma safe_Help : forall (client : handle) (topic : bytes), safe (Help client topic).
Proof. intros. unfold Help. sf. Qed.
#[export] Hint Resolve safe_Help : safe.
Lemma safe_IRC_HELP : forall (client : handle) (req : request), safe (IRC_HELP client req).
Proof. intros. unfold IRC_HELP. sf. Qed.
#[export] Hint Resolve safe_IRC_HELP : safe.
(** ** Login.v *)
Lemma safe_with_prefix : forall (client : handle) (req : request) (k : bytes -> M bool), (forall y0, safe (k y0)) -> safe (with_prefix client req k).
Proof. intros. unfold with_prefix. sf. Qed.
#[export] Hint Resolve safe_with_prefix : safe.
Lemma safe_Login_Autojoin : forall (client : handle), safe (Login_Autojoin client).
Proof. intros. unfold Login_Autojoin. sf. Qed.
#[export] Hint Resolve safe_Login_Autojoin : safe.
Lemma safe_Login_Modes : forall (client : handle), safe (Login_Modes client).
Proof. intros. unfold Login_Modes. sf. Qed.
#[export] Hint Resolve safe_Login_Modes : safe.
Lemma safe_Login_User_PostAuth : forall (client : handle), safe (Login_User_PostAuth client).
Proof. intros. unfold Login_User_PostAuth. sf. Qed.
#[export] Hint Resolve safe_Login_User_PostAuth : safe.
Lemma safe_Login_User : forall (client : handle), safe (Login_User client).
Proof. intros. unfold Login_User. sf. Qed.
#[export] Hint Resolve safe_Login_User : safe.
Lemma safe_IRC_PASS : forall (client : handle) (req : request), safe (IRC_PASS client req).
Proof. intros. unfold IRC_PASS. sf. Qed.
#[export] Hint Resolve safe_IRC_PASS : safe.
Lemma safe_Change_Nick : forall (origin : handle) (target : handle) (new : bytes) (inform : bool), safe (Change_Nick origin target new inform).
Proof. intros. unfold Change_Nick. sf. Qed.
#[export] Hint Resolve safe_Change_Nick : safe.
Lemma safe_nick_new : forall (client : handle) (target : handle) (new : bytes), safe (nick_new client target new).
Proof. intros. unfold nick_new. sf. Qed.
#[export] Hint Resolve safe_nick_new : safe.
Lemma safe_nick_change : forall (client : handle) (target : handle) (new : bytes), safe (nick_change client target new).
Proof. intros. unfold nick_change. sf. Qed.
#[export] Hint Resolve safe_nick_change : safe.
Lemma safe_nick_target : forall (client : handle) (target : handle) (new : bytes), safe (nick_target client target new).
Proof. intros. unfold nick_target. sf. Qed.
#[export] Hint Resolve safe_nick_target : safe.
Lemma safe_IRC_SVSNICK : forall (client : handle) (req : request), safe (IRC_SVSNICK client req).
Proof. intros. unfold IRC_SVSNICK. sf. Qed.
#[export] Hint Resolve safe_IRC_SVSNICK : safe.
Lemma safe_IRC_USER : forall (client : handle) (req : request), safe (IRC_USER client req).
Proof. intros. unfold IRC_USER. sf. Qed.
#[export] Hint Resolve safe_IRC_USER : safe.
Lemma safe_IRC_SERVICE : forall (client : handle) (req : request), safe (IRC_SERVICE client req).
Proof. intros. unfold IRC_SERVICE. sf. Qed.
#[export] Hint Resolve safe_IRC_SERVICE : safe.
Lemma safe_IRC_WEBIRC : forall (client : handle) (req : request), safe (IRC_WEBIRC client req).
Proof. intros. unfold IRC_WEBIRC. sf. Qed.
#[export] Hint Resolve safe_IRC_WEBIRC : safe.
Lemma safe_IRC_QUIT : forall (client : handle) (req : request), safe (IRC_QUIT client req).
Proof. intros. unfold IRC_QUIT. sf. Qed.
#[export] Hint Resolve safe_IRC_QUIT : safe.
Lemma safe_IRC_QUIT_HTTP : forall (client : handle) (req : request), safe (IRC_QUIT_HTTP client req).
Proof. intros. unfold IRC_QUIT_HTTP. sf. Qed.
#[export] Hint Resolve safe_IRC_QUIT_HTTP : safe.
Lemma safe_IRC_PING : forall (client : handle) (req : request), safe (IRC_PING client req).
Proof. intros. unfold IRC_PING. sf. Qed.
#[export] Hint Resolve safe_IRC_PING : safe.
Lemma safe_pong_here : forall (client : handle) (req : request), safe (pong_here client req).
Proof. intros. unfold pong_here. sf. Qed.
#[export] Hint Resolve safe_pong_here : safe.
Lemma safe_IRC_PONG : forall (client : handle) (req : request), safe (IRC_PONG client req).
Proof. intros. unfold IRC_PONG. sf. Qed.
#[export] Hint Resolve safe_IRC_PONG : safe.
Lemma safe_Set_CAP_Negotiation : forall (client : handle), safe (Set_CAP_Negotiation client).
Proof. intros. unfold Set_CAP_Negotiation. sf. Qed.
#[export] Hint Resolve safe_Set_CAP_Negotiation : safe.
Lemma safe_Handle_CAP_LS : forall (client : handle), safe (Handle_CAP_LS client).
Proof. intros. unfold Handle_CAP_LS. sf. Qed.
#[export] Hint Resolve safe_Handle_CAP_LS : safe.
Lemma safe_Handle_CAP_LIST : forall (client : handle), safe (Handle_CAP_LIST client).
Proof. intros. unfold Handle_CAP_LIST. sf. Qed.
#[export] Hint Resolve safe_Handle_CAP_LIST : safe.
Lemma safe_Handle_CAP_REQ : forall (client : handle) (a : bytes), safe (Handle_CAP_REQ client a).
Proof. intros. unfold Handle_CAP_REQ. sf. Qed.
#[export] Hint Resolve safe_Handle_CAP_REQ : safe.
Lemma safe_Handle_CAP_CLEAR : forall (client : handle), safe (Handle_CAP_CLEAR client).
Proof. intros. unfold Handle_CAP_CLEAR. sf. Qed.
#[export] Hint Resolve safe_Handle_CAP_CLEAR : safe.
Lemma safe_Handle_CAP_END : forall (client : handle), safe (Handle_CAP_END client).
Proof. intros. unfold Handle_CAP_END. sf. Qed.
#[export] Hint Resolve safe_Handle_CAP_END : safe.
Lemma safe_IRC_CAP : forall (client : handle) (req : request), safe (IRC_CAP client req).
Proof. intros. unfold IRC_CAP. sf. Qed.
#[export] Hint Resolve safe_IRC_CAP : safe.
Lemma safe_IRC_METADATA : forall (client : handle) (req : request), safe (IRC_METADATA client req).
Proof. intros. unfold IRC_METADATA. sf. Qed.
#[export] Hint Resolve safe_IRC_METADATA : safe.
(** ** Oper.v *)
Lemma safe_try_kick : forall (peer : handle) (from : handle) (nick : bytes) (channel : bytes) (reason : bytes), safe (try_kick peer from nick channel reason).
Proof. intros. unfold try_kick. sf. Qed.
#[export] Hint Resolve safe_try_kick : safe.
Lemma safe_IRC_KICK : forall (client : handle) (req : request), safe (IRC_KICK client req).
Proof. intros. unfold IRC_KICK. sf. Qed.
#[export] Hint Resolve safe_IRC_KICK : safe.
Lemma safe_invite_check : forall (client : handle) (from : handle) (target : handle) (req : request) (ch : chandle), safe (invite_check client from target req ch).
Proof. intros. unfold invite_check. sf. Qed.
#[export] Hint Resolve safe_invite_check : safe.
Lemma safe_IRC_INVITE : forall (client : handle) (req : request), safe (IRC_INVITE client req).
Proof. intros. unfold IRC_INVITE. sf. Qed.
#[export] Hint Resolve safe_IRC_INVITE : safe.
Lemma safe_find_server : forall (f : cserver -> bool), safe (find_server f).
Proof. intros. unfold find_server. sf. Qed.
#[export] Hint Resolve safe_find_server : safe.
Lemma safe_Conf_SetServer : forall (n : nat) (i : connid), safe (Conf_SetServer n i).
Proof. intros. unfold Conf_SetServer. sf. Qed.
#[export] Hint Resolve safe_Conf_SetServer : safe.
Lemma safe_Conf_EnableServer : forall (name : bytes) (port : Z), safe (Conf_EnableServer name port).
Proof. intros. unfold Conf_EnableServer. sf. Qed.
#[export] Hint Resolve safe_Conf_EnableServer : safe.
Lemma safe_Conf_EnablePassiveServer : forall (name : bytes), safe (Conf_EnablePassiveServer name).
Proof. intros. unfold Conf_EnablePassiveServer. sf. Qed.
#[export] Hint Resolve safe_Conf_EnablePassiveServer : safe.
Lemma safe_Conf_DisableServer : forall (name : bytes), safe (Conf_DisableServer name).
Proof. intros. unfold Conf_DisableServer. sf. Qed.
#[export] Hint Resolve safe_Conf_DisableServer : safe.
Lemma safe_Conf_AddServer : forall (name : bytes) (port : Z) (host : bytes) (mypwd : bytes) (peerpwd : bytes), safe (Conf_AddServer name port host mypwd peerpwd).
Proof. intros. unfold Conf_AddServer. sf. Qed.
#[export] Hint Resolve safe_Conf_AddServer : safe.
Lemma safe_Bad_OperPass : forall (client : handle) (token : bytes) (msg : bytes), safe (Bad_OperPass client token msg).
Proof. intros. unfold Bad_OperPass. sf. Qed.
#[export] Hint Resolve safe_Bad_OperPass : safe.
Lemma safe_IRC_OPER : forall (client : handle) (req : request), safe (IRC_OPER client req).
Proof. intros. unfold IRC_OPER. sf. Qed.
#[export] Hint Resolve safe_IRC_OPER : safe.
Lemma safe_oper_only : forall (client : handle) (req : request) (k : M bool), safe k -> safe (oper_only client req k).
Proof. intros. unfold oper_only. sf. Qed.
#[export] Hint Resolve safe_oper_only : safe.
Lemma safe_IRC_DIE : forall (client : handle) (req : request), safe (IRC_DIE client req).
Proof. intros. unfold IRC_DIE. sf. Qed.
#[export] Hint Resolve safe_IRC_DIE : safe.
Lemma safe_IRC_REHASH : forall (client : handle) (req : request), safe (IRC_REHASH client req).
Proof. intros. unfold IRC_REHASH. sf. Qed.
#[export] Hint Resolve safe_IRC_REHASH : safe.
Lemma safe_IRC_RESTART : forall (client : handle) (req : request), safe (IRC_RESTART client req).
Proof. intros. unfold IRC_RESTART. sf. Qed.
#[export] Hint Resolve safe_IRC_RESTART : safe.
Lemma safe_connect_target : forall (client : handle) (req : request), safe (connect_target client req).
Proof. intros. unfold connect_target. sf. Qed.
#[export] Hint Resolve safe_connect_target : safe.
Lemma safe_IRC_CONNECT : forall (client : handle) (req : request), safe (IRC_CONNECT client req).
Proof. intros. unfold IRC_CONNECT. sf. Qed.
#[export] Hint Resolve safe_IRC_CONNECT : safe.
Lemma safe_IRC_DISCONNECT : forall (client : handle) (req : request), safe (IRC_DISCONNECT client req).
Proof. intros. unfold IRC_DISCONNECT. sf. Qed.
#[export] Hint Resolve safe_IRC_DISCONNECT : safe.
Lemma safe_IRC_WALLOPS : forall (client : handle) (req : request), safe (IRC_WALLOPS client req).
Proof. intros. unfold IRC_WALLOPS. sf. Qed.
#[export] Hint Resolve safe_IRC_WALLOPS : safe.
Lemma safe_xline_kill : forall (client : handle) (cls : class) (reason : bytes), safe (xline_kill client cls reason).
Proof. intros. unfold xline_kill. sf. Qed.
#[export] Hint Resolve safe_xline_kill : safe.
Lemma safe_IRC_xLINE : forall (client : handle) (req : request), safe (IRC_xLINE client req).
Proof. intros. unfold IRC_xLINE. sf. Qed.
#[export] Hint Resolve safe_IRC_xLINE : safe.
(** ** Server.v *)
Lemma safe_njoin_nick : forall (xop : bool) (ch : chandle) (cl : handle) (str : bytes), safe (njoin_nick xop ch cl str).
Proof. intros. unfold njoin_nick. sf. Qed.
#[export] Hint Resolve safe_njoin_nick : safe.
Lemma safe_announce_members : forall (client : handle) (ch : chandle) (njoin : bool) (xop : bool) (name : bytes) (start : bytes) (l : list handle) (str : bytes), safe (announce_members client ch njoin xop name start l str).
Proof. intros client ch njoin xop name start l str. revert client ch njoin xop name start str. induction l; intros; cbn [announce_members]; sf. Qed.
#[export] Hint Resolve safe_announce_members : safe.
Lemma safe_Announce_Channel : forall (client : handle) (ch : chandle), safe (Announce_Channel client ch).
Proof. intros. unfold Announce_Channel. sf. Qed.
#[export] Hint Resolve safe_Announce_Channel : safe.
Lemma safe_server_args : forall (h : handle), Forall safe (server_args h).
Proof. intros. unfold server_args. sf. Qed.
#[export] Hint Resolve safe_server_args : safe.
Lemma safe_Announce_Server : forall (client : handle) (server : handle), safe (Announce_Server client server).
Proof. intros. unfold Announce_Server. sf. Qed.
#[export] Hint Resolve safe_Announce_Server : safe.
Lemma safe_Send_List : forall (client : handle) (ch : chandle) (l : mlist) (ty : ascii), safe (Send_List client ch l ty).
Proof. intros. unfold Send_List. sf. Qed.
#[export] Hint Resolve safe_Send_List : safe.
Lemma safe_Synchronize_Lists : forall (client : handle), safe (Synchronize_Lists client).
Proof. intros. unfold Synchronize_Lists. sf. Qed.
#[export] Hint Resolve safe_Synchronize_Lists : safe.
Lemma safe_Send_CHANINFO : forall (client : handle) (ch : chandle), safe (Send_CHANINFO client ch).
Proof. intros. unfold Send_CHANINFO. sf. Qed.
#[export] Hint Resolve safe_Send_CHANINFO : safe.
Lemma safe_IRC_Num_ENDOFMOTD : forall (client : handle), safe (IRC_Num_ENDOFMOTD client).
Proof. intros. unfold IRC_Num_ENDOFMOTD. sf. Qed.
#[export] Hint Resolve safe_IRC_Num_ENDOFMOTD : safe.
Lemma safe_IRC_Num_ISUPPORT : forall (client : handle) (req : request), safe (IRC_Num_ISUPPORT client req).
Proof. intros. unfold IRC_Num_ISUPPORT. sf. Qed.
#[export] Hint Resolve safe_IRC_Num_ISUPPORT : safe.
Lemma safe_server_become : forall (client : handle) (i : connid) (sv : cserver) (req : request), safe (server_become client i sv req).
Proof. intros. unfold server_become. sf. Qed.
#[export] Hint Resolve safe_server_become : safe.
Lemma safe_server_register : forall (client : handle) (i : connid) (req : request), safe (server_register client i req).
Proof. intros. unfold server_register. sf. Qed.
#[export] Hint Resolve safe_server_register : safe.
Lemma safe_server_introduce : forall (client : handle) (i : connid) (req : request), safe (server_introduce client i req).
Proof. intros. unfold server_introduce. sf. Qed.
#[export] Hint Resolve safe_server_introduce : safe.
Lemma safe_IRC_SERVER : forall (client : handle) (req : request), safe (IRC_SERVER client req).
Proof. intros. unfold IRC_SERVER. sf. Qed.
#[export] Hint Resolve safe_IRC_SERVER : safe.
Lemma safe_njoin_one : forall (client : handle) (channame : bytes) (ptr : bytes) (nick_out : bytes), safe (njoin_one client channame ptr nick_out).
Proof. intros. unfold njoin_one. sf. Qed.
#[export] Hint Resolve safe_njoin_one : safe.
Lemma safe_IRC_NJOIN : forall (client : handle) (req : request), safe (IRC_NJOIN client req).
Proof. intros. unfold IRC_NJOIN. sf. Qed.
#[export] Hint Resolve safe_IRC_NJOIN : safe.
Lemma safe_squit_do : forall (client : handle) (from : handle) (target : handle) (req : request), safe (squit_do client from target req).
Proof. intros. unfold squit_do. sf. Qed.
#[export] Hint Resolve safe_squit_do : safe.
Lemma safe_IRC_SQUIT : forall (client : handle) (req : request), safe (IRC_SQUIT client req).
Proof. intros. unfold IRC_SQUIT. sf. Qed.
#[export] Hint Resolve safe_IRC_SQUIT : safe.
Lemma strtok_full : forall d t cur, Forall full (strtok_aux d t cur).
Proof.
  induction t as [|a t IH]; intro cur; cbn [strtok_aux].
  - destruct cur; constructor; [|constructor]. intro E. apply (f_equal (@List.length _)) in E. rewrite rev_length in E. discriminate.
  - destruct (Ascii.eqb a d); [|apply IH]. destruct cur as [|c r]; [apply IH|]. constructor; [|apply IH]. intro E. apply (f_equal (@List.length _)) in E. rewrite rev_length in E. discriminate.
Qed.
Lemma firstn_full : forall n l, Forall full l -> Forall full (firstn n l).
Proof. induction n; intros l H; [constructor|]. destruct H; constructor; auto. Qed.
Lemma safe_predefined_modes : forall (ch : chandle) (cc : cchan), safe (predefined_modes ch cc).
Proof.
  intros. unfold predefined_modes. apply safe_bind; [sf|]. intro me. apply safe_mfor. intro m.
  pose proof (firstn_full 14 _ (strtok_full " " (strlcpy COMMAND_LEN m) [])) as F. fold (strtok " " (strlcpy COMMAND_LEN m)) in F.
  destruct (firstn 14 _) as [|a r]; [sf|]. inversion F; subst. sf.
Qed.
#[export] Hint Resolve safe_predefined_modes : safe.
Lemma safe_Channel_InitPredefined : safe (Channel_InitPredefined ).
Proof. intros. unfold Channel_InitPredefined. sf. Qed.
#[export] Hint Resolve safe_Channel_InitPredefined : safe.
(** ** Dispatch.v *)
Lemma safe_Validate_Prefix : forall (i : connid) (req : request), safe (Validate_Prefix i req).
Proof. intros. unfold Validate_Prefix. sf. Qed.
#[export] Hint Resolve safe_Validate_Prefix : safe.
Lemma safe_Handle_Numeric : forall (client : handle) (req : request), safe (Handle_Numeric client req).
Proof. intros. unfold Handle_Numeric. sf. Qed.
#[export] Hint Resolve safe_Handle_Numeric : safe.
