(* GENERATED by tools/gen_rel.py from tools/rel_info.spec *)
(** The information commands, and other functions that only write. *)
From Coq Require Import List Ascii String ZArith NArith Bool Lia.
From Coq Require Import Relations RelationClasses.
From Verif Require Import Bytes Match Lists Hash ParseReq State Messages Monad Core Write Info Chan Mode Msg Login Oper Server Dispatch Rel RelWrite.
Import ListNotations.
Local Open Scope m_scope.
Section R.
Context {X : state -> state -> Prop} {PO : PreOrder X}.
Lemma rel_mall : forall A (l : list A) f, (forall a, rel X (f a)) -> rel X (mall l f).
Proof. induction l; intros; simpl; [apply rel_ret|]. apply rel_bind; auto. intros []; auto. apply rel_ret. Qed.
Lemma rel_void : forall A (m : M A), rel X m -> rel X (void m).
Proof. intros. unfold void. apply rel_bind; auto. intro; apply rel_ret. Qed.
Lemma rel_whenB : forall b m, rel X m -> rel X (whenB b m).
Proof. intros. unfold whenB. destruct b; auto. apply rel_ret. Qed.
Lemma rel_line : forall f args, Forall (rel X) args -> rel X (line f args).
Proof. intros. apply rel_vsn. auto. Qed.
End R.
#[export] Hint Extern 0 (rel _ (mall _ _)) => (apply rel_mall; intro) : rel.
#[export] Hint Extern 0 (rel _ (void _)) => apply rel_void : rel.
#[export] Hint Extern 0 (rel _ (whenB _ _)) => apply rel_whenB : rel.
#[export] Hint Extern 0 (rel _ (line _ _)) => apply rel_line : rel.
Section R.
Context {X : state -> state -> Prop} {PO : PreOrder X} {WS : WrSub X}.
Lemma need_more_rel : forall (client : handle) (req : request), rel X (need_more client req).
Proof. intros. unfold need_more; rel_auto. Qed.
#[local] Hint Extern 0 (rel _ (need_more _ _)) => apply need_more_rel : rel.
Lemma no_sender_rel : forall (client : handle) (p : bytes), rel X (no_sender client p).
Proof. intros. unfold no_sender; rel_auto. Qed.
#[local] Hint Extern 0 (rel _ (no_sender _ _)) => apply no_sender_rel : rel.
Lemma with_sender_rel : forall (client : handle) (req : request) (k : handle -> M bool), (forall x0, rel X (k x0)) -> rel X (with_sender client req k).
Proof. intros. unfold with_sender; rel_go; auto. Qed.
#[local] Hint Extern 0 (rel _ (with_sender _ _ _)) => apply with_sender_rel : rel.
Lemma with_target_rel : forall (req : request) (n : nat) (from : handle) (k : handle -> M bool), (forall x0, rel X (k x0)) -> rel X (with_target req n from k).
Proof. intros. unfold with_target; rel_go; auto. Qed.
#[local] Hint Extern 0 (rel _ (with_target _ _ _ _)) => apply with_target_rel : rel.
Lemma with_prefix_rel : forall (client : handle) (req : request) (k : bytes -> M bool), (forall x0, rel X (k x0)) -> rel X (with_prefix client req k).
Proof. intros. unfold with_prefix; rel_go; auto. Qed.
#[local] Hint Extern 0 (rel _ (with_prefix _ _ _)) => apply with_prefix_rel : rel.
Lemma IRC_CheckListTooBig_rel : forall (from : handle) (count limit : Z) (name : bytes), rel X (IRC_CheckListTooBig from count limit name).
Proof. intros. unfold IRC_CheckListTooBig; rel_auto. Qed.
#[local] Hint Extern 0 (rel _ (IRC_CheckListTooBig _ _ _ _)) => apply IRC_CheckListTooBig_rel : rel.
Lemma Op_NoPrivileges_rel : forall (client : handle) (req : request), rel X (Op_NoPrivileges client req).
Proof. intros. unfold Op_NoPrivileges; rel_auto. Qed.
#[local] Hint Extern 0 (rel _ (Op_NoPrivileges _ _)) => apply Op_NoPrivileges_rel : rel.
Lemma Op_Check_rel : forall (client : handle) (req : request), rel X (Op_Check client req).
Proof. intros. unfold Op_Check; rel_auto. Qed.
#[local] Hint Extern 0 (rel _ (Op_Check _ _)) => apply Op_Check_rel : rel.
Lemma class_list_rel : forall (c : class), rel X (class_list c).
Proof. intros. unfold class_list; rel_auto. Qed.
#[local] Hint Extern 0 (rel _ (class_list _)) => apply class_list_rel : rel.
Lemma write_whoreply_rel : forall (client c : handle) (chan flags : bytes), rel X (write_whoreply client c chan flags).
Proof. intros. unfold write_whoreply; rel_auto. Qed.
#[local] Hint Extern 0 (rel _ (write_whoreply _ _ _ _)) => apply write_whoreply_rel : rel.
Lemma who_flags_qualifier_rel : forall (client : handle) (modes str : bytes) (len : nat), rel X (who_flags_qualifier client modes str len).
Proof. intros. unfold who_flags_qualifier; rel_auto. Qed.
#[local] Hint Extern 0 (rel _ (who_flags_qualifier _ _ _ _)) => apply who_flags_qualifier_rel : rel.
Lemma IRC_WHO_Channel_rel : forall (client : handle) (ch : chandle) (onlyops : bool), rel X (IRC_WHO_Channel client ch onlyops).
Proof. intros. unfold IRC_WHO_Channel; rel_auto. Qed.
#[local] Hint Extern 0 (rel _ (IRC_WHO_Channel _ _ _)) => apply IRC_WHO_Channel_rel : rel.
Lemma on_same_channel_rel : forall (a b : handle), rel X (on_same_channel a b).
Proof. intros. unfold on_same_channel; rel_auto. Qed.
#[local] Hint Extern 0 (rel _ (on_same_channel _ _)) => apply on_same_channel_rel : rel.
Lemma IRC_WHO_Mask_rel : forall (client : handle) (mask : option bytes) (onlyops : bool), rel X (IRC_WHO_Mask client mask onlyops).
Proof. intros. unfold IRC_WHO_Mask; rel_auto. Qed.
#[local] Hint Extern 0 (rel _ (IRC_WHO_Mask _ _ _)) => apply IRC_WHO_Mask_rel : rel.
Lemma whois_channels_rel : forall (client from c : handle), rel X (whois_channels client from c).
Proof. intros. unfold whois_channels; rel_auto. Qed.
#[local] Hint Extern 0 (rel _ (whois_channels _ _ _)) => apply whois_channels_rel : rel.
Lemma IRC_WHOIS_SendReply_rel : forall (client from c : handle), rel X (IRC_WHOIS_SendReply client from c).
Proof. intros. unfold IRC_WHOIS_SendReply; rel_auto. Qed.
#[local] Hint Extern 0 (rel _ (IRC_WHOIS_SendReply _ _ _)) => apply IRC_WHOIS_SendReply_rel : rel.
Lemma WHOWAS_EntryWrite_rel : forall (p : handle) (e : whowas), rel X (WHOWAS_EntryWrite p e).
Proof. intros. unfold WHOWAS_EntryWrite; rel_auto. Qed.
#[local] Hint Extern 0 (rel _ (WHOWAS_EntryWrite _ _)) => apply WHOWAS_EntryWrite_rel : rel.
Lemma forward_or_rel : forall (client : handle) (req : request) (n : nat) (fwd : handle -> handle -> M bool) (k : handle -> M bool), (forall x0 x1, rel X (fwd x0 x1)) -> (forall x0, rel X (k x0)) -> rel X (forward_or client req n fwd k).
Proof. intros. unfold forward_or; rel_go; auto. Qed.
#[local] Hint Extern 0 (rel _ (forward_or _ _ _ _ _)) => apply forward_or_rel : rel.
Lemma IRC_ADMIN_rel : forall (client : handle) (req : request), rel X (IRC_ADMIN client req).
Proof. intros. unfold IRC_ADMIN; rel_auto. Qed.
#[local] Hint Extern 0 (rel _ (IRC_ADMIN _ _)) => apply IRC_ADMIN_rel : rel.
Lemma IRC_INFO_rel : forall (client : handle) (req : request), rel X (IRC_INFO client req).
Proof. intros. unfold IRC_INFO; rel_auto. Qed.
#[local] Hint Extern 0 (rel _ (IRC_INFO _ _)) => apply IRC_INFO_rel : rel.
Lemma write_as_format_rel : forall (client : handle) (rpl : bytes), rel X (write_as_format client rpl).
Proof. intros. unfold write_as_format; rel_auto. Qed.
#[local] Hint Extern 0 (rel _ (write_as_format _ _)) => apply write_as_format_rel : rel.
Lemma IRC_ISON_rel : forall (client : handle) (req : request), rel X (IRC_ISON client req).
Proof. intros. unfold IRC_ISON; rel_auto. Qed.
#[local] Hint Extern 0 (rel _ (IRC_ISON _ _)) => apply IRC_ISON_rel : rel.
Lemma IRC_LINKS_rel : forall (client : handle) (req : request), rel X (IRC_LINKS client req).
Proof. intros. unfold IRC_LINKS; rel_auto. Qed.
#[local] Hint Extern 0 (rel _ (IRC_LINKS _ _)) => apply IRC_LINKS_rel : rel.
Lemma IRC_Send_LUSERS_rel : forall (h : handle), rel X (IRC_Send_LUSERS h).
Proof. intros. unfold IRC_Send_LUSERS; rel_auto. Qed.
#[local] Hint Extern 0 (rel _ (IRC_Send_LUSERS _)) => apply IRC_Send_LUSERS_rel : rel.
Lemma IRC_LUSERS_rel : forall (client : handle) (req : request), rel X (IRC_LUSERS client req).
Proof. intros. unfold IRC_LUSERS; rel_auto. Qed.
#[local] Hint Extern 0 (rel _ (IRC_LUSERS _ _)) => apply IRC_LUSERS_rel : rel.
Lemma IRC_SERVLIST_rel : forall (client : handle) (req : request), rel X (IRC_SERVLIST client req).
Proof. intros. unfold IRC_SERVLIST; rel_auto. Qed.
#[local] Hint Extern 0 (rel _ (IRC_SERVLIST _ _)) => apply IRC_SERVLIST_rel : rel.
Lemma IRC_Show_MOTD_rel : forall (h : handle), rel X (IRC_Show_MOTD h).
Proof. intros. unfold IRC_Show_MOTD; rel_auto. Qed.
#[local] Hint Extern 0 (rel _ (IRC_Show_MOTD _)) => apply IRC_Show_MOTD_rel : rel.
Lemma IRC_MOTD_rel : forall (client : handle) (req : request), rel X (IRC_MOTD client req).
Proof. intros. unfold IRC_MOTD; rel_auto. Qed.
#[local] Hint Extern 0 (rel _ (IRC_MOTD _ _)) => apply IRC_MOTD_rel : rel.
Lemma IRC_Send_NAMES_rel : forall (client : handle) (ch : chandle), rel X (IRC_Send_NAMES client ch).
Proof. intros. unfold IRC_Send_NAMES; rel_auto. Qed.
#[local] Hint Extern 0 (rel _ (IRC_Send_NAMES _ _)) => apply IRC_Send_NAMES_rel : rel.
Lemma IRC_NAMES_rel : forall (client : handle) (req : request), rel X (IRC_NAMES client req).
Proof. intros. unfold IRC_NAMES; rel_auto. Qed.
#[local] Hint Extern 0 (rel _ (IRC_NAMES _ _)) => apply IRC_NAMES_rel : rel.
Lemma stats_lines_rel : forall (from : handle) (query : ascii) (l : mlist), rel X (stats_lines from query l).
Proof. intros. unfold stats_lines; rel_auto. Qed.
#[local] Hint Extern 0 (rel _ (stats_lines _ _ _)) => apply stats_lines_rel : rel.
Lemma stats_links_rel : forall (client from : handle) (more : bool), rel X (stats_links client from more).
Proof. intros. unfold stats_links; rel_auto. Qed.
#[local] Hint Extern 0 (rel _ (stats_links _ _ _)) => apply stats_links_rel : rel.
Lemma IRC_STATS_rel : forall (client : handle) (req : request), rel X (IRC_STATS client req).
Proof. intros. unfold IRC_STATS; rel_auto. Qed.
#[local] Hint Extern 0 (rel _ (IRC_STATS _ _)) => apply IRC_STATS_rel : rel.
Lemma IRC_SUMMON_rel : forall (client : handle) (unused1 : request), rel X (IRC_SUMMON client unused1).
Proof. intros. unfold IRC_SUMMON; rel_auto. Qed.
#[local] Hint Extern 0 (rel _ (IRC_SUMMON _ _)) => apply IRC_SUMMON_rel : rel.
Lemma IRC_TIME_rel : forall (client : handle) (req : request), rel X (IRC_TIME client req).
Proof. intros. unfold IRC_TIME; rel_auto. Qed.
#[local] Hint Extern 0 (rel _ (IRC_TIME _ _)) => apply IRC_TIME_rel : rel.
Lemma IRC_USERHOST_rel : forall (client : handle) (req : request), rel X (IRC_USERHOST client req).
Proof. intros. unfold IRC_USERHOST; rel_auto. Qed.
#[local] Hint Extern 0 (rel _ (IRC_USERHOST _ _)) => apply IRC_USERHOST_rel : rel.
Lemma IRC_USERS_rel : forall (client : handle) (unused1 : request), rel X (IRC_USERS client unused1).
Proof. intros. unfold IRC_USERS; rel_auto. Qed.
#[local] Hint Extern 0 (rel _ (IRC_USERS _ _)) => apply IRC_USERS_rel : rel.
Lemma IRC_Send_ISUPPORT_rel : forall (h : handle), rel X (IRC_Send_ISUPPORT h).
Proof. intros. unfold IRC_Send_ISUPPORT; rel_auto. Qed.
#[local] Hint Extern 0 (rel _ (IRC_Send_ISUPPORT _)) => apply IRC_Send_ISUPPORT_rel : rel.
Lemma IRC_VERSION_rel : forall (client : handle) (req : request), rel X (IRC_VERSION client req).
Proof. intros. unfold IRC_VERSION; rel_auto. Qed.
#[local] Hint Extern 0 (rel _ (IRC_VERSION _ _)) => apply IRC_VERSION_rel : rel.
Lemma IRC_WHO_rel : forall (client : handle) (req : request), rel X (IRC_WHO client req).
Proof. intros. unfold IRC_WHO; rel_auto. Qed.
#[local] Hint Extern 0 (rel _ (IRC_WHO _ _)) => apply IRC_WHO_rel : rel.
Lemma whois_wild_rel : forall (client from : handle) (query : bytes) (n : Z), rel X (whois_wild client from query n).
Proof. intros. unfold whois_wild; rel_auto. Qed.
#[local] Hint Extern 0 (rel _ (whois_wild _ _ _ _)) => apply whois_wild_rel : rel.
Lemma whois_loop_rel : forall (client from : handle) (req : request) (remote : bool) (qs : list bytes) (got : bool) (n : Z), rel X (whois_loop client from req remote qs got n).
Proof. intros. revert got n; induction qs; intros; cbn [whois_loop]; rel_auto. Qed.
#[local] Hint Extern 0 (rel _ (whois_loop _ _ _ _ _ _ _)) => apply whois_loop_rel : rel.
Lemma IRC_WHOIS_rel : forall (client : handle) (req : request), rel X (IRC_WHOIS client req).
Proof. intros. unfold IRC_WHOIS; rel_auto. Qed.
#[local] Hint Extern 0 (rel _ (IRC_WHOIS _ _)) => apply IRC_WHOIS_rel : rel.
Lemma whowas_scan_rel : forall (n : nat) (p : handle) (nick : bytes) (max last i nc count : Z), rel X (whowas_scan n p nick max last i nc count).
Proof. intros. revert i nc count; induction n; intros; cbn [whowas_scan]; rel_auto. Qed.
#[local] Hint Extern 0 (rel _ (whowas_scan _ _ _ _ _ _ _ _)) => apply whowas_scan_rel : rel.
Lemma whowas_loop_rel : forall (p : handle) (nicks : list bytes) (max last i count : Z), rel X (whowas_loop p nicks max last i count).
Proof. intros. revert i count; induction nicks; intros; cbn [whowas_loop]; rel_auto. Qed.
#[local] Hint Extern 0 (rel _ (whowas_loop _ _ _ _ _ _)) => apply whowas_loop_rel : rel.
Lemma IRC_WHOWAS_rel : forall (client : handle) (req : request), rel X (IRC_WHOWAS client req).
Proof. intros. unfold IRC_WHOWAS; rel_auto. Qed.
#[local] Hint Extern 0 (rel _ (IRC_WHOWAS _ _)) => apply IRC_WHOWAS_rel : rel.
Lemma Channel_FirstChannelOf_rel : forall (h : handle), rel X (Channel_FirstChannelOf h).
Proof. intros. unfold Channel_FirstChannelOf; rel_auto. Qed.
#[local] Hint Extern 0 (rel _ (Channel_FirstChannelOf _)) => apply Channel_FirstChannelOf_rel : rel.
Lemma cb_join_forward_rel : forall (to pref : handle) (data : bytes), rel X (cb_join_forward to pref data).
Proof. intros. unfold cb_join_forward; rel_auto. Qed.
#[local] Hint Extern 0 (rel _ (cb_join_forward _ _ _)) => apply cb_join_forward_rel : rel.
Lemma join_forward_rel : forall (client target : handle) (ch : chandle) (channame : bytes), rel X (join_forward client target ch channame).
Proof. intros. unfold join_forward; rel_auto. Qed.
#[local] Hint Extern 0 (rel _ (join_forward _ _ _ _)) => apply join_forward_rel : rel.
Lemma IRC_Send_Channel_Info_rel : forall (client : handle) (ch : chandle), rel X (IRC_Send_Channel_Info client ch).
Proof. intros. unfold IRC_Send_Channel_Info; rel_auto. Qed.
#[local] Hint Extern 0 (rel _ (IRC_Send_Channel_Info _ _)) => apply IRC_Send_Channel_Info_rel : rel.
Lemma list_chans_rel : forall (from : handle) (pattern : bytes) (l : list chandle) (count : Z), rel X (list_chans from pattern l count).
Proof. intros. revert count; induction l; intros; cbn [list_chans]; rel_auto. Qed.
#[local] Hint Extern 0 (rel _ (list_chans _ _ _ _)) => apply list_chans_rel : rel.
Lemma list_pats_rel : forall (from : handle) (pats : list bytes) (count : Z), rel X (list_pats from pats count).
Proof. intros. revert count; induction pats; intros; cbn [list_pats]; rel_auto. Qed.
#[local] Hint Extern 0 (rel _ (list_pats _ _ _)) => apply list_pats_rel : rel.
Lemma IRC_LIST_rel : forall (client : handle) (req : request), rel X (IRC_LIST client req).
Proof. intros. unfold IRC_LIST; rel_auto. Qed.
#[local] Hint Extern 0 (rel _ (IRC_LIST _ _)) => apply IRC_LIST_rel : rel.
Lemma Mode_Limit_Reached_rel : forall (h : handle) (count : Z), rel X (Mode_Limit_Reached h count).
Proof. intros. unfold Mode_Limit_Reached; rel_auto. Qed.
#[local] Hint Extern 0 (rel _ (Mode_Limit_Reached _ _)) => apply Mode_Limit_Reached_rel : rel.
Lemma next_mode_rel : forall (pos : bytes) (rest : list bytes), rel X (next_mode pos rest).
Proof. intros. unfold next_mode; rel_auto. Qed.
#[local] Hint Extern 0 (rel _ (next_mode _ _)) => apply next_mode_rel : rel.
Lemma user_modes_reply_rel : forall (client origin target : handle) (the_modes : bytes) (ok hh : bool), rel X (user_modes_reply client origin target the_modes ok hh).
Proof. intros. unfold user_modes_reply; rel_auto. Qed.
#[local] Hint Extern 0 (rel _ (user_modes_reply _ _ _ _ _ _)) => apply user_modes_reply_rel : rel.
Lemma Channel_Mode_Answer_Request_rel : forall (origin : handle) (ch : chandle), rel X (Channel_Mode_Answer_Request origin ch).
Proof. intros. unfold Channel_Mode_Answer_Request; rel_auto. Qed.
#[local] Hint Extern 0 (rel _ (Channel_Mode_Answer_Request _ _)) => apply Channel_Mode_Answer_Request_rel : rel.
Lemma Send_ListChange_rel : forall (add : bool) (mode : ascii) (pref client : handle) (ch : chandle) (mask : bytes), rel X (Send_ListChange add mode pref client ch mask).
Proof. intros. unfold Send_ListChange; rel_auto. Qed.
#[local] Hint Extern 0 (rel _ (Send_ListChange _ _ _ _ _ _)) => apply Send_ListChange_rel : rel.
Lemma chan_advance_rel : forall (st : cmst), rel X (chan_advance st).
Proof. intros. unfold chan_advance; rel_auto. Qed.
#[local] Hint Extern 0 (rel _ (chan_advance _)) => apply chan_advance_rel : rel.
Lemma chan_modes_reply_rel : forall (client origin : handle) (ch : chandle) (the_modes the_args : bytes) (ok : bool), rel X (chan_modes_reply client origin ch the_modes the_args ok).
Proof. intros. unfold chan_modes_reply; rel_auto. Qed.
#[local] Hint Extern 0 (rel _ (chan_modes_reply _ _ _ _ _ _)) => apply chan_modes_reply_rel : rel.
Lemma target_match_rel : forall (mt : mtarget) (c : handle), rel X (target_match mt c).
Proof. intros. unfold target_match; rel_auto. Qed.
#[local] Hint Extern 0 (rel _ (target_match _ _)) => apply target_match_rel : rel.
Lemma find_target_rel : forall (t : bytes), rel X (find_target t).
Proof. intros. unfold find_target; rel_auto. Qed.
#[local] Hint Extern 0 (rel _ (find_target _)) => apply find_target_rel : rel.
Lemma Send_Message_Mask_rel : forall (from : handle) (command mask message : bytes) (errors : bool), rel X (Send_Message_Mask from command mask message errors).
Proof. intros. unfold Send_Message_Mask; rel_auto. Qed.
#[local] Hint Extern 0 (rel _ (Send_Message_Mask _ _ _ _ _)) => apply Send_Message_Mask_rel : rel.
Lemma send_to_client_rel : forall (client from c : handle) (forcetype : ctype) (errors : bool) (command target message : bytes), rel X (send_to_client client from c forcetype errors command target message).
Proof. intros. unfold send_to_client; rel_auto. Qed.
#[local] Hint Extern 0 (rel _ (send_to_client _ _ _ _ _ _ _ _)) => apply send_to_client_rel : rel.
Lemma IRC_TRACE_rel : forall (client : handle) (req : request), rel X (IRC_TRACE client req).
Proof. intros. unfold IRC_TRACE; rel_auto. Qed.
#[local] Hint Extern 0 (rel _ (IRC_TRACE _ _)) => apply IRC_TRACE_rel : rel.
Lemma help_lines_rel : forall (client : handle) (topic : bytes) (l : list bytes) (in_article : bool) (n : nat), rel X (help_lines client topic l in_article n).
Proof. intros. revert in_article n; induction l; intros; cbn [help_lines]; rel_auto. Qed.
#[local] Hint Extern 0 (rel _ (help_lines _ _ _ _ _)) => apply help_lines_rel : rel.
Lemma Help_rel : forall (client : handle) (topic : bytes), rel X (Help client topic).
Proof. intros. unfold Help; rel_auto. Qed.
#[local] Hint Extern 0 (rel _ (Help _ _)) => apply Help_rel : rel.
Lemma IRC_HELP_rel : forall (client : handle) (req : request), rel X (IRC_HELP client req).
Proof. intros. unfold IRC_HELP; rel_auto. Qed.
#[local] Hint Extern 0 (rel _ (IRC_HELP _ _)) => apply IRC_HELP_rel : rel.
Lemma find_server_rel : forall (f : cserver -> bool), rel X (find_server f).
Proof. intros. unfold find_server; rel_auto. Qed.
#[local] Hint Extern 0 (rel _ (find_server _)) => apply find_server_rel : rel.
Lemma Bad_OperPass_rel : forall (client : handle) (token msg : bytes), rel X (Bad_OperPass client token msg).
Proof. intros. unfold Bad_OperPass; rel_auto. Qed.
#[local] Hint Extern 0 (rel _ (Bad_OperPass _ _ _)) => apply Bad_OperPass_rel : rel.
Lemma oper_only_rel : forall (client : handle) (req : request) (k : M bool), rel X k -> rel X (oper_only client req k).
Proof. intros. unfold oper_only; rel_go; auto. Qed.
#[local] Hint Extern 0 (rel _ (oper_only _ _ _)) => apply oper_only_rel : rel.
Lemma connect_target_rel : forall (client : handle) (req : request), rel X (connect_target client req).
Proof. intros. unfold connect_target; rel_auto. Qed.
#[local] Hint Extern 0 (rel _ (connect_target _ _)) => apply connect_target_rel : rel.
Lemma IRC_WALLOPS_rel : forall (client : handle) (req : request), rel X (IRC_WALLOPS client req).
Proof. intros. unfold IRC_WALLOPS; rel_auto. Qed.
#[local] Hint Extern 0 (rel _ (IRC_WALLOPS _ _)) => apply IRC_WALLOPS_rel : rel.
Lemma njoin_nick_rel : forall (xop : bool) (ch : chandle) (cl : handle) (str : bytes), rel X (njoin_nick xop ch cl str).
Proof. intros. unfold njoin_nick; rel_auto. Qed.
#[local] Hint Extern 0 (rel _ (njoin_nick _ _ _ _)) => apply njoin_nick_rel : rel.
Lemma announce_members_rel : forall (client : handle) (ch : chandle) (njoin xop : bool) (name start : bytes) (l : list handle) (str : bytes), rel X (announce_members client ch njoin xop name start l str).
Proof. intros. revert str; induction l; intros; cbn [announce_members]; rel_go. Qed.
#[local] Hint Extern 0 (rel _ (announce_members _ _ _ _ _ _ _ _)) => apply announce_members_rel : rel.
Lemma Announce_Channel_rel : forall (client : handle) (ch : chandle), rel X (Announce_Channel client ch).
Proof. intros. unfold Announce_Channel; rel_auto. Qed.
#[local] Hint Extern 0 (rel _ (Announce_Channel _ _)) => apply Announce_Channel_rel : rel.
Lemma Announce_Server_rel : forall (client server : handle), rel X (Announce_Server client server).
Proof. intros. unfold Announce_Server, server_args; rel_auto. Qed.
#[local] Hint Extern 0 (rel _ (Announce_Server _ _)) => apply Announce_Server_rel : rel.
Lemma Send_List_rel : forall (client : handle) (ch : chandle) (l : mlist) (ty : ascii), rel X (Send_List client ch l ty).
Proof. intros. unfold Send_List; rel_auto. Qed.
#[local] Hint Extern 0 (rel _ (Send_List _ _ _ _)) => apply Send_List_rel : rel.
Lemma Synchronize_Lists_rel : forall (client : handle), rel X (Synchronize_Lists client).
Proof. intros. unfold Synchronize_Lists; rel_auto. Qed.
#[local] Hint Extern 0 (rel _ (Synchronize_Lists _)) => apply Synchronize_Lists_rel : rel.
Lemma Send_CHANINFO_rel : forall (client : handle) (ch : chandle), rel X (Send_CHANINFO client ch).
Proof. intros. unfold Send_CHANINFO; rel_auto. Qed.
#[local] Hint Extern 0 (rel _ (Send_CHANINFO _ _)) => apply Send_CHANINFO_rel : rel.
Lemma IRC_PING_rel : forall (client : handle) (req : request), rel X (IRC_PING client req).
Proof. intros. unfold IRC_PING; rel_auto. Qed.
#[local] Hint Extern 0 (rel _ (IRC_PING _ _)) => apply IRC_PING_rel : rel.
Lemma Handle_CAP_LIST_rel : forall (client : handle), rel X (Handle_CAP_LIST client).
Proof. intros. unfold Handle_CAP_LIST; rel_auto. Qed.
#[local] Hint Extern 0 (rel _ (Handle_CAP_LIST _)) => apply Handle_CAP_LIST_rel : rel.
End R.
#[export] Hint Extern 0 (rel _ (need_more _ _)) => apply need_more_rel : rel.
#[export] Hint Extern 0 (rel _ (no_sender _ _)) => apply no_sender_rel : rel.
#[export] Hint Extern 0 (rel _ (with_sender _ _ _)) => apply with_sender_rel : rel.
#[export] Hint Extern 0 (rel _ (with_target _ _ _ _)) => apply with_target_rel : rel.
#[export] Hint Extern 0 (rel _ (with_prefix _ _ _)) => apply with_prefix_rel : rel.
#[export] Hint Extern 0 (rel _ (IRC_CheckListTooBig _ _ _ _)) => apply IRC_CheckListTooBig_rel : rel.
#[export] Hint Extern 0 (rel _ (Op_NoPrivileges _ _)) => apply Op_NoPrivileges_rel : rel.
#[export] Hint Extern 0 (rel _ (Op_Check _ _)) => apply Op_Check_rel : rel.
#[export] Hint Extern 0 (rel _ (class_list _)) => apply class_list_rel : rel.
#[export] Hint Extern 0 (rel _ (write_whoreply _ _ _ _)) => apply write_whoreply_rel : rel.
#[export] Hint Extern 0 (rel _ (who_flags_qualifier _ _ _ _)) => apply who_flags_qualifier_rel : rel.
#[export] Hint Extern 0 (rel _ (IRC_WHO_Channel _ _ _)) => apply IRC_WHO_Channel_rel : rel.
#[export] Hint Extern 0 (rel _ (on_same_channel _ _)) => apply on_same_channel_rel : rel.
#[export] Hint Extern 0 (rel _ (IRC_WHO_Mask _ _ _)) => apply IRC_WHO_Mask_rel : rel.
#[export] Hint Extern 0 (rel _ (whois_channels _ _ _)) => apply whois_channels_rel : rel.
#[export] Hint Extern 0 (rel _ (IRC_WHOIS_SendReply _ _ _)) => apply IRC_WHOIS_SendReply_rel : rel.
#[export] Hint Extern 0 (rel _ (WHOWAS_EntryWrite _ _)) => apply WHOWAS_EntryWrite_rel : rel.
#[export] Hint Extern 0 (rel _ (forward_or _ _ _ _ _)) => apply forward_or_rel : rel.
#[export] Hint Extern 0 (rel _ (IRC_ADMIN _ _)) => apply IRC_ADMIN_rel : rel.
#[export] Hint Extern 0 (rel _ (IRC_INFO _ _)) => apply IRC_INFO_rel : rel.
#[export] Hint Extern 0 (rel _ (write_as_format _ _)) => apply write_as_format_rel : rel.
#[export] Hint Extern 0 (rel _ (IRC_ISON _ _)) => apply IRC_ISON_rel : rel.
#[export] Hint Extern 0 (rel _ (IRC_LINKS _ _)) => apply IRC_LINKS_rel : rel.
#[export] Hint Extern 0 (rel _ (IRC_Send_LUSERS _)) => apply IRC_Send_LUSERS_rel : rel.
#[export] Hint Extern 0 (rel _ (IRC_LUSERS _ _)) => apply IRC_LUSERS_rel : rel.
#[export] Hint Extern 0 (rel _ (IRC_SERVLIST _ _)) => apply IRC_SERVLIST_rel : rel.
#[export] Hint Extern 0 (rel _ (IRC_Show_MOTD _)) => apply IRC_Show_MOTD_rel : rel.
#[export] Hint Extern 0 (rel _ (IRC_MOTD _ _)) => apply IRC_MOTD_rel : rel.
#[export] Hint Extern 0 (rel _ (IRC_Send_NAMES _ _)) => apply IRC_Send_NAMES_rel : rel.
#[export] Hint Extern 0 (rel _ (IRC_NAMES _ _)) => apply IRC_NAMES_rel : rel.
#[export] Hint Extern 0 (rel _ (stats_lines _ _ _)) => apply stats_lines_rel : rel.
#[export] Hint Extern 0 (rel _ (stats_links _ _ _)) => apply stats_links_rel : rel.
#[export] Hint Extern 0 (rel _ (IRC_STATS _ _)) => apply IRC_STATS_rel : rel.
#[export] Hint Extern 0 (rel _ (IRC_SUMMON _ _)) => apply IRC_SUMMON_rel : rel.
#[export] Hint Extern 0 (rel _ (IRC_TIME _ _)) => apply IRC_TIME_rel : rel.
#[export] Hint Extern 0 (rel _ (IRC_USERHOST _ _)) => apply IRC_USERHOST_rel : rel.
#[export] Hint Extern 0 (rel _ (IRC_USERS _ _)) => apply IRC_USERS_rel : rel.
#[export] Hint Extern 0 (rel _ (IRC_Send_ISUPPORT _)) => apply IRC_Send_ISUPPORT_rel : rel.
#[export] Hint Extern 0 (rel _ (IRC_VERSION _ _)) => apply IRC_VERSION_rel : rel.
#[export] Hint Extern 0 (rel _ (IRC_WHO _ _)) => apply IRC_WHO_rel : rel.
#[export] Hint Extern 0 (rel _ (whois_wild _ _ _ _)) => apply whois_wild_rel : rel.
#[export] Hint Extern 0 (rel _ (whois_loop _ _ _ _ _ _ _)) => apply whois_loop_rel : rel.
#[export] Hint Extern 0 (rel _ (IRC_WHOIS _ _)) => apply IRC_WHOIS_rel : rel.
#[export] Hint Extern 0 (rel _ (whowas_scan _ _ _ _ _ _ _ _)) => apply whowas_scan_rel : rel.
#[export] Hint Extern 0 (rel _ (whowas_loop _ _ _ _ _ _)) => apply whowas_loop_rel : rel.
#[export] Hint Extern 0 (rel _ (IRC_WHOWAS _ _)) => apply IRC_WHOWAS_rel : rel.
#[export] Hint Extern 0 (rel _ (Channel_FirstChannelOf _)) => apply Channel_FirstChannelOf_rel : rel.
#[export] Hint Extern 0 (rel _ (cb_join_forward _ _ _)) => apply cb_join_forward_rel : rel.
#[export] Hint Extern 0 (rel _ (join_forward _ _ _ _)) => apply join_forward_rel : rel.
#[export] Hint Extern 0 (rel _ (IRC_Send_Channel_Info _ _)) => apply IRC_Send_Channel_Info_rel : rel.
#[export] Hint Extern 0 (rel _ (list_chans _ _ _ _)) => apply list_chans_rel : rel.
#[export] Hint Extern 0 (rel _ (list_pats _ _ _)) => apply list_pats_rel : rel.
#[export] Hint Extern 0 (rel _ (IRC_LIST _ _)) => apply IRC_LIST_rel : rel.
#[export] Hint Extern 0 (rel _ (Mode_Limit_Reached _ _)) => apply Mode_Limit_Reached_rel : rel.
#[export] Hint Extern 0 (rel _ (next_mode _ _)) => apply next_mode_rel : rel.
#[export] Hint Extern 0 (rel _ (user_modes_reply _ _ _ _ _ _)) => apply user_modes_reply_rel : rel.
#[export] Hint Extern 0 (rel _ (Channel_Mode_Answer_Request _ _)) => apply Channel_Mode_Answer_Request_rel : rel.
#[export] Hint Extern 0 (rel _ (Send_ListChange _ _ _ _ _ _)) => apply Send_ListChange_rel : rel.
#[export] Hint Extern 0 (rel _ (chan_advance _)) => apply chan_advance_rel : rel.
#[export] Hint Extern 0 (rel _ (chan_modes_reply _ _ _ _ _ _)) => apply chan_modes_reply_rel : rel.
#[export] Hint Extern 0 (rel _ (target_match _ _)) => apply target_match_rel : rel.
#[export] Hint Extern 0 (rel _ (find_target _)) => apply find_target_rel : rel.
#[export] Hint Extern 0 (rel _ (Send_Message_Mask _ _ _ _ _)) => apply Send_Message_Mask_rel : rel.
#[export] Hint Extern 0 (rel _ (send_to_client _ _ _ _ _ _ _ _)) => apply send_to_client_rel : rel.
#[export] Hint Extern 0 (rel _ (IRC_TRACE _ _)) => apply IRC_TRACE_rel : rel.
#[export] Hint Extern 0 (rel _ (help_lines _ _ _ _ _)) => apply help_lines_rel : rel.
#[export] Hint Extern 0 (rel _ (Help _ _)) => apply Help_rel : rel.
#[export] Hint Extern 0 (rel _ (IRC_HELP _ _)) => apply IRC_HELP_rel : rel.
#[export] Hint Extern 0 (rel _ (find_server _)) => apply find_server_rel : rel.
#[export] Hint Extern 0 (rel _ (Bad_OperPass _ _ _)) => apply Bad_OperPass_rel : rel.
#[export] Hint Extern 0 (rel _ (oper_only _ _ _)) => apply oper_only_rel : rel.
#[export] Hint Extern 0 (rel _ (connect_target _ _)) => apply connect_target_rel : rel.
#[export] Hint Extern 0 (rel _ (IRC_WALLOPS _ _)) => apply IRC_WALLOPS_rel : rel.
#[export] Hint Extern 0 (rel _ (njoin_nick _ _ _ _)) => apply njoin_nick_rel : rel.
#[export] Hint Extern 0 (rel _ (announce_members _ _ _ _ _ _ _ _)) => apply announce_members_rel : rel.
#[export] Hint Extern 0 (rel _ (Announce_Channel _ _)) => apply Announce_Channel_rel : rel.
#[export] Hint Extern 0 (rel _ (Announce_Server _ _)) => apply Announce_Server_rel : rel.
#[export] Hint Extern 0 (rel _ (Send_List _ _ _ _)) => apply Send_List_rel : rel.
#[export] Hint Extern 0 (rel _ (Synchronize_Lists _)) => apply Synchronize_Lists_rel : rel.
#[export] Hint Extern 0 (rel _ (Send_CHANINFO _ _)) => apply Send_CHANINFO_rel : rel.
#[export] Hint Extern 0 (rel _ (IRC_PING _ _)) => apply IRC_PING_rel : rel.
#[export] Hint Extern 0 (rel _ (Handle_CAP_LIST _)) => apply Handle_CAP_LIST_rel : rel.
