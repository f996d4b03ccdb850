(** Generated by tools/gen_clv.py from Info.v: its functions keep strings clean (C08). *)
From Coq Require Import List Ascii String ZArith NArith Bool Lia Arith.
From Verif Require Import Bytes Strl Match Lists Hash ParseReq State Messages Monad Core Write Info Clean0 CleanRec Clean CleanTac CleanLists CleanParseReq CleanCore CleanWrite .
Import ListNotations.
Local Open Scope m_scope.

Lemma clv_mall : forall A (C : Cl A) (l : list A) f, clv l -> (forall a, clv a -> clv (f a)) -> clv (mall l f).
Proof.
  intros A C l f Hl Hf. induction l as [|a l IH]; cbn [mall]; [apply clv_ret; exact I|].
  apply clv_inv in Hl. eapply clv_bind; [apply Hf; tauto|]. intros b _. destruct b; [apply IH; tauto|apply clv_ret; exact I].
Qed.
#[export] Hint Extern 0 (@clv _ _ (mall _ _)) => (match goal with |- @clv _ _ (@mall ?A ?l ?f) => let C := inst A in apply (clv_mall A C l f); [|cl_intro; cbv beta] end) : clv.
Lemma clv_void : forall A (C : Cl A) (m : M A), clv m -> clv (void m).
Proof. intros. unfold void. eapply clv_bind; [eassumption|]. intros. apply clv_ret. exact I. Qed.
#[export] Hint Extern 0 (@clv _ _ (void _)) => (match goal with |- @clv _ _ (@void ?A ?m) => let C := inst A in apply (clv_void A C m) end) : clv.
Lemma clv_need_more : forall (client : handle) (req : request), clv req -> clv (need_more client req).
Proof. intros. unfold need_more. cl_all. Qed.
#[export] Hint Resolve clv_need_more : clv.
Lemma clv_no_sender : forall (client : handle) (p : bytes), clv p -> clv (no_sender client p).
Proof. intros. unfold no_sender. cl_all. Qed.
#[export] Hint Resolve clv_no_sender : clv.
Lemma clv_with_sender : forall (client : handle) (req : request) (k : handle -> M bool), clv req -> clv k -> clv (with_sender client req k).
Proof. intros. unfold with_sender. cl_all. Qed.
#[export] Hint Resolve clv_with_sender : clv.
Lemma clv_with_target : forall (req : request) (n : nat) (from : handle) (k : handle -> M bool), clv req -> clv k -> clv (with_target req n from k).
Proof. intros. unfold with_target. cl_all. Qed.
#[export] Hint Resolve clv_with_target : clv.
Lemma clv_IRC_CheckListTooBig : forall (from : handle) (count : Z) (limit : Z) (name : bytes), clv name -> clv (IRC_CheckListTooBig from count limit name).
Proof. intros. unfold IRC_CheckListTooBig. cl_all. Qed.
#[export] Hint Resolve clv_IRC_CheckListTooBig : clv.
Lemma clv_Op_NoPrivileges : forall (client : handle) (req : request), clv req -> clv (Op_NoPrivileges client req).
Proof. intros. unfold Op_NoPrivileges. cl_all. Qed.
#[export] Hint Resolve clv_Op_NoPrivileges : clv.
Lemma clv_Op_Check : forall (client : handle) (req : request), clv req -> clv (Op_Check client req).
Proof. intros. unfold Op_Check. cl_all. Qed.
#[export] Hint Resolve clv_Op_Check : clv.
Lemma clv_class_list : forall (c : class), clv (class_list c).
Proof. intros []; unfold class_list; cl_auto. Qed.
#[export] Hint Resolve clv_class_list : clv.
Lemma clv_set_class : forall (c : class) (l : mlist), clv l -> clv (set_class c l).
Proof. intros []; unfold set_class; cl_auto. Qed.
#[export] Hint Resolve clv_set_class : clv.
Lemma clv_Class_GetMemberReason : forall (c : class) (h : handle), clv (Class_GetMemberReason c h).
Proof. intros. unfold Class_GetMemberReason. cl_all. Qed.
#[export] Hint Resolve clv_Class_GetMemberReason : clv.
Lemma clv_Class_HandleServerBans : forall (h : handle), clv (Class_HandleServerBans h).
Proof. intros. unfold Class_HandleServerBans. cl_all. Qed.
#[export] Hint Resolve clv_Class_HandleServerBans : clv.
Lemma clv_Class_AddMask : forall (c : class) (pattern : bytes) (valid : Z) (reason : bytes), clv pattern -> clv reason -> clv (Class_AddMask c pattern valid reason).
Proof. intros. unfold Class_AddMask. cl_all. Qed.
#[export] Hint Resolve clv_Class_AddMask : clv.
Lemma clv_Class_DeleteMask : forall (c : class) (pattern : bytes), clv pattern -> clv (Class_DeleteMask c pattern).
Proof. intros. unfold Class_DeleteMask. cl_all. Qed.
#[export] Hint Resolve clv_Class_DeleteMask : clv.
Lemma clv_Class_Expire_one : forall (c : class) (name : bytes), clv name -> clv (Class_Expire_one c name).
Proof. intros. unfold Class_Expire_one. cl_all. Qed.
#[export] Hint Resolve clv_Class_Expire_one : clv.
Lemma clv_Class_Expire : clv Class_Expire.
Proof. intros. unfold Class_Expire. cl_all. Qed.
#[export] Hint Resolve clv_Class_Expire : clv.
Lemma clv_PACKAGE_NAME : clv PACKAGE_NAME.
Proof. intros. unfold PACKAGE_NAME. cl_all. Qed.
#[export] Hint Resolve clv_PACKAGE_NAME : clv.
Lemma clv_PACKAGE_VERSION : clv PACKAGE_VERSION.
Proof. intros. unfold PACKAGE_VERSION. cl_all. Qed.
#[export] Hint Resolve clv_PACKAGE_VERSION : clv.
Lemma clv_HOST_CPU : clv HOST_CPU.
Proof. intros. unfold HOST_CPU. cl_all. Qed.
#[export] Hint Resolve clv_HOST_CPU : clv.
Lemma clv_HOST_VENDOR : clv HOST_VENDOR.
Proof. intros. unfold HOST_VENDOR. cl_all. Qed.
#[export] Hint Resolve clv_HOST_VENDOR : clv.
Lemma clv_HOST_OS : clv HOST_OS.
Proof. intros. unfold HOST_OS. cl_all. Qed.
#[export] Hint Resolve clv_HOST_OS : clv.
Lemma clv_NGIRCd_Version : clv NGIRCd_Version.
Proof. intros. unfold NGIRCd_Version. cl_all. Qed.
#[export] Hint Resolve clv_NGIRCd_Version : clv.
Lemma clv_NGIRCd_VersionAddition : clv NGIRCd_VersionAddition.
Proof. intros. unfold NGIRCd_VersionAddition. cl_all. Qed.
#[export] Hint Resolve clv_NGIRCd_VersionAddition : clv.
Lemma clv_NGIRCd_DebugLevel : clv NGIRCd_DebugLevel.
Proof. intros. unfold NGIRCd_DebugLevel. cl_all. Qed.
#[export] Hint Resolve clv_NGIRCd_DebugLevel : clv.
Lemma clv_BIRTHDATE : clv BIRTHDATE.
Proof. intros. unfold BIRTHDATE. cl_all. Qed.
#[export] Hint Resolve clv_BIRTHDATE : clv.
Lemma clv_USERMODES : clv USERMODES.
Proof. intros. unfold USERMODES. cl_all. Qed.
#[export] Hint Resolve clv_USERMODES : clv.
Lemma clv_CHANMODES : clv CHANMODES.
Proof. intros. unfold CHANMODES. cl_all. Qed.
#[export] Hint Resolve clv_CHANMODES : clv.
Lemma clv_CHANTYPES : clv CHANTYPES.
Proof. intros. unfold CHANTYPES. cl_all. Qed.
#[export] Hint Resolve clv_CHANTYPES : clv.
Lemma clv_line : forall (f : string) (args : list marg), clv (B f) -> clv args -> clv (line f args).
Proof. intros. unfold line. cl_all. Qed.
#[export] Hint Resolve clv_line : clv.
Lemma clv_cat : forall (d : bytes) (s : bytes), clv d -> clv s -> clv (cat d s).
Proof. intros. unfold cat. cl_all. Qed.
#[export] Hint Resolve clv_cat : clv.
Lemma clv_write_whoreply : forall (client : handle) (c : handle) (chan : bytes) (flags : bytes), clv chan -> clv flags -> clv (write_whoreply client c chan flags).
Proof. intros. unfold write_whoreply. cl_all. Qed.
#[export] Hint Resolve clv_write_whoreply : clv.
Lemma clv_who_flags : forall (multi : bool) (modes : bytes), clv modes -> clv (who_flags multi modes).
Proof. intros. unfold who_flags. cl_all. Qed.
#[export] Hint Resolve clv_who_flags : clv.
Lemma clv_who_flags_qualifier : forall (client : handle) (modes : bytes) (str : bytes) (len : nat), clv modes -> clv str -> clv (who_flags_qualifier client modes str len).
Proof. intros. unfold who_flags_qualifier. cl_all. Qed.
#[export] Hint Resolve clv_who_flags_qualifier : clv.
Lemma clv_IRC_WHO_Channel : forall (client : handle) (ch : chandle) (onlyops : bool), clv (IRC_WHO_Channel client ch onlyops).
Proof. intros. unfold IRC_WHO_Channel. cl_all. Qed.
#[export] Hint Resolve clv_IRC_WHO_Channel : clv.
Lemma clv_on_same_channel : forall (a : handle) (b : handle), clv (on_same_channel a b).
Proof. intros. unfold on_same_channel. cl_all. Qed.
#[export] Hint Resolve clv_on_same_channel : clv.
Lemma clv_IRC_WHO_Mask : forall (client : handle) (mask : option bytes) (onlyops : bool), clv mask -> clv (IRC_WHO_Mask client mask onlyops).
Proof. intros. unfold IRC_WHO_Mask. cl_all. Qed.
#[export] Hint Resolve clv_IRC_WHO_Mask : clv.
Lemma clv_whois_channels : forall (client : handle) (from : handle) (c : handle), clv (whois_channels client from c).
Proof. intros. unfold whois_channels. cl_all. Qed.
#[export] Hint Resolve clv_whois_channels : clv.
Lemma clv_whenB : forall (b : bool) (m : M bool), clv m -> clv (whenB b m).
Proof. intros. unfold whenB. cl_all. Qed.
#[export] Hint Resolve clv_whenB : clv.
Lemma clv_IRC_WHOIS_SendReply : forall (client : handle) (from : handle) (c : handle), clv (IRC_WHOIS_SendReply client from c).
Proof. intros. unfold IRC_WHOIS_SendReply. cl_all. Qed.
#[export] Hint Resolve clv_IRC_WHOIS_SendReply : clv.
Lemma clv_WHOWAS_EntryWrite : forall (p : handle) (e : whowas), clv e -> clv (WHOWAS_EntryWrite p e).
Proof. intros. unfold WHOWAS_EntryWrite. cl_all. Qed.
#[export] Hint Resolve clv_WHOWAS_EntryWrite : clv.
Lemma clv_forward_or : forall (client : handle) (req : request) (n : nat) (fwd : handle -> handle -> M bool) (k : handle -> M bool), clv req -> clv fwd -> clv k -> clv (forward_or client req n fwd k).
Proof. intros. unfold forward_or. cl_all. Qed.
#[export] Hint Resolve clv_forward_or : clv.
Lemma clv_IRC_ADMIN : forall (client : handle) (req : request), clv req -> clv (IRC_ADMIN client req).
Proof. intros. unfold IRC_ADMIN. cl_all. Qed.
#[export] Hint Resolve clv_IRC_ADMIN : clv.
Lemma clv_IRC_INFO : forall (client : handle) (req : request), clv req -> clv (IRC_INFO client req).
Proof. intros. unfold IRC_INFO. cl_all. Qed.
#[export] Hint Resolve clv_IRC_INFO : clv.
Lemma clv_write_as_format : forall (client : handle) (rpl : bytes), clv rpl -> clv (write_as_format client rpl).
Proof. intros. unfold write_as_format. cl_all. Qed.
#[export] Hint Resolve clv_write_as_format : clv.
Lemma clv_IRC_ISON : forall (client : handle) (req : request), clv req -> clv (IRC_ISON client req).
Proof. intros. unfold IRC_ISON. cl_all. Qed.
#[export] Hint Resolve clv_IRC_ISON : clv.
Lemma clv_IRC_LINKS : forall (client : handle) (req : request), clv req -> clv (IRC_LINKS client req).
Proof. intros. unfold IRC_LINKS. cl_all. Qed.
#[export] Hint Resolve clv_IRC_LINKS : clv.
Lemma clv_IRC_Send_LUSERS : forall (h : handle), clv (IRC_Send_LUSERS h).
Proof. intros. unfold IRC_Send_LUSERS. cl_all. Qed.
#[export] Hint Resolve clv_IRC_Send_LUSERS : clv.
Lemma clv_IRC_LUSERS : forall (client : handle) (req : request), clv req -> clv (IRC_LUSERS client req).
Proof. intros. unfold IRC_LUSERS. cl_all. Qed.
#[export] Hint Resolve clv_IRC_LUSERS : clv.
Lemma clv_IRC_SERVLIST : forall (client : handle) (req : request), clv req -> clv (IRC_SERVLIST client req).
Proof. intros. unfold IRC_SERVLIST. cl_all. Qed.
#[export] Hint Resolve clv_IRC_SERVLIST : clv.
Lemma clv_IRC_Show_MOTD : forall (h : handle), clv (IRC_Show_MOTD h).
Proof. intros. unfold IRC_Show_MOTD. cl_all. Qed.
#[export] Hint Resolve clv_IRC_Show_MOTD : clv.
Lemma clv_IRC_MOTD : forall (client : handle) (req : request), clv req -> clv (IRC_MOTD client req).
Proof. intros. unfold IRC_MOTD. cl_all. Qed.
#[export] Hint Resolve clv_IRC_MOTD : clv.
Lemma clv_IRC_Send_NAMES : forall (client : handle) (ch : chandle), clv (IRC_Send_NAMES client ch).
Proof. intros. unfold IRC_Send_NAMES. cl_all. Qed.
#[export] Hint Resolve clv_IRC_Send_NAMES : clv.
Lemma clv_IRC_NAMES : forall (client : handle) (req : request), clv req -> clv (IRC_NAMES client req).
Proof. intros. unfold IRC_NAMES. cl_all. Qed.
#[export] Hint Resolve clv_IRC_NAMES : clv.
Lemma clv_stats_lines : forall (from : handle) (query : ascii) (l : mlist), clv query -> clv l -> clv (stats_lines from query l).
Proof. intros. unfold stats_lines. cl_all. Qed.
#[export] Hint Resolve clv_stats_lines : clv.
Lemma clv_stats_links : forall (client : handle) (from : handle) (more : bool), clv (stats_links client from more).
Proof. intros. unfold stats_links. cl_all. Qed.
#[export] Hint Resolve clv_stats_links : clv.
Lemma clv_IRC_STATS : forall (client : handle) (req : request), clv req -> clv (IRC_STATS client req).
Proof. intros. unfold IRC_STATS. cl_all. Qed.
#[export] Hint Resolve clv_IRC_STATS : clv.
Lemma clv_IRC_SUMMON : forall (client : handle) (u_1 : request), clv u_1 -> clv (IRC_SUMMON client u_1).
Proof. intros. unfold IRC_SUMMON. cl_all. Qed.
#[export] Hint Resolve clv_IRC_SUMMON : clv.
Lemma clv_IRC_TIME : forall (client : handle) (req : request), clv req -> clv (IRC_TIME client req).
Proof. intros. unfold IRC_TIME. cl_all. Qed.
#[export] Hint Resolve clv_IRC_TIME : clv.
Lemma clv_IRC_USERHOST : forall (client : handle) (req : request), clv req -> clv (IRC_USERHOST client req).
Proof. intros. unfold IRC_USERHOST. cl_all. Qed.
#[export] Hint Resolve clv_IRC_USERHOST : clv.
Lemma clv_IRC_USERS : forall (client : handle) (u_1 : request), clv u_1 -> clv (IRC_USERS client u_1).
Proof. intros. unfold IRC_USERS. cl_all. Qed.
#[export] Hint Resolve clv_IRC_USERS : clv.
Lemma clv_IRC_Send_ISUPPORT : forall (h : handle), clv (IRC_Send_ISUPPORT h).
Proof. intros. unfold IRC_Send_ISUPPORT. cl_all. Qed.
#[export] Hint Resolve clv_IRC_Send_ISUPPORT : clv.
Lemma clv_IRC_VERSION : forall (client : handle) (req : request), clv req -> clv (IRC_VERSION client req).
Proof. intros. unfold IRC_VERSION. cl_all. Qed.
#[export] Hint Resolve clv_IRC_VERSION : clv.
Lemma clv_IRC_WHO : forall (client : handle) (req : request), clv req -> clv (IRC_WHO client req).
Proof. intros. unfold IRC_WHO. cl_all. Qed.
#[export] Hint Resolve clv_IRC_WHO : clv.
Lemma clv_whois_wild : forall (client : handle) (from : handle) (query : bytes) (n : Z), clv query -> clv (whois_wild client from query n).
Proof. intros. unfold whois_wild. cl_all. Qed.
#[export] Hint Resolve clv_whois_wild : clv.
Lemma clv_whois_loop : forall (client : handle) (from : handle) (req : request) (remote : bool) (qs : list bytes) (got : bool) (n : Z), clv req -> clv qs -> clv (whois_loop client from req remote qs got n).
Proof. intros client from req remote qs got n. revert client from req remote got n. induction qs; intros; cl_invs; cbn [whois_loop]; cl_all. Qed.
#[export] Hint Resolve clv_whois_loop : clv.
Lemma clv_IRC_WHOIS : forall (client : handle) (req : request), clv req -> clv (IRC_WHOIS client req).
Proof. intros. unfold IRC_WHOIS. cl_all. Qed.
#[export] Hint Resolve clv_IRC_WHOIS : clv.
Lemma clv_whowas_scan : forall (n : nat) (p : handle) (nick : bytes) (max : Z) (last : Z) (i : Z) (nc : Z) (count : Z), clv nick -> clv (whowas_scan n p nick max last i nc count).
Proof. intros n p nick max last i nc count. revert p nick max last i nc count. induction n; intros; cl_invs; cbn [whowas_scan]; cl_all. Qed.
#[export] Hint Resolve clv_whowas_scan : clv.
Lemma clv_whowas_loop : forall (p : handle) (nicks : list bytes) (max : Z) (last : Z) (i : Z) (count : Z), clv nicks -> clv (whowas_loop p nicks max last i count).
Proof. intros p nicks max last i count. revert p max last i count. induction nicks; intros; cl_invs; cbn [whowas_loop]; cl_all. Qed.
#[export] Hint Resolve clv_whowas_loop : clv.
Lemma clv_IRC_WHOWAS : forall (client : handle) (req : request), clv req -> clv (IRC_WHOWAS client req).
Proof. intros. unfold IRC_WHOWAS. cl_all. Qed.
#[export] Hint Resolve clv_IRC_WHOWAS : clv.
