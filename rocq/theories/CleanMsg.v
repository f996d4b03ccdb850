(** Generated by tools/gen_clv.py from Msg.v: its functions keep strings clean (C08). *)
From Coq Require Import List Ascii String ZArith NArith Bool Lia Arith.
From Verif Require Import Bytes Strl Match Lists Hash ParseReq State Messages Monad Core Write Info Chan Mode Msg Clean0 CleanRec Clean CleanTac CleanLists CleanParseReq CleanCore CleanWrite CleanInfo CleanChan CleanMode .
Import ListNotations.
Local Open Scope m_scope.

Record clean_mtarget (r : mtarget) : Prop := mk_clean_mtarget { k_mt_nick : clv (mt_nick r); k_mt_user : clv (mt_user r); k_mt_host : clv (mt_host r); k_mt_server : clv (mt_server r) }.
#[export] Instance Cl_mtarget : Cl mtarget := clean_mtarget.
Lemma clv_mkMt : forall n u h s, clv n -> clv u -> clv h -> clv s -> clv (mkMt n u h s). Proof. intros; constructor; assumption. Qed.
Lemma clv_mt_nick : forall r, clv r -> clv (mt_nick r). Proof. intros r H. apply H. Qed.
Lemma clv_mt_user : forall r, clv r -> clv (mt_user r). Proof. intros r H. apply H. Qed.
Lemma clv_mt_host : forall r, clv r -> clv (mt_host r). Proof. intros r H. apply H. Qed.
Lemma clv_mt_server : forall r, clv r -> clv (mt_server r). Proof. intros r H. apply H. Qed.
#[export] Hint Resolve clv_mkMt clv_mt_nick clv_mt_user clv_mt_host clv_mt_server : clv.
Lemma clv_IRC_ERROR : forall (client : handle) (req : request), clv req -> clv (IRC_ERROR client req).
Proof. intros. unfold IRC_ERROR. cl_all. Qed.
#[export] Hint Resolve clv_IRC_ERROR : clv.
Lemma clv_IRC_KillClient : forall (client : option handle) (from : option handle) (nick : bytes) (reason : bytes), clv nick -> clv reason -> clv (IRC_KillClient client from nick reason).
Proof. intros. unfold IRC_KillClient. cl_all. Qed.
#[export] Hint Resolve clv_IRC_KillClient : clv.
Lemma clv_IRC_KILL : forall (client : handle) (req : request), clv req -> clv (IRC_KILL client req).
Proof. intros. unfold IRC_KILL. cl_all. Qed.
#[export] Hint Resolve clv_IRC_KILL : clv.
Lemma clv_split1 : forall (c : ascii) (s : bytes), clv c -> clv s -> clv (split1 c s).
Proof. intros. unfold split1. cl_all. Qed.
#[export] Hint Resolve clv_split1 : clv.
Lemma clv_msg_target : forall (t : bytes), clv t -> clv (msg_target t).
Proof. intros. unfold msg_target. cl_all. Qed.
#[export] Hint Resolve clv_msg_target : clv.
Lemma clv_target_match : forall (mt : mtarget) (c : handle), clv mt -> clv (target_match mt c).
Proof. intros. unfold target_match. cl_all. Qed.
#[export] Hint Resolve clv_target_match : clv.
Lemma clv_find_target : forall (t : bytes), clv t -> clv (find_target t).
Proof. intros. unfold find_target. cl_all. Qed.
#[export] Hint Resolve clv_find_target : clv.
Lemma clv_from_last_dot : forall (s : bytes), clv s -> clv (from_last_dot s).
Proof. intros. unfold from_last_dot. cl_all. Qed.
#[export] Hint Resolve clv_from_last_dot : clv.
Lemma clv_Send_Message_Mask : forall (from : handle) (command : bytes) (mask : bytes) (message : bytes) (errors : bool), clv command -> clv mask -> clv message -> clv (Send_Message_Mask from command mask message errors).
Proof. intros. unfold Send_Message_Mask. cl_all. Qed.
#[export] Hint Resolve clv_Send_Message_Mask : clv.
Lemma clv_send_to_client : forall (client : handle) (from : handle) (c : handle) (forcetype : ctype) (errors : bool) (command : bytes) (target : bytes) (message : bytes), clv command -> clv target -> clv message -> clv (send_to_client client from c forcetype errors command target message).
Proof. intros. unfold send_to_client. cl_all. Qed.
#[export] Hint Resolve clv_send_to_client : clv.
Lemma clv_send_one : forall (client : handle) (from : handle) (forcetype : ctype) (errors : bool) (command : bytes) (target : bytes) (message : bytes), clv command -> clv target -> clv message -> clv (send_one client from forcetype errors command target message).
Proof. intros. unfold send_one. cl_all. Qed.
#[export] Hint Resolve clv_send_one : clv.
Lemma clv_send_loop : forall (client : handle) (from : handle) (forcetype : ctype) (errors : bool) (command : bytes) (message : bytes) (seen : list bytes) (targets : list bytes), clv command -> clv message -> clv seen -> clv targets -> clv (send_loop client from forcetype errors command message seen targets).
Proof. intros client from forcetype errors command message seen targets. revert command seen. induction targets; intros; cl_invs; cbn [send_loop]; cl_all. Qed.
#[export] Hint Resolve clv_send_loop : clv.
Lemma clv_Send_Message : forall (client : handle) (req : request) (forcetype : ctype) (errors : bool), clv req -> clv (Send_Message client req forcetype errors).
Proof. intros. unfold Send_Message. cl_all. Qed.
#[export] Hint Resolve clv_Send_Message : clv.
Lemma clv_IRC_NOTICE : forall (client : handle) (req : request), clv req -> clv (IRC_NOTICE client req).
Proof. intros. unfold IRC_NOTICE. cl_all. Qed.
#[export] Hint Resolve clv_IRC_NOTICE : clv.
Lemma clv_IRC_PRIVMSG : forall (client : handle) (req : request), clv req -> clv (IRC_PRIVMSG client req).
Proof. intros. unfold IRC_PRIVMSG. cl_all. Qed.
#[export] Hint Resolve clv_IRC_PRIVMSG : clv.
Lemma clv_IRC_SQUERY : forall (client : handle) (req : request), clv req -> clv (IRC_SQUERY client req).
Proof. intros. unfold IRC_SQUERY. cl_all. Qed.
#[export] Hint Resolve clv_IRC_SQUERY : clv.
Lemma clv_IRC_TRACE : forall (client : handle) (req : request), clv req -> clv (IRC_TRACE client req).
Proof. intros. unfold IRC_TRACE. cl_all. Qed.
#[export] Hint Resolve clv_IRC_TRACE : clv.
Lemma clv_help_lines : forall (client : handle) (topic : bytes) (l : list bytes) (in_article : bool) (n : nat), clv topic -> clv l -> clv (help_lines client topic l in_article n).
Proof. intros client topic l in_article n. revert in_article n. induction l; intros; cl_invs; cbn [help_lines]; cl_all. Qed.
#[export] Hint Resolve clv_help_lines : clv.
Lemma clv_Help : forall (client : handle) (topic : bytes), clv topic -> clv (Help client topic).
Proof. intros. unfold Help. cl_all. Qed.
#[export] Hint Resolve clv_Help : clv.
Lemma clv_Command_Names : clv Command_Names.
Proof. intros. unfold Command_Names. cl_all. Qed.
#[export] Hint Resolve clv_Command_Names : clv.
Lemma clv_IRC_HELP : forall (client : handle) (req : request), clv req -> clv (IRC_HELP client req).
Proof. intros. unfold IRC_HELP. cl_all. Qed.
#[export] Hint Resolve clv_IRC_HELP : clv.
