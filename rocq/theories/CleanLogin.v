(** Generated by tools/gen_clv.py from Login.v: its functions keep strings clean (C08). *)
From Coq Require Import List Ascii String ZArith NArith Bool Lia Arith.
From Verif Require Import Bytes Strl Match Lists Hash ParseReq State Messages Monad Core Write Info Chan Mode Msg Login Clean0 CleanRec Clean CleanTac CleanLists CleanParseReq CleanCore CleanWrite CleanInfo CleanChan CleanMode CleanMsg .
Import ListNotations.
Local Open Scope m_scope.

Lemma clv_with_prefix : forall (client : handle) (req : request) (k : bytes -> M bool), clv req -> clv k -> clv (with_prefix client req k).
Proof. intros. unfold with_prefix. cl_all. Qed.
#[export] Hint Resolve clv_with_prefix : clv.
Lemma clv_Login_Autojoin : forall (client : handle), clv (Login_Autojoin client).
Proof. intros. unfold Login_Autojoin. cl_all. Qed.
#[export] Hint Resolve clv_Login_Autojoin : clv.
Lemma clv_Login_Modes : forall (client : handle), clv (Login_Modes client).
Proof. intros. unfold Login_Modes. cl_all. Qed.
#[export] Hint Resolve clv_Login_Modes : clv.
Lemma clv_Login_User_PostAuth : forall (client : handle), clv (Login_User_PostAuth client).
Proof. intros. unfold Login_User_PostAuth. cl_all. Qed.
#[export] Hint Resolve clv_Login_User_PostAuth : clv.
Lemma clv_Login_User : forall (client : handle), clv (Login_User client).
Proof. intros. unfold Login_User. cl_all. Qed.
#[export] Hint Resolve clv_Login_User : clv.
Lemma clv_pass_flags : forall (req : request), clv req -> clv (pass_flags req).
Proof. intros. unfold pass_flags. cl_all. Qed.
#[export] Hint Resolve clv_pass_flags : clv.
Lemma clv_IRC_PASS : forall (client : handle) (req : request), clv req -> clv (IRC_PASS client req).
Proof. intros. unfold IRC_PASS. cl_all. Qed.
#[export] Hint Resolve clv_IRC_PASS : clv.
Lemma clv_Change_Nick : forall (origin : handle) (target : handle) (new : bytes) (inform : bool), clv new -> clv (Change_Nick origin target new inform).
Proof. intros. unfold Change_Nick. cl_all. Qed.
#[export] Hint Resolve clv_Change_Nick : clv.
Lemma clv_nick_new : forall (client : handle) (target : handle) (new : bytes), clv new -> clv (nick_new client target new).
Proof. intros. unfold nick_new. cl_all. Qed.
#[export] Hint Resolve clv_nick_new : clv.
Lemma clv_nick_change : forall (client : handle) (target : handle) (new : bytes), clv new -> clv (nick_change client target new).
Proof. intros. unfold nick_change. cl_all. Qed.
#[export] Hint Resolve clv_nick_change : clv.
Lemma clv_nick_target : forall (client : handle) (target : handle) (new : bytes), clv new -> clv (nick_target client target new).
Proof. intros. unfold nick_target. cl_all. Qed.
#[export] Hint Resolve clv_nick_target : clv.
Lemma clv_nick_introduce : forall (client : handle) (req : request), clv req -> clv (nick_introduce client req).
Proof. intros. unfold nick_introduce. cl_all. Qed.
#[export] Hint Resolve clv_nick_introduce : clv.
Lemma clv_IRC_NICK : forall (client : handle) (req : request), clv req -> clv (IRC_NICK client req).
Proof. intros. unfold IRC_NICK. cl_all. Qed.
#[export] Hint Resolve clv_IRC_NICK : clv.
Lemma clv_IRC_SVSNICK : forall (client : handle) (req : request), clv req -> clv (IRC_SVSNICK client req).
Proof. intros. unfold IRC_SVSNICK. cl_all. Qed.
#[export] Hint Resolve clv_IRC_SVSNICK : clv.
Lemma clv_IRC_USER : forall (client : handle) (req : request), clv req -> clv (IRC_USER client req).
Proof. intros. unfold IRC_USER. cl_all. Qed.
#[export] Hint Resolve clv_IRC_USER : clv.
Lemma clv_IRC_SERVICE : forall (client : handle) (req : request), clv req -> clv (IRC_SERVICE client req).
Proof. intros. unfold IRC_SERVICE. cl_all. Qed.
#[export] Hint Resolve clv_IRC_SERVICE : clv.
Lemma clv_IRC_WEBIRC : forall (client : handle) (req : request), clv req -> clv (IRC_WEBIRC client req).
Proof. intros. unfold IRC_WEBIRC. cl_all. Qed.
#[export] Hint Resolve clv_IRC_WEBIRC : clv.
Lemma clv_quit_quote : forall (m : bytes), clv m -> clv (quit_quote m).
Proof. intros. unfold quit_quote. cl_all. Qed.
#[export] Hint Resolve clv_quit_quote : clv.
Lemma clv_IRC_QUIT : forall (client : handle) (req : request), clv req -> clv (IRC_QUIT client req).
Proof. intros. unfold IRC_QUIT. cl_all. Qed.
#[export] Hint Resolve clv_IRC_QUIT : clv.
Lemma clv_IRC_QUIT_HTTP : forall (client : handle) (req : request), clv req -> clv (IRC_QUIT_HTTP client req).
Proof. intros. unfold IRC_QUIT_HTTP. cl_all. Qed.
#[export] Hint Resolve clv_IRC_QUIT_HTTP : clv.
Lemma clv_IRC_PING : forall (client : handle) (req : request), clv req -> clv (IRC_PING client req).
Proof. intros. unfold IRC_PING. cl_all. Qed.
#[export] Hint Resolve clv_IRC_PING : clv.
Lemma clv_pong_here : forall (client : handle) (req : request), clv req -> clv (pong_here client req).
Proof. intros. unfold pong_here. cl_all. Qed.
#[export] Hint Resolve clv_pong_here : clv.
Lemma clv_IRC_PONG : forall (client : handle) (req : request), clv req -> clv (IRC_PONG client req).
Proof. intros. unfold IRC_PONG. cl_all. Qed.
#[export] Hint Resolve clv_IRC_PONG : clv.
Lemma clv_Set_CAP_Negotiation : forall (client : handle), clv (Set_CAP_Negotiation client).
Proof. intros. unfold Set_CAP_Negotiation. cl_all. Qed.
#[export] Hint Resolve clv_Set_CAP_Negotiation : clv.
Lemma clv_parse_cap : forall (l : list bytes) (multi : bool), clv l -> clv (parse_cap l multi).
Proof. intros l multi. revert multi. induction l; intros; cl_invs; cbn [parse_cap]; cl_all. Qed.
#[export] Hint Resolve clv_parse_cap : clv.
Lemma clv_Get_CAP_String : forall (multi : bool), clv (Get_CAP_String multi).
Proof. intros. unfold Get_CAP_String. cl_all. Qed.
#[export] Hint Resolve clv_Get_CAP_String : clv.
Lemma clv_Handle_CAP_LS : forall (client : handle), clv (Handle_CAP_LS client).
Proof. intros. unfold Handle_CAP_LS. cl_all. Qed.
#[export] Hint Resolve clv_Handle_CAP_LS : clv.
Lemma clv_Handle_CAP_LIST : forall (client : handle), clv (Handle_CAP_LIST client).
Proof. intros. unfold Handle_CAP_LIST. cl_all. Qed.
#[export] Hint Resolve clv_Handle_CAP_LIST : clv.
Lemma clv_Handle_CAP_REQ : forall (client : handle) (a : bytes), clv a -> clv (Handle_CAP_REQ client a).
Proof. intros. unfold Handle_CAP_REQ. cl_all. Qed.
#[export] Hint Resolve clv_Handle_CAP_REQ : clv.
Lemma clv_Handle_CAP_CLEAR : forall (client : handle), clv (Handle_CAP_CLEAR client).
Proof. intros. unfold Handle_CAP_CLEAR. cl_all. Qed.
#[export] Hint Resolve clv_Handle_CAP_CLEAR : clv.
Lemma clv_Handle_CAP_END : forall (client : handle), clv (Handle_CAP_END client).
Proof. intros. unfold Handle_CAP_END. cl_all. Qed.
#[export] Hint Resolve clv_Handle_CAP_END : clv.
Lemma clv_IRC_CAP : forall (client : handle) (req : request), clv req -> clv (IRC_CAP client req).
Proof. intros. unfold IRC_CAP. cl_all. Qed.
#[export] Hint Resolve clv_IRC_CAP : clv.
Lemma clv_IRC_METADATA : forall (client : handle) (req : request), clv req -> clv (IRC_METADATA client req).
Proof. intros. unfold IRC_METADATA. cl_all. Qed.
#[export] Hint Resolve clv_IRC_METADATA : clv.
