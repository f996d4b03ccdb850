(** Generated by tools/gen_clv.py from Oper.v: its functions keep strings clean (C08). *)
From Coq Require Import List Ascii String ZArith NArith Bool Lia Arith.
From Verif Require Import Bytes Strl Match Lists Hash ParseReq State Messages Monad Core Write Info Chan Mode Msg Login Oper Clean0 CleanRec Clean CleanTac CleanLists CleanParseReq CleanCore CleanWrite CleanInfo CleanChan CleanMode CleanMsg CleanLogin .
Import ListNotations.
Local Open Scope m_scope.

Lemma clv_split_on : forall (c : ascii) (s : bytes), clv c -> clv s -> clv (split_on c s).
Proof. intros c s. revert c. induction s; intros; cl_invs; cbn [split_on]; cl_all. Qed.
#[export] Hint Resolve clv_split_on : clv.
Lemma clv_try_kick : forall (peer : handle) (from : handle) (nick : bytes) (channel : bytes) (reason : bytes), clv nick -> clv channel -> clv reason -> clv (try_kick peer from nick channel reason).
Proof. intros. unfold try_kick. cl_all. Qed.
#[export] Hint Resolve clv_try_kick : clv.
Lemma clv_IRC_KICK : forall (client : handle) (req : request), clv req -> clv (IRC_KICK client req).
Proof. intros. unfold IRC_KICK. cl_all. Qed.
#[export] Hint Resolve clv_IRC_KICK : clv.
Lemma clv_invite_check : forall (client : handle) (from : handle) (target : handle) (req : request) (ch : chandle), clv req -> clv (invite_check client from target req ch).
Proof. intros. unfold invite_check. cl_all. Qed.
#[export] Hint Resolve clv_invite_check : clv.
Lemma clv_IRC_INVITE : forall (client : handle) (req : request), clv req -> clv (IRC_INVITE client req).
Proof. intros. unfold IRC_INVITE. cl_all. Qed.
#[export] Hint Resolve clv_IRC_INVITE : clv.
Lemma clv_find_server : forall (f : cserver -> bool), clv f -> clv (find_server f).
Proof. intros. unfold find_server. cl_all. Qed.
#[export] Hint Resolve clv_find_server : clv.
Lemma clv_Conf_SetServer : forall (n : nat) (i : connid), clv (Conf_SetServer n i).
Proof. intros. unfold Conf_SetServer. cl_all. Qed.
#[export] Hint Resolve clv_Conf_SetServer : clv.
Lemma clv_Conf_EnableServer : forall (name : bytes) (port : Z), clv name -> clv (Conf_EnableServer name port).
Proof. intros. unfold Conf_EnableServer. cl_all. Qed.
#[export] Hint Resolve clv_Conf_EnableServer : clv.
Lemma clv_Conf_EnablePassiveServer : forall (name : bytes), clv name -> clv (Conf_EnablePassiveServer name).
Proof. intros. unfold Conf_EnablePassiveServer. cl_all. Qed.
#[export] Hint Resolve clv_Conf_EnablePassiveServer : clv.
Lemma clv_Conf_DisableServer : forall (name : bytes), clv name -> clv (Conf_DisableServer name).
Proof. intros. unfold Conf_DisableServer. cl_all. Qed.
#[export] Hint Resolve clv_Conf_DisableServer : clv.
Lemma clv_Conf_AddServer : forall (name : bytes) (port : Z) (host : bytes) (mypwd : bytes) (peerpwd : bytes), clv name -> clv host -> clv mypwd -> clv peerpwd -> clv (Conf_AddServer name port host mypwd peerpwd).
Proof. intros. unfold Conf_AddServer. cl_all. Qed.
#[export] Hint Resolve clv_Conf_AddServer : clv.
Lemma clv_Bad_OperPass : forall (client : handle) (token : bytes) (msg : bytes), clv token -> clv msg -> clv (Bad_OperPass client token msg).
Proof. intros. unfold Bad_OperPass. cl_all. Qed.
#[export] Hint Resolve clv_Bad_OperPass : clv.
Lemma clv_IRC_OPER : forall (client : handle) (req : request), clv req -> clv (IRC_OPER client req).
Proof. intros. unfold IRC_OPER. cl_all. Qed.
#[export] Hint Resolve clv_IRC_OPER : clv.
Lemma clv_oper_only : forall (client : handle) (req : request) (k : M bool), clv req -> clv k -> clv (oper_only client req k).
Proof. intros. unfold oper_only. cl_all. Qed.
#[export] Hint Resolve clv_oper_only : clv.
Lemma clv_IRC_DIE : forall (client : handle) (req : request), clv req -> clv (IRC_DIE client req).
Proof. intros. unfold IRC_DIE. cl_all. Qed.
#[export] Hint Resolve clv_IRC_DIE : clv.
Lemma clv_IRC_REHASH : forall (client : handle) (req : request), clv req -> clv (IRC_REHASH client req).
Proof. intros. unfold IRC_REHASH. cl_all. Qed.
#[export] Hint Resolve clv_IRC_REHASH : clv.
Lemma clv_IRC_RESTART : forall (client : handle) (req : request), clv req -> clv (IRC_RESTART client req).
Proof. intros. unfold IRC_RESTART. cl_all. Qed.
#[export] Hint Resolve clv_IRC_RESTART : clv.
Lemma clv_connect_target : forall (client : handle) (req : request), clv req -> clv (connect_target client req).
Proof. intros. unfold connect_target. cl_all. Qed.
#[export] Hint Resolve clv_connect_target : clv.
Lemma clv_IRC_CONNECT : forall (client : handle) (req : request), clv req -> clv (IRC_CONNECT client req).
Proof. intros. unfold IRC_CONNECT. cl_all. Qed.
#[export] Hint Resolve clv_IRC_CONNECT : clv.
Lemma clv_IRC_DISCONNECT : forall (client : handle) (req : request), clv req -> clv (IRC_DISCONNECT client req).
Proof. intros. unfold IRC_DISCONNECT. cl_all. Qed.
#[export] Hint Resolve clv_IRC_DISCONNECT : clv.
Lemma clv_IRC_WALLOPS : forall (client : handle) (req : request), clv req -> clv (IRC_WALLOPS client req).
Proof. intros. unfold IRC_WALLOPS. cl_all. Qed.
#[export] Hint Resolve clv_IRC_WALLOPS : clv.
Lemma clv_xline_class : forall (command : bytes), clv command -> clv (xline_class command).
Proof. intros. unfold xline_class. cl_all. Qed.
#[export] Hint Resolve clv_xline_class : clv.
Lemma clv_class_char : forall (c : class), clv (class_char c).
Proof. intros. unfold class_char. cl_all. Qed.
#[export] Hint Resolve clv_class_char : clv.
Lemma clv_xline_kill : forall (client : handle) (cls : class) (reason : bytes), clv reason -> clv (xline_kill client cls reason).
Proof. intros. unfold xline_kill. cl_all. Qed.
#[export] Hint Resolve clv_xline_kill : clv.
Lemma clv_IRC_xLINE : forall (client : handle) (req : request), clv req -> clv (IRC_xLINE client req).
Proof. intros. unfold IRC_xLINE. cl_all. Qed.
#[export] Hint Resolve clv_IRC_xLINE : clv.
