(** Generated by tools/gen_clv.py from Server.v: its functions keep strings clean (C08). *)
From Coq Require Import List Ascii String ZArith NArith Bool Lia Arith.
From Verif Require Import Bytes Strl Match Lists Hash ParseReq State Messages Monad Core Write Info Chan Mode Msg Login Oper Server Clean0 CleanRec Clean CleanTac CleanLists CleanParseReq CleanCore CleanWrite CleanInfo CleanChan CleanMode CleanMsg CleanLogin CleanOper .
Import ListNotations.
Local Open Scope m_scope.

Lemma clv_NGIRCd_ProtoID : forall (opercanmode : bool), clv (NGIRCd_ProtoID opercanmode).
Proof. intros. unfold NGIRCd_ProtoID. cl_all. Qed.
#[export] Hint Resolve clv_NGIRCd_ProtoID : clv.
Lemma clv_njoin_nick : forall (xop : bool) (ch : chandle) (cl : handle) (str : bytes), clv str -> clv (njoin_nick xop ch cl str).
Proof. intros. unfold njoin_nick. cl_all. Qed.
#[export] Hint Resolve clv_njoin_nick : clv.
Lemma clv_announce_members : forall (client : handle) (ch : chandle) (njoin : bool) (xop : bool) (name : bytes) (start : bytes) (l : list handle) (str : bytes), clv name -> clv start -> clv str -> clv (announce_members client ch njoin xop name start l str).
Proof. intros client ch njoin xop name start l str. revert client ch njoin xop name start str. induction l; intros; cl_invs; cbn [announce_members]; cl_all. Qed.
#[export] Hint Resolve clv_announce_members : clv.
Lemma clv_Announce_Channel : forall (client : handle) (ch : chandle), clv (Announce_Channel client ch).
Proof. intros. unfold Announce_Channel. cl_all. Qed.
#[export] Hint Resolve clv_Announce_Channel : clv.
Lemma clv_server_args : forall (h : handle), clv (server_args h).
Proof. intros. unfold server_args. cl_all. Qed.
#[export] Hint Resolve clv_server_args : clv.
Lemma clv_Announce_Server : forall (client : handle) (server : handle), clv (Announce_Server client server).
Proof. intros. unfold Announce_Server. cl_all. Qed.
#[export] Hint Resolve clv_Announce_Server : clv.
Lemma clv_Send_List : forall (client : handle) (ch : chandle) (l : mlist) (ty : ascii), clv l -> clv ty -> clv (Send_List client ch l ty).
Proof. intros. unfold Send_List. cl_all. Qed.
#[export] Hint Resolve clv_Send_List : clv.
Lemma clv_Synchronize_Lists : forall (client : handle), clv (Synchronize_Lists client).
Proof. intros. unfold Synchronize_Lists. cl_all. Qed.
#[export] Hint Resolve clv_Synchronize_Lists : clv.
Lemma clv_Send_CHANINFO : forall (client : handle) (ch : chandle), clv (Send_CHANINFO client ch).
Proof. intros. unfold Send_CHANINFO. cl_all. Qed.
#[export] Hint Resolve clv_Send_CHANINFO : clv.
Lemma clv_zrange : forall (n : Z), clv (zrange n).
Proof. intros. unfold zrange. cl_all. Qed.
#[export] Hint Resolve clv_zrange : clv.
Lemma clv_IRC_Num_ENDOFMOTD : forall (client : handle), clv (IRC_Num_ENDOFMOTD client).
Proof. intros. unfold IRC_Num_ENDOFMOTD. cl_all. Qed.
#[export] Hint Resolve clv_IRC_Num_ENDOFMOTD : clv.
Lemma clv_IRC_Num_ISUPPORT : forall (client : handle) (req : request), clv req -> clv (IRC_Num_ISUPPORT client req).
Proof. intros. unfold IRC_Num_ISUPPORT. cl_all. Qed.
#[export] Hint Resolve clv_IRC_Num_ISUPPORT : clv.
Lemma clv_server_become : forall (client : handle) (i : connid) (sv : cserver) (req : request), clv sv -> clv req -> clv (server_become client i sv req).
Proof. intros. unfold server_become. cl_all. Qed.
#[export] Hint Resolve clv_server_become : clv.
Lemma clv_server_register : forall (client : handle) (i : connid) (req : request), clv req -> clv (server_register client i req).
Proof. intros. unfold server_register. cl_all. Qed.
#[export] Hint Resolve clv_server_register : clv.
Lemma clv_server_introduce : forall (client : handle) (i : connid) (req : request), clv req -> clv (server_introduce client i req).
Proof. intros. unfold server_introduce. cl_all. Qed.
#[export] Hint Resolve clv_server_introduce : clv.
Lemma clv_IRC_SERVER : forall (client : handle) (req : request), clv req -> clv (IRC_SERVER client req).
Proof. intros. unfold IRC_SERVER. cl_all. Qed.
#[export] Hint Resolve clv_IRC_SERVER : clv.
Lemma clv_njoin_prefixes : clv njoin_prefixes.
Proof. intros. unfold njoin_prefixes. cl_all. Qed.
#[export] Hint Resolve clv_njoin_prefixes : clv.
Lemma clv_take_while : forall (f : ascii -> bool) (s : bytes), clv s -> clv (take_while f s).
Proof. intros f s. revert f. induction s; intros; cl_invs; cbn [take_while]; cl_all. Qed.
#[export] Hint Resolve clv_take_while : clv.
Lemma clv_njoin_given : forall (p : bytes), clv p -> clv (njoin_given p).
Proof. intros. unfold njoin_given. cl_all. Qed.
#[export] Hint Resolve clv_njoin_given : clv.
Lemma clv_njoin_one : forall (client : handle) (channame : bytes) (ptr : bytes) (nick_out : bytes), clv channame -> clv ptr -> clv nick_out -> clv (njoin_one client channame ptr nick_out).
Proof. intros. unfold njoin_one. cl_all. Qed.
#[export] Hint Resolve clv_njoin_one : clv.
Lemma clv_IRC_NJOIN : forall (client : handle) (req : request), clv req -> clv (IRC_NJOIN client req).
Proof. intros. unfold IRC_NJOIN. cl_all. Qed.
#[export] Hint Resolve clv_IRC_NJOIN : clv.
Lemma clv_squit_do : forall (client : handle) (from : handle) (target : handle) (req : request), clv req -> clv (squit_do client from target req).
Proof. intros. unfold squit_do. cl_all. Qed.
#[export] Hint Resolve clv_squit_do : clv.
Lemma clv_IRC_SQUIT : forall (client : handle) (req : request), clv req -> clv (IRC_SQUIT client req).
Proof. intros. unfold IRC_SQUIT. cl_all. Qed.
#[export] Hint Resolve clv_IRC_SQUIT : clv.
Lemma clv_predefined_modes : forall (ch : chandle) (cc : cchan), clv cc -> clv (predefined_modes ch cc).
Proof. intros. unfold predefined_modes. cl_all. Qed.
#[export] Hint Resolve clv_predefined_modes : clv.
Lemma clv_Channel_InitPredefined : clv Channel_InitPredefined.
Proof. intros. unfold Channel_InitPredefined. cl_all. Qed.
#[export] Hint Resolve clv_Channel_InitPredefined : clv.
