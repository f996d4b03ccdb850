(** Generated by tools/gen_clv.py from Chan.v: its functions keep strings clean (C08). *)
From Coq Require Import List Ascii String ZArith NArith Bool Lia Arith.
From Verif Require Import Bytes Strl Match Lists Hash ParseReq State Messages Monad Core Write Info Chan Clean0 CleanRec Clean CleanTac CleanLists CleanParseReq CleanCore CleanWrite CleanInfo .
Import ListNotations.
Local Open Scope m_scope.

Lemma clv_BEL : clv BEL.
Proof. intros. unfold BEL. cl_all. Qed.
#[export] Hint Resolve clv_BEL : clv.
Lemma clv_Channel_FirstChannelOf : forall (h : handle), clv (Channel_FirstChannelOf h).
Proof. intros. unfold Channel_FirstChannelOf. cl_all. Qed.
#[export] Hint Resolve clv_Channel_FirstChannelOf : clv.
Lemma clv_part_all : forall (n : nat) (client : handle) (target : handle), clv (part_all n client target).
Proof. intros n client target. revert client target. induction n; intros; cl_invs; cbn [part_all]; cl_all. Qed.
#[export] Hint Resolve clv_part_all : clv.
Lemma clv_part_from_all_channels : forall (client : handle) (target : handle), clv (part_from_all_channels client target).
Proof. intros. unfold part_from_all_channels. cl_all. Qed.
#[export] Hint Resolve clv_part_from_all_channels : clv.
Lemma clv_join_allowed : forall (client : handle) (ch : chandle) (channame : bytes) (key : option bytes), clv channame -> clv key -> clv (join_allowed client ch channame key).
Proof. intros. unfold join_allowed. cl_all. Qed.
#[export] Hint Resolve clv_join_allowed : clv.
Lemma clv_join_set_channelmodes : forall (ch : chandle) (target : handle) (flags : option bytes), clv flags -> clv (join_set_channelmodes ch target flags).
Proof. intros. unfold join_set_channelmodes. cl_all. Qed.
#[export] Hint Resolve clv_join_set_channelmodes : clv.
Lemma clv_cb_join_forward : forall (to : handle) (pref : handle) (data : bytes), clv data -> clv (cb_join_forward to pref data).
Proof. intros. unfold cb_join_forward. cl_all. Qed.
#[export] Hint Resolve clv_cb_join_forward : clv.
Lemma clv_join_forward : forall (client : handle) (target : handle) (ch : chandle) (channame : bytes), clv channame -> clv (join_forward client target ch channame).
Proof. intros. unfold join_forward. cl_all. Qed.
#[export] Hint Resolve clv_join_forward : clv.
Lemma clv_IRC_Send_Channel_Info : forall (client : handle) (ch : chandle), clv (IRC_Send_Channel_Info client ch).
Proof. intros. unfold IRC_Send_Channel_Info. cl_all. Qed.
#[export] Hint Resolve clv_IRC_Send_Channel_Info : clv.
Lemma clv_join_check : forall (client : handle) (target : handle) (channame : bytes) (o : option chandle) (key : option bytes) (flags : option bytes), clv channame -> clv key -> clv flags -> clv (join_check client target channame o key flags).
Proof. intros. unfold join_check. cl_all. Qed.
#[export] Hint Resolve clv_join_check : clv.
Lemma clv_join_one : forall (client : handle) (target : handle) (channame : bytes) (key : option bytes), clv channame -> clv key -> clv (join_one client target channame key).
Proof. intros. unfold join_one. cl_all. Qed.
#[export] Hint Resolve clv_join_one : clv.
Lemma clv_join_loop : forall (client : handle) (target : handle) (chans : list bytes) (keys : list bytes), clv chans -> clv keys -> clv (join_loop client target chans keys).
Proof. intros client target chans keys. revert client target keys. induction chans; intros; cl_invs; cbn [join_loop]; cl_all. Qed.
#[export] Hint Resolve clv_join_loop : clv.
Lemma clv_IRC_JOIN : forall (client : handle) (req : request), clv req -> clv (IRC_JOIN client req).
Proof. intros. unfold IRC_JOIN. cl_all. Qed.
#[export] Hint Resolve clv_IRC_JOIN : clv.
Lemma clv_IRC_PART : forall (client : handle) (req : request), clv req -> clv (IRC_PART client req).
Proof. intros. unfold IRC_PART. cl_all. Qed.
#[export] Hint Resolve clv_IRC_PART : clv.
Lemma clv_IRC_TOPIC : forall (client : handle) (req : request), clv req -> clv (IRC_TOPIC client req).
Proof. intros. unfold IRC_TOPIC. cl_all. Qed.
#[export] Hint Resolve clv_IRC_TOPIC : clv.
Lemma clv_list_chans : forall (from : handle) (pattern : bytes) (l : list chandle) (count : Z), clv pattern -> clv (list_chans from pattern l count).
Proof. intros from pattern l count. revert from pattern count. induction l; intros; cl_invs; cbn [list_chans]; cl_all. Qed.
#[export] Hint Resolve clv_list_chans : clv.
Lemma clv_list_pats : forall (from : handle) (pats : list bytes) (count : Z), clv pats -> clv (list_pats from pats count).
Proof. intros from pats count. revert from count. induction pats; intros; cl_invs; cbn [list_pats]; cl_all. Qed.
#[export] Hint Resolve clv_list_pats : clv.
Lemma clv_IRC_LIST : forall (client : handle) (req : request), clv req -> clv (IRC_LIST client req).
Proof. intros. unfold IRC_LIST. cl_all. Qed.
#[export] Hint Resolve clv_IRC_LIST : clv.
Lemma clv_chaninfo_create : forall (name : bytes), clv name -> clv (chaninfo_create name).
Proof. intros. unfold chaninfo_create. cl_all. Qed.
#[export] Hint Resolve clv_chaninfo_create : clv.
Lemma clv_IRC_CHANINFO : forall (client : handle) (req : request), clv req -> clv (IRC_CHANINFO client req).
Proof. intros. unfold IRC_CHANINFO. cl_all. Qed.
#[export] Hint Resolve clv_IRC_CHANINFO : clv.
