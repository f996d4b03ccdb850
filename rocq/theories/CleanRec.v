(** Generated by tools/gen_clean.py.  "Clean" records: no string in them contains CR or LF.  The
    read buffer of a connection (raw input) and the lines of key files are exempt. *)
From Coq Require Import List Ascii String ZArith NArith Bool.
From Verif Require Import Bytes Match Lists Hash ParseReq State Messages Monad Clean0.
Import ListNotations.

Record clean_lelem (r : lelem) : Prop := mk_clean_lelem {
  k_le_mask : clv (le_mask r);
  k_le_reason : clv (le_reason r) }.
#[export] Instance Cl_lelem : Cl lelem := clean_lelem.
#[export] Instance Cl_mlist : Cl mlist := @Cl_list lelem Cl_lelem.
Lemma clv_le_mask : forall r : lelem, clv r -> clv (le_mask r). Proof. intros r H. apply H. Qed.
#[export] Hint Resolve clv_le_mask : clv.
Lemma clv_le_reason : forall r : lelem, clv r -> clv (le_reason r). Proof. intros r H. apply H. Qed.
#[export] Hint Resolve clv_le_reason : clv.
Lemma clv_mkLelem : forall (x0 : bytes) (x1 : option bytes) (x2 : Z) (x3 : bool), clv x0 -> clv x1 -> clv (mkLelem x0 x1 x2 x3). Proof. intros; constructor; assumption. Qed.
#[export] Hint Resolve clv_mkLelem : clv.
Record clean_request (r : request) : Prop := mk_clean_request {
  k_rq_prefix : clv (rq_prefix r);
  k_rq_command : clv (rq_command r);
  k_rq_args : clv (rq_args r) }.
#[export] Instance Cl_request : Cl request := clean_request.
Lemma clv_rq_prefix : forall r : request, clv r -> clv (rq_prefix r). Proof. intros r H. apply H. Qed.
#[export] Hint Resolve clv_rq_prefix : clv.
Lemma clv_rq_command : forall r : request, clv r -> clv (rq_command r). Proof. intros r H. apply H. Qed.
#[export] Hint Resolve clv_rq_command : clv.
Lemma clv_rq_args : forall r : request, clv r -> clv (rq_args r). Proof. intros r H. apply H. Qed.
#[export] Hint Resolve clv_rq_args : clv.
Lemma clv_mkReq : forall (x0 : option bytes) (x1 : bytes) (x2 : list bytes), clv x0 -> clv x1 -> clv x2 -> clv (mkReq x0 x1 x2). Proof. intros; constructor; assumption. Qed.
#[export] Hint Resolve clv_mkReq : clv.
Record clean_client (r : client) : Prop := mk_clean_client {
  k_cl_id : clv (cl_id r);
  k_cl_host : clv (cl_host r);
  k_cl_cloaked : clv (cl_cloaked r);
  k_cl_ipa : clv (cl_ipa r);
  k_cl_user : clv (cl_user r);
  k_cl_info : clv (cl_info r);
  k_cl_modes : clv (cl_modes r);
  k_cl_away : clv (cl_away r);
  k_cl_flags : clv (cl_flags r);
  k_cl_account : clv (cl_account r) }.
#[export] Instance Cl_client : Cl client := clean_client.
Lemma clv_cl_id : forall r : client, clv r -> clv (cl_id r). Proof. intros r H. apply H. Qed.
#[export] Hint Resolve clv_cl_id : clv.
Lemma clv_cl_host : forall r : client, clv r -> clv (cl_host r). Proof. intros r H. apply H. Qed.
#[export] Hint Resolve clv_cl_host : clv.
Lemma clv_cl_cloaked : forall r : client, clv r -> clv (cl_cloaked r). Proof. intros r H. apply H. Qed.
#[export] Hint Resolve clv_cl_cloaked : clv.
Lemma clv_cl_ipa : forall r : client, clv r -> clv (cl_ipa r). Proof. intros r H. apply H. Qed.
#[export] Hint Resolve clv_cl_ipa : clv.
Lemma clv_cl_user : forall r : client, clv r -> clv (cl_user r). Proof. intros r H. apply H. Qed.
#[export] Hint Resolve clv_cl_user : clv.
Lemma clv_cl_info : forall r : client, clv r -> clv (cl_info r). Proof. intros r H. apply H. Qed.
#[export] Hint Resolve clv_cl_info : clv.
Lemma clv_cl_modes : forall r : client, clv r -> clv (cl_modes r). Proof. intros r H. apply H. Qed.
#[export] Hint Resolve clv_cl_modes : clv.
Lemma clv_cl_away : forall r : client, clv r -> clv (cl_away r). Proof. intros r H. apply H. Qed.
#[export] Hint Resolve clv_cl_away : clv.
Lemma clv_cl_flags : forall r : client, clv r -> clv (cl_flags r). Proof. intros r H. apply H. Qed.
#[export] Hint Resolve clv_cl_flags : clv.
Lemma clv_cl_account : forall r : client, clv r -> clv (cl_account r). Proof. intros r H. apply H. Qed.
#[export] Hint Resolve clv_cl_account : clv.
Lemma clv_mkClient : forall (x0 : Z) (x1 : bytes) (x2 : N) (x3 : ctype) (x4 : option connid) (x5 : option handle) (x6 : option handle) (x7 : bytes) (x8 : option bytes) (x9 : option bytes) (x10 : bytes) (x11 : bytes) (x12 : bytes) (x13 : Z) (x14 : Z) (x15 : Z) (x16 : option bytes) (x17 : bytes) (x18 : option bytes) (x19 : bool) (x20 : bool), clv x1 -> clv x7 -> clv x8 -> clv x9 -> clv x10 -> clv x11 -> clv x12 -> clv x16 -> clv x17 -> clv x18 -> clv (mkClient x0 x1 x2 x3 x4 x5 x6 x7 x8 x9 x10 x11 x12 x13 x14 x15 x16 x17 x18 x19 x20). Proof. intros; constructor; assumption. Qed.
#[export] Hint Resolve clv_mkClient : clv.
Lemma clv_set_cl_starttime : forall (v : Z) (r : client), clv r -> clv (set_cl_starttime v r). Proof. intros v r; intros; match goal with H : clv r |- _ => destruct H end; constructor; simpl; auto. Qed.
#[export] Hint Resolve clv_set_cl_starttime : clv.
Lemma clv_set_cl_id : forall (v : bytes) (r : client), clv v -> clv r -> clv (set_cl_id v r). Proof. intros v r; intros; match goal with H : clv r |- _ => destruct H end; constructor; simpl; auto. Qed.
#[export] Hint Resolve clv_set_cl_id : clv.
Lemma clv_set_cl_hash : forall (v : N) (r : client), clv r -> clv (set_cl_hash v r). Proof. intros v r; intros; match goal with H : clv r |- _ => destruct H end; constructor; simpl; auto. Qed.
#[export] Hint Resolve clv_set_cl_hash : clv.
Lemma clv_set_cl_type : forall (v : ctype) (r : client), clv r -> clv (set_cl_type v r). Proof. intros v r; intros; match goal with H : clv r |- _ => destruct H end; constructor; simpl; auto. Qed.
#[export] Hint Resolve clv_set_cl_type : clv.
Lemma clv_set_cl_conn : forall (v : option connid) (r : client), clv r -> clv (set_cl_conn v r). Proof. intros v r; intros; match goal with H : clv r |- _ => destruct H end; constructor; simpl; auto. Qed.
#[export] Hint Resolve clv_set_cl_conn : clv.
Lemma clv_set_cl_introducer : forall (v : option handle) (r : client), clv r -> clv (set_cl_introducer v r). Proof. intros v r; intros; match goal with H : clv r |- _ => destruct H end; constructor; simpl; auto. Qed.
#[export] Hint Resolve clv_set_cl_introducer : clv.
Lemma clv_set_cl_topserver : forall (v : option handle) (r : client), clv r -> clv (set_cl_topserver v r). Proof. intros v r; intros; match goal with H : clv r |- _ => destruct H end; constructor; simpl; auto. Qed.
#[export] Hint Resolve clv_set_cl_topserver : clv.
Lemma clv_set_cl_host : forall (v : bytes) (r : client), clv v -> clv r -> clv (set_cl_host v r). Proof. intros v r; intros; match goal with H : clv r |- _ => destruct H end; constructor; simpl; auto. Qed.
#[export] Hint Resolve clv_set_cl_host : clv.
Lemma clv_set_cl_cloaked : forall (v : option bytes) (r : client), clv v -> clv r -> clv (set_cl_cloaked v r). Proof. intros v r; intros; match goal with H : clv r |- _ => destruct H end; constructor; simpl; auto. Qed.
#[export] Hint Resolve clv_set_cl_cloaked : clv.
Lemma clv_set_cl_ipa : forall (v : option bytes) (r : client), clv v -> clv r -> clv (set_cl_ipa v r). Proof. intros v r; intros; match goal with H : clv r |- _ => destruct H end; constructor; simpl; auto. Qed.
#[export] Hint Resolve clv_set_cl_ipa : clv.
Lemma clv_set_cl_user : forall (v : bytes) (r : client), clv v -> clv r -> clv (set_cl_user v r). Proof. intros v r; intros; match goal with H : clv r |- _ => destruct H end; constructor; simpl; auto. Qed.
#[export] Hint Resolve clv_set_cl_user : clv.
Lemma clv_set_cl_info : forall (v : bytes) (r : client), clv v -> clv r -> clv (set_cl_info v r). Proof. intros v r; intros; match goal with H : clv r |- _ => destruct H end; constructor; simpl; auto. Qed.
#[export] Hint Resolve clv_set_cl_info : clv.
Lemma clv_set_cl_modes : forall (v : bytes) (r : client), clv v -> clv r -> clv (set_cl_modes v r). Proof. intros v r; intros; match goal with H : clv r |- _ => destruct H end; constructor; simpl; auto. Qed.
#[export] Hint Resolve clv_set_cl_modes : clv.
Lemma clv_set_cl_hops : forall (v : Z) (r : client), clv r -> clv (set_cl_hops v r). Proof. intros v r; intros; match goal with H : clv r |- _ => destruct H end; constructor; simpl; auto. Qed.
#[export] Hint Resolve clv_set_cl_hops : clv.
Lemma clv_set_cl_token : forall (v : Z) (r : client), clv r -> clv (set_cl_token v r). Proof. intros v r; intros; match goal with H : clv r |- _ => destruct H end; constructor; simpl; auto. Qed.
#[export] Hint Resolve clv_set_cl_token : clv.
Lemma clv_set_cl_mytoken : forall (v : Z) (r : client), clv r -> clv (set_cl_mytoken v r). Proof. intros v r; intros; match goal with H : clv r |- _ => destruct H end; constructor; simpl; auto. Qed.
#[export] Hint Resolve clv_set_cl_mytoken : clv.
Lemma clv_set_cl_away : forall (v : option bytes) (r : client), clv v -> clv r -> clv (set_cl_away v r). Proof. intros v r; intros; match goal with H : clv r |- _ => destruct H end; constructor; simpl; auto. Qed.
#[export] Hint Resolve clv_set_cl_away : clv.
Lemma clv_set_cl_flags : forall (v : bytes) (r : client), clv v -> clv r -> clv (set_cl_flags v r). Proof. intros v r; intros; match goal with H : clv r |- _ => destruct H end; constructor; simpl; auto. Qed.
#[export] Hint Resolve clv_set_cl_flags : clv.
Lemma clv_set_cl_account : forall (v : option bytes) (r : client), clv v -> clv r -> clv (set_cl_account v r). Proof. intros v r; intros; match goal with H : clv r |- _ => destruct H end; constructor; simpl; auto. Qed.
#[export] Hint Resolve clv_set_cl_account : clv.
Lemma clv_set_cl_cap_pending : forall (v : bool) (r : client), clv r -> clv (set_cl_cap_pending v r). Proof. intros v r; intros; match goal with H : clv r |- _ => destruct H end; constructor; simpl; auto. Qed.
#[export] Hint Resolve clv_set_cl_cap_pending : clv.
Lemma clv_set_cl_cap_multi : forall (v : bool) (r : client), clv r -> clv (set_cl_cap_multi v r). Proof. intros v r; intros; match goal with H : clv r |- _ => destruct H end; constructor; simpl; auto. Qed.
#[export] Hint Resolve clv_set_cl_cap_multi : clv.
Record clean_channel (r : channel) : Prop := mk_clean_channel {
  k_ch_name : clv (ch_name r);
  k_ch_modes : clv (ch_modes r);
  k_ch_topic : clv (ch_topic r);
  k_ch_topic_who : clv (ch_topic_who r);
  k_ch_key : clv (ch_key r);
  k_ch_bans : clv (ch_bans r);
  k_ch_excepts : clv (ch_excepts r);
  k_ch_invites : clv (ch_invites r);
  k_ch_keyfile : clv (ch_keyfile r) }.
#[export] Instance Cl_channel : Cl channel := clean_channel.
Lemma clv_ch_name : forall r : channel, clv r -> clv (ch_name r). Proof. intros r H. apply H. Qed.
#[export] Hint Resolve clv_ch_name : clv.
Lemma clv_ch_modes : forall r : channel, clv r -> clv (ch_modes r). Proof. intros r H. apply H. Qed.
#[export] Hint Resolve clv_ch_modes : clv.
Lemma clv_ch_topic : forall r : channel, clv r -> clv (ch_topic r). Proof. intros r H. apply H. Qed.
#[export] Hint Resolve clv_ch_topic : clv.
Lemma clv_ch_topic_who : forall r : channel, clv r -> clv (ch_topic_who r). Proof. intros r H. apply H. Qed.
#[export] Hint Resolve clv_ch_topic_who : clv.
Lemma clv_ch_key : forall r : channel, clv r -> clv (ch_key r). Proof. intros r H. apply H. Qed.
#[export] Hint Resolve clv_ch_key : clv.
Lemma clv_ch_bans : forall r : channel, clv r -> clv (ch_bans r). Proof. intros r H. apply H. Qed.
#[export] Hint Resolve clv_ch_bans : clv.
Lemma clv_ch_excepts : forall r : channel, clv r -> clv (ch_excepts r). Proof. intros r H. apply H. Qed.
#[export] Hint Resolve clv_ch_excepts : clv.
Lemma clv_ch_invites : forall r : channel, clv r -> clv (ch_invites r). Proof. intros r H. apply H. Qed.
#[export] Hint Resolve clv_ch_invites : clv.
Lemma clv_ch_keyfile : forall r : channel, clv r -> clv (ch_keyfile r). Proof. intros r H. apply H. Qed.
#[export] Hint Resolve clv_ch_keyfile : clv.
Lemma clv_mkChannel : forall (x0 : bytes) (x1 : N) (x2 : bytes) (x3 : bytes) (x4 : Z) (x5 : Z) (x6 : bytes) (x7 : bytes) (x8 : Z) (x9 : mlist) (x10 : mlist) (x11 : mlist) (x12 : bytes), clv x0 -> clv x2 -> clv x3 -> clv x6 -> clv x7 -> clv x9 -> clv x10 -> clv x11 -> clv x12 -> clv (mkChannel x0 x1 x2 x3 x4 x5 x6 x7 x8 x9 x10 x11 x12). Proof. intros; constructor; assumption. Qed.
#[export] Hint Resolve clv_mkChannel : clv.
Lemma clv_set_ch_name : forall (v : bytes) (r : channel), clv v -> clv r -> clv (set_ch_name v r). Proof. intros v r; intros; match goal with H : clv r |- _ => destruct H end; constructor; simpl; auto. Qed.
#[export] Hint Resolve clv_set_ch_name : clv.
Lemma clv_set_ch_hash : forall (v : N) (r : channel), clv r -> clv (set_ch_hash v r). Proof. intros v r; intros; match goal with H : clv r |- _ => destruct H end; constructor; simpl; auto. Qed.
#[export] Hint Resolve clv_set_ch_hash : clv.
Lemma clv_set_ch_modes : forall (v : bytes) (r : channel), clv v -> clv r -> clv (set_ch_modes v r). Proof. intros v r; intros; match goal with H : clv r |- _ => destruct H end; constructor; simpl; auto. Qed.
#[export] Hint Resolve clv_set_ch_modes : clv.
Lemma clv_set_ch_topic : forall (v : bytes) (r : channel), clv v -> clv r -> clv (set_ch_topic v r). Proof. intros v r; intros; match goal with H : clv r |- _ => destruct H end; constructor; simpl; auto. Qed.
#[export] Hint Resolve clv_set_ch_topic : clv.
Lemma clv_set_ch_ctime : forall (v : Z) (r : channel), clv r -> clv (set_ch_ctime v r). Proof. intros v r; intros; match goal with H : clv r |- _ => destruct H end; constructor; simpl; auto. Qed.
#[export] Hint Resolve clv_set_ch_ctime : clv.
Lemma clv_set_ch_topic_time : forall (v : Z) (r : channel), clv r -> clv (set_ch_topic_time v r). Proof. intros v r; intros; match goal with H : clv r |- _ => destruct H end; constructor; simpl; auto. Qed.
#[export] Hint Resolve clv_set_ch_topic_time : clv.
Lemma clv_set_ch_topic_who : forall (v : bytes) (r : channel), clv v -> clv r -> clv (set_ch_topic_who v r). Proof. intros v r; intros; match goal with H : clv r |- _ => destruct H end; constructor; simpl; auto. Qed.
#[export] Hint Resolve clv_set_ch_topic_who : clv.
Lemma clv_set_ch_key : forall (v : bytes) (r : channel), clv v -> clv r -> clv (set_ch_key v r). Proof. intros v r; intros; match goal with H : clv r |- _ => destruct H end; constructor; simpl; auto. Qed.
#[export] Hint Resolve clv_set_ch_key : clv.
Lemma clv_set_ch_maxusers : forall (v : Z) (r : channel), clv r -> clv (set_ch_maxusers v r). Proof. intros v r; intros; match goal with H : clv r |- _ => destruct H end; constructor; simpl; auto. Qed.
#[export] Hint Resolve clv_set_ch_maxusers : clv.
Lemma clv_set_ch_bans : forall (v : mlist) (r : channel), clv v -> clv r -> clv (set_ch_bans v r). Proof. intros v r; intros; match goal with H : clv r |- _ => destruct H end; constructor; simpl; auto. Qed.
#[export] Hint Resolve clv_set_ch_bans : clv.
Lemma clv_set_ch_excepts : forall (v : mlist) (r : channel), clv v -> clv r -> clv (set_ch_excepts v r). Proof. intros v r; intros; match goal with H : clv r |- _ => destruct H end; constructor; simpl; auto. Qed.
#[export] Hint Resolve clv_set_ch_excepts : clv.
Lemma clv_set_ch_invites : forall (v : mlist) (r : channel), clv v -> clv r -> clv (set_ch_invites v r). Proof. intros v r; intros; match goal with H : clv r |- _ => destruct H end; constructor; simpl; auto. Qed.
#[export] Hint Resolve clv_set_ch_invites : clv.
Lemma clv_set_ch_keyfile : forall (v : bytes) (r : channel), clv v -> clv r -> clv (set_ch_keyfile v r). Proof. intros v r; intros; match goal with H : clv r |- _ => destruct H end; constructor; simpl; auto. Qed.
#[export] Hint Resolve clv_set_ch_keyfile : clv.
Record clean_member (r : member) : Prop := mk_clean_member {
  k_mb_modes : clv (mb_modes r) }.
#[export] Instance Cl_member : Cl member := clean_member.
Lemma clv_mb_modes : forall r : member, clv r -> clv (mb_modes r). Proof. intros r H. apply H. Qed.
#[export] Hint Resolve clv_mb_modes : clv.
Lemma clv_mkMember : forall (x0 : handle) (x1 : chandle) (x2 : bytes), clv x2 -> clv (mkMember x0 x1 x2). Proof. intros; constructor; assumption. Qed.
#[export] Hint Resolve clv_mkMember : clv.
Lemma clv_set_mb_client : forall (v : handle) (r : member), clv r -> clv (set_mb_client v r). Proof. intros v r; intros; match goal with H : clv r |- _ => destruct H end; constructor; simpl; auto. Qed.
#[export] Hint Resolve clv_set_mb_client : clv.
Lemma clv_set_mb_chan : forall (v : chandle) (r : member), clv r -> clv (set_mb_chan v r). Proof. intros v r; intros; match goal with H : clv r |- _ => destruct H end; constructor; simpl; auto. Qed.
#[export] Hint Resolve clv_set_mb_chan : clv.
Lemma clv_set_mb_modes : forall (v : bytes) (r : member), clv v -> clv r -> clv (set_mb_modes v r). Proof. intros v r; intros; match goal with H : clv r |- _ => destruct H end; constructor; simpl; auto. Qed.
#[export] Hint Resolve clv_set_mb_modes : clv.
Record clean_conn (r : conn) : Prop := mk_clean_conn {
  k_co_ip : clv (co_ip r);
  k_co_host : clv (co_host r);
  k_co_pwd : clv (co_pwd r) }.
#[export] Instance Cl_conn : Cl conn := clean_conn.
Lemma clv_co_ip : forall r : conn, clv r -> clv (co_ip r). Proof. intros r H. apply H. Qed.
#[export] Hint Resolve clv_co_ip : clv.
Lemma clv_co_host : forall r : conn, clv r -> clv (co_host r). Proof. intros r H. apply H. Qed.
#[export] Hint Resolve clv_co_host : clv.
Lemma clv_co_pwd : forall r : conn, clv r -> clv (co_pwd r). Proof. intros r H. apply H. Qed.
#[export] Hint Resolve clv_co_pwd : clv.
Lemma clv_mkConn : forall (x0 : bool) (x1 : bytes) (x2 : bytes) (x3 : option bytes) (x4 : bytes) (x5 : Z) (x6 : Z) (x7 : Z) (x8 : Z) (x9 : Z) (x10 : Z) (x11 : Z) (x12 : Z) (x13 : Z) (x14 : nat) (x15 : bool) (x16 : bool) (x17 : bool) (x18 : Z) (x19 : option handle) (x20 : Z), clv x1 -> clv x2 -> clv x3 -> clv (mkConn x0 x1 x2 x3 x4 x5 x6 x7 x8 x9 x10 x11 x12 x13 x14 x15 x16 x17 x18 x19 x20). Proof. intros; constructor; assumption. Qed.
#[export] Hint Resolve clv_mkConn : clv.
Lemma clv_set_co_open : forall (v : bool) (r : conn), clv r -> clv (set_co_open v r). Proof. intros v r; intros; match goal with H : clv r |- _ => destruct H end; constructor; simpl; auto. Qed.
#[export] Hint Resolve clv_set_co_open : clv.
Lemma clv_set_co_ip : forall (v : bytes) (r : conn), clv v -> clv r -> clv (set_co_ip v r). Proof. intros v r; intros; match goal with H : clv r |- _ => destruct H end; constructor; simpl; auto. Qed.
#[export] Hint Resolve clv_set_co_ip : clv.
Lemma clv_set_co_host : forall (v : bytes) (r : conn), clv v -> clv r -> clv (set_co_host v r). Proof. intros v r; intros; match goal with H : clv r |- _ => destruct H end; constructor; simpl; auto. Qed.
#[export] Hint Resolve clv_set_co_host : clv.
Lemma clv_set_co_pwd : forall (v : option bytes) (r : conn), clv v -> clv r -> clv (set_co_pwd v r). Proof. intros v r; intros; match goal with H : clv r |- _ => destruct H end; constructor; simpl; auto. Qed.
#[export] Hint Resolve clv_set_co_pwd : clv.
Lemma clv_set_co_rbuf : forall (v : bytes) (r : conn), clv r -> clv (set_co_rbuf v r). Proof. intros v r; intros; match goal with H : clv r |- _ => destruct H end; constructor; simpl; auto. Qed.
#[export] Hint Resolve clv_set_co_rbuf : clv.
Lemma clv_set_co_signon : forall (v : Z) (r : conn), clv r -> clv (set_co_signon v r). Proof. intros v r; intros; match goal with H : clv r |- _ => destruct H end; constructor; simpl; auto. Qed.
#[export] Hint Resolve clv_set_co_signon : clv.
Lemma clv_set_co_lastdata : forall (v : Z) (r : conn), clv r -> clv (set_co_lastdata v r). Proof. intros v r; intros; match goal with H : clv r |- _ => destruct H end; constructor; simpl; auto. Qed.
#[export] Hint Resolve clv_set_co_lastdata : clv.
Lemma clv_set_co_lastping : forall (v : Z) (r : conn), clv r -> clv (set_co_lastping v r). Proof. intros v r; intros; match goal with H : clv r |- _ => destruct H end; constructor; simpl; auto. Qed.
#[export] Hint Resolve clv_set_co_lastping : clv.
Lemma clv_set_co_lastprivmsg : forall (v : Z) (r : conn), clv r -> clv (set_co_lastprivmsg v r). Proof. intros v r; intros; match goal with H : clv r |- _ => destruct H end; constructor; simpl; auto. Qed.
#[export] Hint Resolve clv_set_co_lastprivmsg : clv.
Lemma clv_set_co_delaytime : forall (v : Z) (r : conn), clv r -> clv (set_co_delaytime v r). Proof. intros v r; intros; match goal with H : clv r |- _ => destruct H end; constructor; simpl; auto. Qed.
#[export] Hint Resolve clv_set_co_delaytime : clv.
Lemma clv_set_co_bytes_in : forall (v : Z) (r : conn), clv r -> clv (set_co_bytes_in v r). Proof. intros v r; intros; match goal with H : clv r |- _ => destruct H end; constructor; simpl; auto. Qed.
#[export] Hint Resolve clv_set_co_bytes_in : clv.
Lemma clv_set_co_bytes_out : forall (v : Z) (r : conn), clv r -> clv (set_co_bytes_out v r). Proof. intros v r; intros; match goal with H : clv r |- _ => destruct H end; constructor; simpl; auto. Qed.
#[export] Hint Resolve clv_set_co_bytes_out : clv.
Lemma clv_set_co_msg_in : forall (v : Z) (r : conn), clv r -> clv (set_co_msg_in v r). Proof. intros v r; intros; match goal with H : clv r |- _ => destruct H end; constructor; simpl; auto. Qed.
#[export] Hint Resolve clv_set_co_msg_in : clv.
Lemma clv_set_co_msg_out : forall (v : Z) (r : conn), clv r -> clv (set_co_msg_out v r). Proof. intros v r; intros; match goal with H : clv r |- _ => destruct H end; constructor; simpl; auto. Qed.
#[export] Hint Resolve clv_set_co_msg_out : clv.
Lemma clv_set_co_flag : forall (v : nat) (r : conn), clv r -> clv (set_co_flag v r). Proof. intros v r; intros; match goal with H : clv r |- _ => destruct H end; constructor; simpl; auto. Qed.
#[export] Hint Resolve clv_set_co_flag : clv.
Lemma clv_set_co_closing : forall (v : bool) (r : conn), clv r -> clv (set_co_closing v r). Proof. intros v r; intros; match goal with H : clv r |- _ => destruct H end; constructor; simpl; auto. Qed.
#[export] Hint Resolve clv_set_co_closing : clv.
Lemma clv_set_co_connecting : forall (v : bool) (r : conn), clv r -> clv (set_co_connecting v r). Proof. intros v r; intros; match goal with H : clv r |- _ => destruct H end; constructor; simpl; auto. Qed.
#[export] Hint Resolve clv_set_co_connecting : clv.
Lemma clv_set_co_rfc1459 : forall (v : bool) (r : conn), clv r -> clv (set_co_rfc1459 v r). Proof. intros v r; intros; match goal with H : clv r |- _ => destruct H end; constructor; simpl; auto. Qed.
#[export] Hint Resolve clv_set_co_rfc1459 : clv.
Lemma clv_set_co_bps : forall (v : Z) (r : conn), clv r -> clv (set_co_bps v r). Proof. intros v r; intros; match goal with H : clv r |- _ => destruct H end; constructor; simpl; auto. Qed.
#[export] Hint Resolve clv_set_co_bps : clv.
Lemma clv_set_co_client : forall (v : option handle) (r : conn), clv r -> clv (set_co_client v r). Proof. intros v r; intros; match goal with H : clv r |- _ => destruct H end; constructor; simpl; auto. Qed.
#[export] Hint Resolve clv_set_co_client : clv.
Lemma clv_set_co_auth_ping : forall (v : Z) (r : conn), clv r -> clv (set_co_auth_ping v r). Proof. intros v r; intros; match goal with H : clv r |- _ => destruct H end; constructor; simpl; auto. Qed.
#[export] Hint Resolve clv_set_co_auth_ping : clv.
Record clean_cserver (r : cserver) : Prop := mk_clean_cserver {
  k_sv_host : clv (sv_host r);
  k_sv_name : clv (sv_name r);
  k_sv_pwd_in : clv (sv_pwd_in r);
  k_sv_pwd_out : clv (sv_pwd_out r);
  k_sv_svs_mask : clv (sv_svs_mask r) }.
#[export] Instance Cl_cserver : Cl cserver := clean_cserver.
Lemma clv_sv_host : forall r : cserver, clv r -> clv (sv_host r). Proof. intros r H. apply H. Qed.
#[export] Hint Resolve clv_sv_host : clv.
Lemma clv_sv_name : forall r : cserver, clv r -> clv (sv_name r). Proof. intros r H. apply H. Qed.
#[export] Hint Resolve clv_sv_name : clv.
Lemma clv_sv_pwd_in : forall r : cserver, clv r -> clv (sv_pwd_in r). Proof. intros r H. apply H. Qed.
#[export] Hint Resolve clv_sv_pwd_in : clv.
Lemma clv_sv_pwd_out : forall r : cserver, clv r -> clv (sv_pwd_out r). Proof. intros r H. apply H. Qed.
#[export] Hint Resolve clv_sv_pwd_out : clv.
Lemma clv_sv_svs_mask : forall r : cserver, clv r -> clv (sv_svs_mask r). Proof. intros r H. apply H. Qed.
#[export] Hint Resolve clv_sv_svs_mask : clv.
Lemma clv_mkCserver : forall (x0 : bytes) (x1 : bytes) (x2 : bytes) (x3 : bytes) (x4 : Z) (x5 : Z) (x6 : Z) (x7 : bool) (x8 : bool) (x9 : option connid) (x10 : bytes), clv x0 -> clv x1 -> clv x2 -> clv x3 -> clv x10 -> clv (mkCserver x0 x1 x2 x3 x4 x5 x6 x7 x8 x9 x10). Proof. intros; constructor; assumption. Qed.
#[export] Hint Resolve clv_mkCserver : clv.
Lemma clv_set_sv_host : forall (v : bytes) (r : cserver), clv v -> clv r -> clv (set_sv_host v r). Proof. intros v r; intros; match goal with H : clv r |- _ => destruct H end; constructor; simpl; auto. Qed.
#[export] Hint Resolve clv_set_sv_host : clv.
Lemma clv_set_sv_name : forall (v : bytes) (r : cserver), clv v -> clv r -> clv (set_sv_name v r). Proof. intros v r; intros; match goal with H : clv r |- _ => destruct H end; constructor; simpl; auto. Qed.
#[export] Hint Resolve clv_set_sv_name : clv.
Lemma clv_set_sv_pwd_in : forall (v : bytes) (r : cserver), clv v -> clv r -> clv (set_sv_pwd_in v r). Proof. intros v r; intros; match goal with H : clv r |- _ => destruct H end; constructor; simpl; auto. Qed.
#[export] Hint Resolve clv_set_sv_pwd_in : clv.
Lemma clv_set_sv_pwd_out : forall (v : bytes) (r : cserver), clv v -> clv r -> clv (set_sv_pwd_out v r). Proof. intros v r; intros; match goal with H : clv r |- _ => destruct H end; constructor; simpl; auto. Qed.
#[export] Hint Resolve clv_set_sv_pwd_out : clv.
Lemma clv_set_sv_port : forall (v : Z) (r : cserver), clv r -> clv (set_sv_port v r). Proof. intros v r; intros; match goal with H : clv r |- _ => destruct H end; constructor; simpl; auto. Qed.
#[export] Hint Resolve clv_set_sv_port : clv.
Lemma clv_set_sv_group : forall (v : Z) (r : cserver), clv r -> clv (set_sv_group v r). Proof. intros v r; intros; match goal with H : clv r |- _ => destruct H end; constructor; simpl; auto. Qed.
#[export] Hint Resolve clv_set_sv_group : clv.
Lemma clv_set_sv_lasttry : forall (v : Z) (r : cserver), clv r -> clv (set_sv_lasttry v r). Proof. intros v r; intros; match goal with H : clv r |- _ => destruct H end; constructor; simpl; auto. Qed.
#[export] Hint Resolve clv_set_sv_lasttry : clv.
Lemma clv_set_sv_once : forall (v : bool) (r : cserver), clv r -> clv (set_sv_once v r). Proof. intros v r; intros; match goal with H : clv r |- _ => destruct H end; constructor; simpl; auto. Qed.
#[export] Hint Resolve clv_set_sv_once : clv.
Lemma clv_set_sv_disabled : forall (v : bool) (r : cserver), clv r -> clv (set_sv_disabled v r). Proof. intros v r; intros; match goal with H : clv r |- _ => destruct H end; constructor; simpl; auto. Qed.
#[export] Hint Resolve clv_set_sv_disabled : clv.
Lemma clv_set_sv_conn : forall (v : option connid) (r : cserver), clv r -> clv (set_sv_conn v r). Proof. intros v r; intros; match goal with H : clv r |- _ => destruct H end; constructor; simpl; auto. Qed.
#[export] Hint Resolve clv_set_sv_conn : clv.
Lemma clv_set_sv_svs_mask : forall (v : bytes) (r : cserver), clv v -> clv r -> clv (set_sv_svs_mask v r). Proof. intros v r; intros; match goal with H : clv r |- _ => destruct H end; constructor; simpl; auto. Qed.
#[export] Hint Resolve clv_set_sv_svs_mask : clv.
Record clean_whowas (r : whowas) : Prop := mk_clean_whowas {
  k_ww_id : clv (ww_id r);
  k_ww_host : clv (ww_host r);
  k_ww_user : clv (ww_user r);
  k_ww_info : clv (ww_info r);
  k_ww_server : clv (ww_server r) }.
#[export] Instance Cl_whowas : Cl whowas := clean_whowas.
Lemma clv_ww_id : forall r : whowas, clv r -> clv (ww_id r). Proof. intros r H. apply H. Qed.
#[export] Hint Resolve clv_ww_id : clv.
Lemma clv_ww_host : forall r : whowas, clv r -> clv (ww_host r). Proof. intros r H. apply H. Qed.
#[export] Hint Resolve clv_ww_host : clv.
Lemma clv_ww_user : forall r : whowas, clv r -> clv (ww_user r). Proof. intros r H. apply H. Qed.
#[export] Hint Resolve clv_ww_user : clv.
Lemma clv_ww_info : forall r : whowas, clv r -> clv (ww_info r). Proof. intros r H. apply H. Qed.
#[export] Hint Resolve clv_ww_info : clv.
Lemma clv_ww_server : forall r : whowas, clv r -> clv (ww_server r). Proof. intros r H. apply H. Qed.
#[export] Hint Resolve clv_ww_server : clv.
Lemma clv_mkWhowas : forall (x0 : Z) (x1 : bytes) (x2 : bytes) (x3 : bytes) (x4 : bytes) (x5 : bytes), clv x1 -> clv x2 -> clv x3 -> clv x4 -> clv x5 -> clv (mkWhowas x0 x1 x2 x3 x4 x5). Proof. intros; constructor; assumption. Qed.
#[export] Hint Resolve clv_mkWhowas : clv.
Lemma clv_set_ww_time : forall (v : Z) (r : whowas), clv r -> clv (set_ww_time v r). Proof. intros v r; intros; match goal with H : clv r |- _ => destruct H end; constructor; simpl; auto. Qed.
#[export] Hint Resolve clv_set_ww_time : clv.
Lemma clv_set_ww_id : forall (v : bytes) (r : whowas), clv v -> clv r -> clv (set_ww_id v r). Proof. intros v r; intros; match goal with H : clv r |- _ => destruct H end; constructor; simpl; auto. Qed.
#[export] Hint Resolve clv_set_ww_id : clv.
Lemma clv_set_ww_host : forall (v : bytes) (r : whowas), clv v -> clv r -> clv (set_ww_host v r). Proof. intros v r; intros; match goal with H : clv r |- _ => destruct H end; constructor; simpl; auto. Qed.
#[export] Hint Resolve clv_set_ww_host : clv.
Lemma clv_set_ww_user : forall (v : bytes) (r : whowas), clv v -> clv r -> clv (set_ww_user v r). Proof. intros v r; intros; match goal with H : clv r |- _ => destruct H end; constructor; simpl; auto. Qed.
#[export] Hint Resolve clv_set_ww_user : clv.
Lemma clv_set_ww_info : forall (v : bytes) (r : whowas), clv v -> clv r -> clv (set_ww_info v r). Proof. intros v r; intros; match goal with H : clv r |- _ => destruct H end; constructor; simpl; auto. Qed.
#[export] Hint Resolve clv_set_ww_info : clv.
Lemma clv_set_ww_server : forall (v : bytes) (r : whowas), clv v -> clv r -> clv (set_ww_server v r). Proof. intros v r; intros; match goal with H : clv r |- _ => destruct H end; constructor; simpl; auto. Qed.
#[export] Hint Resolve clv_set_ww_server : clv.
Record clean_coper (r : coper) : Prop := mk_clean_coper {
  k_op_name : clv (op_name r);
  k_op_pwd : clv (op_pwd r);
  k_op_mask : clv (op_mask r) }.
#[export] Instance Cl_coper : Cl coper := clean_coper.
Lemma clv_op_name : forall r : coper, clv r -> clv (op_name r). Proof. intros r H. apply H. Qed.
#[export] Hint Resolve clv_op_name : clv.
Lemma clv_op_pwd : forall r : coper, clv r -> clv (op_pwd r). Proof. intros r H. apply H. Qed.
#[export] Hint Resolve clv_op_pwd : clv.
Lemma clv_op_mask : forall r : coper, clv r -> clv (op_mask r). Proof. intros r H. apply H. Qed.
#[export] Hint Resolve clv_op_mask : clv.
Lemma clv_mkCoper : forall (x0 : bytes) (x1 : bytes) (x2 : option bytes), clv x0 -> clv x1 -> clv x2 -> clv (mkCoper x0 x1 x2). Proof. intros; constructor; assumption. Qed.
#[export] Hint Resolve clv_mkCoper : clv.
Lemma clv_set_op_name : forall (v : bytes) (r : coper), clv v -> clv r -> clv (set_op_name v r). Proof. intros v r; intros; match goal with H : clv r |- _ => destruct H end; constructor; simpl; auto. Qed.
#[export] Hint Resolve clv_set_op_name : clv.
Lemma clv_set_op_pwd : forall (v : bytes) (r : coper), clv v -> clv r -> clv (set_op_pwd v r). Proof. intros v r; intros; match goal with H : clv r |- _ => destruct H end; constructor; simpl; auto. Qed.
#[export] Hint Resolve clv_set_op_pwd : clv.
Lemma clv_set_op_mask : forall (v : option bytes) (r : coper), clv v -> clv r -> clv (set_op_mask v r). Proof. intros v r; intros; match goal with H : clv r |- _ => destruct H end; constructor; simpl; auto. Qed.
#[export] Hint Resolve clv_set_op_mask : clv.
Record clean_cchan (r : cchan) : Prop := mk_clean_cchan {
  k_cc_name : clv (cc_name r);
  k_cc_modes : clv (cc_modes r);
  k_cc_key : clv (cc_key r);
  k_cc_topic : clv (cc_topic r);
  k_cc_keyfile : clv (cc_keyfile r) }.
#[export] Instance Cl_cchan : Cl cchan := clean_cchan.
Lemma clv_cc_name : forall r : cchan, clv r -> clv (cc_name r). Proof. intros r H. apply H. Qed.
#[export] Hint Resolve clv_cc_name : clv.
Lemma clv_cc_modes : forall r : cchan, clv r -> clv (cc_modes r). Proof. intros r H. apply H. Qed.
#[export] Hint Resolve clv_cc_modes : clv.
Lemma clv_cc_key : forall r : cchan, clv r -> clv (cc_key r). Proof. intros r H. apply H. Qed.
#[export] Hint Resolve clv_cc_key : clv.
Lemma clv_cc_topic : forall r : cchan, clv r -> clv (cc_topic r). Proof. intros r H. apply H. Qed.
#[export] Hint Resolve clv_cc_topic : clv.
Lemma clv_cc_keyfile : forall r : cchan, clv r -> clv (cc_keyfile r). Proof. intros r H. apply H. Qed.
#[export] Hint Resolve clv_cc_keyfile : clv.
Lemma clv_mkCchan : forall (x0 : bytes) (x1 : list bytes) (x2 : bytes) (x3 : bytes) (x4 : bytes) (x5 : bool) (x6 : Z), clv x0 -> clv x1 -> clv x2 -> clv x3 -> clv x4 -> clv (mkCchan x0 x1 x2 x3 x4 x5 x6). Proof. intros; constructor; assumption. Qed.
#[export] Hint Resolve clv_mkCchan : clv.
Lemma clv_set_cc_name : forall (v : bytes) (r : cchan), clv v -> clv r -> clv (set_cc_name v r). Proof. intros v r; intros; match goal with H : clv r |- _ => destruct H end; constructor; simpl; auto. Qed.
#[export] Hint Resolve clv_set_cc_name : clv.
Lemma clv_set_cc_modes : forall (v : list bytes) (r : cchan), clv v -> clv r -> clv (set_cc_modes v r). Proof. intros v r; intros; match goal with H : clv r |- _ => destruct H end; constructor; simpl; auto. Qed.
#[export] Hint Resolve clv_set_cc_modes : clv.
Lemma clv_set_cc_key : forall (v : bytes) (r : cchan), clv v -> clv r -> clv (set_cc_key v r). Proof. intros v r; intros; match goal with H : clv r |- _ => destruct H end; constructor; simpl; auto. Qed.
#[export] Hint Resolve clv_set_cc_key : clv.
Lemma clv_set_cc_topic : forall (v : bytes) (r : cchan), clv v -> clv r -> clv (set_cc_topic v r). Proof. intros v r; intros; match goal with H : clv r |- _ => destruct H end; constructor; simpl; auto. Qed.
#[export] Hint Resolve clv_set_cc_topic : clv.
Lemma clv_set_cc_keyfile : forall (v : bytes) (r : cchan), clv v -> clv r -> clv (set_cc_keyfile v r). Proof. intros v r; intros; match goal with H : clv r |- _ => destruct H end; constructor; simpl; auto. Qed.
#[export] Hint Resolve clv_set_cc_keyfile : clv.
Lemma clv_set_cc_autojoin : forall (v : bool) (r : cchan), clv r -> clv (set_cc_autojoin v r). Proof. intros v r; intros; match goal with H : clv r |- _ => destruct H end; constructor; simpl; auto. Qed.
#[export] Hint Resolve clv_set_cc_autojoin : clv.
Lemma clv_set_cc_maxusers : forall (v : Z) (r : cchan), clv r -> clv (set_cc_maxusers v r). Proof. intros v r; intros; match goal with H : clv r |- _ => destruct H end; constructor; simpl; auto. Qed.
#[export] Hint Resolve clv_set_cc_maxusers : clv.
Record clean_conf (r : conf) : Prop := mk_clean_conf {
  k_cf_servername : clv (cf_servername r);
  k_cf_serverinfo : clv (cf_serverinfo r);
  k_cf_serverpwd : clv (cf_serverpwd r);
  k_cf_admin1 : clv (cf_admin1 r);
  k_cf_admin2 : clv (cf_admin2 r);
  k_cf_adminmail : clv (cf_adminmail r);
  k_cf_network : clv (cf_network r);
  k_cf_motd : clv (cf_motd r);
  k_cf_help : clv (cf_help r);
  k_cf_opers : clv (cf_opers r);
  k_cf_channels : clv (cf_channels r);
  k_cf_chantypes : clv (cf_chantypes r);
  k_cf_cloakhost : clv (cf_cloakhost r);
  k_cf_cloakhostmodex : clv (cf_cloakhostmodex r);
  k_cf_cloaksalt : clv (cf_cloaksalt r);
  k_cf_defusermodes : clv (cf_defusermodes r);
  k_cf_hostname : clv (cf_hostname r);
  k_cf_webircpwd : clv (cf_webircpwd r);
  k_cf_rtext : clv (cf_rtext r);
  k_cf_timestr : clv (cf_timestr r);
  k_cf_startdate : clv (cf_startdate r) }.
#[export] Instance Cl_conf : Cl conf := clean_conf.
Lemma clv_cf_servername : forall r : conf, clv r -> clv (cf_servername r). Proof. intros r H. apply H. Qed.
#[export] Hint Resolve clv_cf_servername : clv.
Lemma clv_cf_serverinfo : forall r : conf, clv r -> clv (cf_serverinfo r). Proof. intros r H. apply H. Qed.
#[export] Hint Resolve clv_cf_serverinfo : clv.
Lemma clv_cf_serverpwd : forall r : conf, clv r -> clv (cf_serverpwd r). Proof. intros r H. apply H. Qed.
#[export] Hint Resolve clv_cf_serverpwd : clv.
Lemma clv_cf_admin1 : forall r : conf, clv r -> clv (cf_admin1 r). Proof. intros r H. apply H. Qed.
#[export] Hint Resolve clv_cf_admin1 : clv.
Lemma clv_cf_admin2 : forall r : conf, clv r -> clv (cf_admin2 r). Proof. intros r H. apply H. Qed.
#[export] Hint Resolve clv_cf_admin2 : clv.
Lemma clv_cf_adminmail : forall r : conf, clv r -> clv (cf_adminmail r). Proof. intros r H. apply H. Qed.
#[export] Hint Resolve clv_cf_adminmail : clv.
Lemma clv_cf_network : forall r : conf, clv r -> clv (cf_network r). Proof. intros r H. apply H. Qed.
#[export] Hint Resolve clv_cf_network : clv.
Lemma clv_cf_motd : forall r : conf, clv r -> clv (cf_motd r). Proof. intros r H. apply H. Qed.
#[export] Hint Resolve clv_cf_motd : clv.
Lemma clv_cf_help : forall r : conf, clv r -> clv (cf_help r). Proof. intros r H. apply H. Qed.
#[export] Hint Resolve clv_cf_help : clv.
Lemma clv_cf_opers : forall r : conf, clv r -> clv (cf_opers r). Proof. intros r H. apply H. Qed.
#[export] Hint Resolve clv_cf_opers : clv.
Lemma clv_cf_channels : forall r : conf, clv r -> clv (cf_channels r). Proof. intros r H. apply H. Qed.
#[export] Hint Resolve clv_cf_channels : clv.
Lemma clv_cf_chantypes : forall r : conf, clv r -> clv (cf_chantypes r). Proof. intros r H. apply H. Qed.
#[export] Hint Resolve clv_cf_chantypes : clv.
Lemma clv_cf_cloakhost : forall r : conf, clv r -> clv (cf_cloakhost r). Proof. intros r H. apply H. Qed.
#[export] Hint Resolve clv_cf_cloakhost : clv.
Lemma clv_cf_cloakhostmodex : forall r : conf, clv r -> clv (cf_cloakhostmodex r). Proof. intros r H. apply H. Qed.
#[export] Hint Resolve clv_cf_cloakhostmodex : clv.
Lemma clv_cf_cloaksalt : forall r : conf, clv r -> clv (cf_cloaksalt r). Proof. intros r H. apply H. Qed.
#[export] Hint Resolve clv_cf_cloaksalt : clv.
Lemma clv_cf_defusermodes : forall r : conf, clv r -> clv (cf_defusermodes r). Proof. intros r H. apply H. Qed.
#[export] Hint Resolve clv_cf_defusermodes : clv.
Lemma clv_cf_hostname : forall r : conf, clv r -> clv (cf_hostname r). Proof. intros r H. apply H. Qed.
#[export] Hint Resolve clv_cf_hostname : clv.
Lemma clv_cf_webircpwd : forall r : conf, clv r -> clv (cf_webircpwd r). Proof. intros r H. apply H. Qed.
#[export] Hint Resolve clv_cf_webircpwd : clv.
Lemma clv_cf_rtext : forall r : conf, clv r -> clv (cf_rtext r). Proof. intros r H. apply H. Qed.
#[export] Hint Resolve clv_cf_rtext : clv.
Lemma clv_cf_timestr : forall r : conf, clv r -> clv (cf_timestr r). Proof. intros r H. apply H. Qed.
#[export] Hint Resolve clv_cf_timestr : clv.
Lemma clv_cf_startdate : forall r : conf, clv r -> clv (cf_startdate r). Proof. intros r H. apply H. Qed.
#[export] Hint Resolve clv_cf_startdate : clv.
Lemma clv_mkConf : forall (x0 : bytes) (x1 : bytes) (x2 : bytes) (x3 : bytes) (x4 : bytes) (x5 : bytes) (x6 : bytes) (x7 : list bytes) (x8 : list bytes) (x9 : Z) (x10 : Z) (x11 : Z) (x12 : list coper) (x13 : list cchan) (x14 : bytes) (x15 : bool) (x16 : bool) (x17 : bool) (x18 : bool) (x19 : bytes) (x20 : bytes) (x21 : bytes) (x22 : bool) (x23 : bool) (x24 : bool) (x25 : bool) (x26 : bytes) (x27 : Z) (x28 : Z) (x29 : Z) (x30 : nat) (x31 : Z) (x32 : Z) (x33 : bool) (x34 : bytes) (x35 : bytes) (x36 : bool) (x37 : Z -> bytes) (x38 : Z -> bytes) (x39 : bytes) (x40 : bytes -> list bytes), clv x0 -> clv x1 -> clv x2 -> clv x3 -> clv x4 -> clv x5 -> clv x6 -> clv x7 -> clv x8 -> clv x12 -> clv x13 -> clv x14 -> clv x19 -> clv x20 -> clv x21 -> clv x26 -> clv x34 -> clv x35 -> clv x37 -> clv x38 -> clv x39 -> clv (mkConf x0 x1 x2 x3 x4 x5 x6 x7 x8 x9 x10 x11 x12 x13 x14 x15 x16 x17 x18 x19 x20 x21 x22 x23 x24 x25 x26 x27 x28 x29 x30 x31 x32 x33 x34 x35 x36 x37 x38 x39 x40). Proof. intros; constructor; assumption. Qed.
#[export] Hint Resolve clv_mkConf : clv.
Lemma clv_set_cf_servername : forall (v : bytes) (r : conf), clv v -> clv r -> clv (set_cf_servername v r). Proof. intros v r; intros; match goal with H : clv r |- _ => destruct H end; constructor; simpl; auto. Qed.
#[export] Hint Resolve clv_set_cf_servername : clv.
Lemma clv_set_cf_serverinfo : forall (v : bytes) (r : conf), clv v -> clv r -> clv (set_cf_serverinfo v r). Proof. intros v r; intros; match goal with H : clv r |- _ => destruct H end; constructor; simpl; auto. Qed.
#[export] Hint Resolve clv_set_cf_serverinfo : clv.
Lemma clv_set_cf_serverpwd : forall (v : bytes) (r : conf), clv v -> clv r -> clv (set_cf_serverpwd v r). Proof. intros v r; intros; match goal with H : clv r |- _ => destruct H end; constructor; simpl; auto. Qed.
#[export] Hint Resolve clv_set_cf_serverpwd : clv.
Lemma clv_set_cf_admin1 : forall (v : bytes) (r : conf), clv v -> clv r -> clv (set_cf_admin1 v r). Proof. intros v r; intros; match goal with H : clv r |- _ => destruct H end; constructor; simpl; auto. Qed.
#[export] Hint Resolve clv_set_cf_admin1 : clv.
Lemma clv_set_cf_admin2 : forall (v : bytes) (r : conf), clv v -> clv r -> clv (set_cf_admin2 v r). Proof. intros v r; intros; match goal with H : clv r |- _ => destruct H end; constructor; simpl; auto. Qed.
#[export] Hint Resolve clv_set_cf_admin2 : clv.
Lemma clv_set_cf_adminmail : forall (v : bytes) (r : conf), clv v -> clv r -> clv (set_cf_adminmail v r). Proof. intros v r; intros; match goal with H : clv r |- _ => destruct H end; constructor; simpl; auto. Qed.
#[export] Hint Resolve clv_set_cf_adminmail : clv.
Lemma clv_set_cf_network : forall (v : bytes) (r : conf), clv v -> clv r -> clv (set_cf_network v r). Proof. intros v r; intros; match goal with H : clv r |- _ => destruct H end; constructor; simpl; auto. Qed.
#[export] Hint Resolve clv_set_cf_network : clv.
Lemma clv_set_cf_motd : forall (v : list bytes) (r : conf), clv v -> clv r -> clv (set_cf_motd v r). Proof. intros v r; intros; match goal with H : clv r |- _ => destruct H end; constructor; simpl; auto. Qed.
#[export] Hint Resolve clv_set_cf_motd : clv.
Lemma clv_set_cf_help : forall (v : list bytes) (r : conf), clv v -> clv r -> clv (set_cf_help v r). Proof. intros v r; intros; match goal with H : clv r |- _ => destruct H end; constructor; simpl; auto. Qed.
#[export] Hint Resolve clv_set_cf_help : clv.
Lemma clv_set_cf_pingtimeout : forall (v : Z) (r : conf), clv r -> clv (set_cf_pingtimeout v r). Proof. intros v r; intros; match goal with H : clv r |- _ => destruct H end; constructor; simpl; auto. Qed.
#[export] Hint Resolve clv_set_cf_pingtimeout : clv.
Lemma clv_set_cf_pongtimeout : forall (v : Z) (r : conf), clv r -> clv (set_cf_pongtimeout v r). Proof. intros v r; intros; match goal with H : clv r |- _ => destruct H end; constructor; simpl; auto. Qed.
#[export] Hint Resolve clv_set_cf_pongtimeout : clv.
Lemma clv_set_cf_connectretry : forall (v : Z) (r : conf), clv r -> clv (set_cf_connectretry v r). Proof. intros v r; intros; match goal with H : clv r |- _ => destruct H end; constructor; simpl; auto. Qed.
#[export] Hint Resolve clv_set_cf_connectretry : clv.
Lemma clv_set_cf_opers : forall (v : list coper) (r : conf), clv v -> clv r -> clv (set_cf_opers v r). Proof. intros v r; intros; match goal with H : clv r |- _ => destruct H end; constructor; simpl; auto. Qed.
#[export] Hint Resolve clv_set_cf_opers : clv.
Lemma clv_set_cf_channels : forall (v : list cchan) (r : conf), clv v -> clv r -> clv (set_cf_channels v r). Proof. intros v r; intros; match goal with H : clv r |- _ => destruct H end; constructor; simpl; auto. Qed.
#[export] Hint Resolve clv_set_cf_channels : clv.
Lemma clv_set_cf_chantypes : forall (v : bytes) (r : conf), clv v -> clv r -> clv (set_cf_chantypes v r). Proof. intros v r; intros; match goal with H : clv r |- _ => destruct H end; constructor; simpl; auto. Qed.
#[export] Hint Resolve clv_set_cf_chantypes : clv.
Lemma clv_set_cf_opercanmode : forall (v : bool) (r : conf), clv r -> clv (set_cf_opercanmode v r). Proof. intros v r; intros; match goal with H : clv r |- _ => destruct H end; constructor; simpl; auto. Qed.
#[export] Hint Resolve clv_set_cf_opercanmode : clv.
Lemma clv_set_cf_operchanpautoop : forall (v : bool) (r : conf), clv r -> clv (set_cf_operchanpautoop v r). Proof. intros v r; intros; match goal with H : clv r |- _ => destruct H end; constructor; simpl; auto. Qed.
#[export] Hint Resolve clv_set_cf_operchanpautoop : clv.
Lemma clv_set_cf_operservermode : forall (v : bool) (r : conf), clv r -> clv (set_cf_operservermode v r). Proof. intros v r; intros; match goal with H : clv r |- _ => destruct H end; constructor; simpl; auto. Qed.
#[export] Hint Resolve clv_set_cf_operservermode : clv.
Lemma clv_set_cf_allowremoteoper : forall (v : bool) (r : conf), clv r -> clv (set_cf_allowremoteoper v r). Proof. intros v r; intros; match goal with H : clv r |- _ => destruct H end; constructor; simpl; auto. Qed.
#[export] Hint Resolve clv_set_cf_allowremoteoper : clv.
Lemma clv_set_cf_cloakhost : forall (v : bytes) (r : conf), clv v -> clv r -> clv (set_cf_cloakhost v r). Proof. intros v r; intros; match goal with H : clv r |- _ => destruct H end; constructor; simpl; auto. Qed.
#[export] Hint Resolve clv_set_cf_cloakhost : clv.
Lemma clv_set_cf_cloakhostmodex : forall (v : bytes) (r : conf), clv v -> clv r -> clv (set_cf_cloakhostmodex v r). Proof. intros v r; intros; match goal with H : clv r |- _ => destruct H end; constructor; simpl; auto. Qed.
#[export] Hint Resolve clv_set_cf_cloakhostmodex : clv.
Lemma clv_set_cf_cloaksalt : forall (v : bytes) (r : conf), clv v -> clv r -> clv (set_cf_cloaksalt v r). Proof. intros v r; intros; match goal with H : clv r |- _ => destruct H end; constructor; simpl; auto. Qed.
#[export] Hint Resolve clv_set_cf_cloaksalt : clv.
Lemma clv_set_cf_cloakusertonick : forall (v : bool) (r : conf), clv r -> clv (set_cf_cloakusertonick v r). Proof. intros v r; intros; match goal with H : clv r |- _ => destruct H end; constructor; simpl; auto. Qed.
#[export] Hint Resolve clv_set_cf_cloakusertonick : clv.
Lemma clv_set_cf_moreprivacy : forall (v : bool) (r : conf), clv r -> clv (set_cf_moreprivacy v r). Proof. intros v r; intros; match goal with H : clv r |- _ => destruct H end; constructor; simpl; auto. Qed.
#[export] Hint Resolve clv_set_cf_moreprivacy : clv.
Lemma clv_set_cf_noticebefore : forall (v : bool) (r : conf), clv r -> clv (set_cf_noticebefore v r). Proof. intros v r; intros; match goal with H : clv r |- _ => destruct H end; constructor; simpl; auto. Qed.
#[export] Hint Resolve clv_set_cf_noticebefore : clv.
Lemma clv_set_cf_scrubctcp : forall (v : bool) (r : conf), clv r -> clv (set_cf_scrubctcp v r). Proof. intros v r; intros; match goal with H : clv r |- _ => destruct H end; constructor; simpl; auto. Qed.
#[export] Hint Resolve clv_set_cf_scrubctcp : clv.
Lemma clv_set_cf_defusermodes : forall (v : bytes) (r : conf), clv v -> clv r -> clv (set_cf_defusermodes v r). Proof. intros v r; intros; match goal with H : clv r |- _ => destruct H end; constructor; simpl; auto. Qed.
#[export] Hint Resolve clv_set_cf_defusermodes : clv.
Lemma clv_set_cf_maxconn : forall (v : Z) (r : conf), clv r -> clv (set_cf_maxconn v r). Proof. intros v r; intros; match goal with H : clv r |- _ => destruct H end; constructor; simpl; auto. Qed.
#[export] Hint Resolve clv_set_cf_maxconn : clv.
Lemma clv_set_cf_maxjoins : forall (v : Z) (r : conf), clv r -> clv (set_cf_maxjoins v r). Proof. intros v r; intros; match goal with H : clv r |- _ => destruct H end; constructor; simpl; auto. Qed.
#[export] Hint Resolve clv_set_cf_maxjoins : clv.
Lemma clv_set_cf_maxconnip : forall (v : Z) (r : conf), clv r -> clv (set_cf_maxconnip v r). Proof. intros v r; intros; match goal with H : clv r |- _ => destruct H end; constructor; simpl; auto. Qed.
#[export] Hint Resolve clv_set_cf_maxconnip : clv.
Lemma clv_set_cf_maxnick : forall (v : nat) (r : conf), clv r -> clv (set_cf_maxnick v r). Proof. intros v r; intros; match goal with H : clv r |- _ => destruct H end; constructor; simpl; auto. Qed.
#[export] Hint Resolve clv_set_cf_maxnick : clv.
Lemma clv_set_cf_maxlist : forall (v : Z) (r : conf), clv r -> clv (set_cf_maxlist v r). Proof. intros v r; intros; match goal with H : clv r |- _ => destruct H end; constructor; simpl; auto. Qed.
#[export] Hint Resolve clv_set_cf_maxlist : clv.
Lemma clv_set_cf_maxpenalty : forall (v : Z) (r : conf), clv r -> clv (set_cf_maxpenalty v r). Proof. intros v r; intros; match goal with H : clv r |- _ => destruct H end; constructor; simpl; auto. Qed.
#[export] Hint Resolve clv_set_cf_maxpenalty : clv.
Lemma clv_set_cf_authping : forall (v : bool) (r : conf), clv r -> clv (set_cf_authping v r). Proof. intros v r; intros; match goal with H : clv r |- _ => destruct H end; constructor; simpl; auto. Qed.
#[export] Hint Resolve clv_set_cf_authping : clv.
Lemma clv_set_cf_hostname : forall (v : bytes) (r : conf), clv v -> clv r -> clv (set_cf_hostname v r). Proof. intros v r; intros; match goal with H : clv r |- _ => destruct H end; constructor; simpl; auto. Qed.
#[export] Hint Resolve clv_set_cf_hostname : clv.
Lemma clv_set_cf_webircpwd : forall (v : bytes) (r : conf), clv v -> clv r -> clv (set_cf_webircpwd v r). Proof. intros v r; intros; match goal with H : clv r |- _ => destruct H end; constructor; simpl; auto. Qed.
#[export] Hint Resolve clv_set_cf_webircpwd : clv.
Lemma clv_set_cf_dns : forall (v : bool) (r : conf), clv r -> clv (set_cf_dns v r). Proof. intros v r; intros; match goal with H : clv r |- _ => destruct H end; constructor; simpl; auto. Qed.
#[export] Hint Resolve clv_set_cf_dns : clv.
Lemma clv_set_cf_rtext : forall (v : Z -> bytes) (r : conf), clv v -> clv r -> clv (set_cf_rtext v r). Proof. intros v r; intros; match goal with H : clv r |- _ => destruct H end; constructor; simpl; auto. Qed.
#[export] Hint Resolve clv_set_cf_rtext : clv.
Lemma clv_set_cf_timestr : forall (v : Z -> bytes) (r : conf), clv v -> clv r -> clv (set_cf_timestr v r). Proof. intros v r; intros; match goal with H : clv r |- _ => destruct H end; constructor; simpl; auto. Qed.
#[export] Hint Resolve clv_set_cf_timestr : clv.
Lemma clv_set_cf_startdate : forall (v : bytes) (r : conf), clv v -> clv r -> clv (set_cf_startdate v r). Proof. intros v r; intros; match goal with H : clv r |- _ => destruct H end; constructor; simpl; auto. Qed.
#[export] Hint Resolve clv_set_cf_startdate : clv.
Lemma clv_set_cf_keyfile : forall (v : bytes -> list bytes) (r : conf), clv r -> clv (set_cf_keyfile v r). Proof. intros v r; intros; match goal with H : clv r |- _ => destruct H end; constructor; simpl; auto. Qed.
#[export] Hint Resolve clv_set_cf_keyfile : clv.
Record clean_state (r : state) : Prop := mk_clean_state {
  k_s_conf : clv (s_conf r);
  k_s_heap : clv (s_heap r);
  k_s_chans : clv (s_chans r);
  k_s_members : clv (s_members r);
  k_s_conns : clv (s_conns r);
  k_s_glines : clv (s_glines r);
  k_s_klines : clv (s_klines r);
  k_s_servers : clv (s_servers r);
  k_s_whowas : clv (s_whowas r);
  k_s_out : Forall (fun p => legal_line (snd p)) (s_out r) }.
#[export] Instance Cl_state : Cl state := clean_state.
Lemma clv_s_conf : forall r : state, clv r -> clv (s_conf r). Proof. intros r H. apply H. Qed.
#[export] Hint Resolve clv_s_conf : clv.
Lemma clv_s_heap : forall r : state, clv r -> clv (s_heap r). Proof. intros r H. apply H. Qed.
#[export] Hint Resolve clv_s_heap : clv.
Lemma clv_s_chans : forall r : state, clv r -> clv (s_chans r). Proof. intros r H. apply H. Qed.
#[export] Hint Resolve clv_s_chans : clv.
Lemma clv_s_members : forall r : state, clv r -> clv (s_members r). Proof. intros r H. apply H. Qed.
#[export] Hint Resolve clv_s_members : clv.
Lemma clv_s_conns : forall r : state, clv r -> clv (s_conns r). Proof. intros r H. apply H. Qed.
#[export] Hint Resolve clv_s_conns : clv.
Lemma clv_s_glines : forall r : state, clv r -> clv (s_glines r). Proof. intros r H. apply H. Qed.
#[export] Hint Resolve clv_s_glines : clv.
Lemma clv_s_klines : forall r : state, clv r -> clv (s_klines r). Proof. intros r H. apply H. Qed.
#[export] Hint Resolve clv_s_klines : clv.
Lemma clv_s_servers : forall r : state, clv r -> clv (s_servers r). Proof. intros r H. apply H. Qed.
#[export] Hint Resolve clv_s_servers : clv.
Lemma clv_s_whowas : forall r : state, clv r -> clv (s_whowas r). Proof. intros r H. apply H. Qed.
#[export] Hint Resolve clv_s_whowas : clv.
Lemma clv_set_s_conf : forall (v : conf) (r : state), clv v -> clv r -> clv (set_s_conf v r). Proof. intros v r; intros; match goal with H : clv r |- _ => destruct H end; constructor; simpl; auto. Qed.
#[export] Hint Resolve clv_set_s_conf : clv.
Lemma clv_set_s_now : forall (v : Z) (r : state), clv r -> clv (set_s_now v r). Proof. intros v r; intros; match goal with H : clv r |- _ => destruct H end; constructor; simpl; auto. Qed.
#[export] Hint Resolve clv_set_s_now : clv.
Lemma clv_set_s_rnd : forall (v : Z) (r : state), clv r -> clv (set_s_rnd v r). Proof. intros v r; intros; match goal with H : clv r |- _ => destruct H end; constructor; simpl; auto. Qed.
#[export] Hint Resolve clv_set_s_rnd : clv.
Lemma clv_set_s_heap : forall (v : list (handle * client)) (r : state), clv v -> clv r -> clv (set_s_heap v r). Proof. intros v r; intros; match goal with H : clv r |- _ => destruct H end; constructor; simpl; auto. Qed.
#[export] Hint Resolve clv_set_s_heap : clv.
Lemma clv_set_s_clients : forall (v : list handle) (r : state), clv r -> clv (set_s_clients v r). Proof. intros v r; intros; match goal with H : clv r |- _ => destruct H end; constructor; simpl; auto. Qed.
#[export] Hint Resolve clv_set_s_clients : clv.
Lemma clv_set_s_next : forall (v : handle) (r : state), clv r -> clv (set_s_next v r). Proof. intros v r; intros; match goal with H : clv r |- _ => destruct H end; constructor; simpl; auto. Qed.
#[export] Hint Resolve clv_set_s_next : clv.
Lemma clv_set_s_chans : forall (v : list (chandle * channel)) (r : state), clv v -> clv r -> clv (set_s_chans v r). Proof. intros v r; intros; match goal with H : clv r |- _ => destruct H end; constructor; simpl; auto. Qed.
#[export] Hint Resolve clv_set_s_chans : clv.
Lemma clv_set_s_chnext : forall (v : chandle) (r : state), clv r -> clv (set_s_chnext v r). Proof. intros v r; intros; match goal with H : clv r |- _ => destruct H end; constructor; simpl; auto. Qed.
#[export] Hint Resolve clv_set_s_chnext : clv.
Lemma clv_set_s_members : forall (v : list member) (r : state), clv v -> clv r -> clv (set_s_members v r). Proof. intros v r; intros; match goal with H : clv r |- _ => destruct H end; constructor; simpl; auto. Qed.
#[export] Hint Resolve clv_set_s_members : clv.
Lemma clv_set_s_conns : forall (v : list (connid * conn)) (r : state), clv v -> clv r -> clv (set_s_conns v r). Proof. intros v r; intros; match goal with H : clv r |- _ => destruct H end; constructor; simpl; auto. Qed.
#[export] Hint Resolve clv_set_s_conns : clv.
Lemma clv_set_s_numconn : forall (v : Z) (r : state), clv r -> clv (set_s_numconn v r). Proof. intros v r; intros; match goal with H : clv r |- _ => destruct H end; constructor; simpl; auto. Qed.
#[export] Hint Resolve clv_set_s_numconn : clv.
Lemma clv_set_s_numconnmax : forall (v : Z) (r : state), clv r -> clv (set_s_numconnmax v r). Proof. intros v r; intros; match goal with H : clv r |- _ => destruct H end; constructor; simpl; auto. Qed.
#[export] Hint Resolve clv_set_s_numconnmax : clv.
Lemma clv_set_s_accepted : forall (v : Z) (r : state), clv r -> clv (set_s_accepted v r). Proof. intros v r; intros; match goal with H : clv r |- _ => destruct H end; constructor; simpl; auto. Qed.
#[export] Hint Resolve clv_set_s_accepted : clv.
Lemma clv_set_s_out : forall (v : list (connid * bytes)) (r : state), Forall (fun p => legal_line (snd p)) v -> clv r -> clv (set_s_out v r). Proof. intros v r; intros; match goal with H : clv r |- _ => destruct H end; constructor; simpl; auto. Qed.
#[export] Hint Resolve clv_set_s_out : clv.
Lemma clv_set_s_glines : forall (v : mlist) (r : state), clv v -> clv r -> clv (set_s_glines v r). Proof. intros v r; intros; match goal with H : clv r |- _ => destruct H end; constructor; simpl; auto. Qed.
#[export] Hint Resolve clv_set_s_glines : clv.
Lemma clv_set_s_klines : forall (v : mlist) (r : state), clv v -> clv r -> clv (set_s_klines v r). Proof. intros v r; intros; match goal with H : clv r |- _ => destruct H end; constructor; simpl; auto. Qed.
#[export] Hint Resolve clv_set_s_klines : clv.
Lemma clv_set_s_servers : forall (v : list cserver) (r : state), clv v -> clv r -> clv (set_s_servers v r). Proof. intros v r; intros; match goal with H : clv r |- _ => destruct H end; constructor; simpl; auto. Qed.
#[export] Hint Resolve clv_set_s_servers : clv.
Lemma clv_set_s_whowas : forall (v : list whowas) (r : state), clv v -> clv r -> clv (set_s_whowas v r). Proof. intros v r; intros; match goal with H : clv r |- _ => destruct H end; constructor; simpl; auto. Qed.
#[export] Hint Resolve clv_set_s_whowas : clv.
Lemma clv_set_s_lastww : forall (v : Z) (r : state), clv r -> clv (set_s_lastww v r). Proof. intros v r; intros; match goal with H : clv r |- _ => destruct H end; constructor; simpl; auto. Qed.
#[export] Hint Resolve clv_set_s_lastww : clv.
Lemma clv_set_s_maxusers : forall (v : Z) (r : state), clv r -> clv (set_s_maxusers v r). Proof. intros v r; intros; match goal with H : clv r |- _ => destruct H end; constructor; simpl; auto. Qed.
#[export] Hint Resolve clv_set_s_maxusers : clv.
Lemma clv_set_s_mymaxusers : forall (v : Z) (r : state), clv r -> clv (set_s_mymaxusers v r). Proof. intros v r; intros; match goal with H : clv r |- _ => destruct H end; constructor; simpl; auto. Qed.
#[export] Hint Resolve clv_set_s_mymaxusers : clv.
Lemma clv_set_s_sigquit : forall (v : bool) (r : state), clv r -> clv (set_s_sigquit v r). Proof. intros v r; intros; match goal with H : clv r |- _ => destruct H end; constructor; simpl; auto. Qed.
#[export] Hint Resolve clv_set_s_sigquit : clv.
Lemma clv_set_s_sigrestart : forall (v : bool) (r : state), clv r -> clv (set_s_sigrestart v r). Proof. intros v r; intros; match goal with H : clv r |- _ => destruct H end; constructor; simpl; auto. Qed.
#[export] Hint Resolve clv_set_s_sigrestart : clv.
Lemma clv_set_s_sigrehash : forall (v : bool) (r : state), clv r -> clv (set_s_sigrehash v r). Proof. intros v r; intros; match goal with H : clv r |- _ => destruct H end; constructor; simpl; auto. Qed.
#[export] Hint Resolve clv_set_s_sigrehash : clv.
Lemma clv_set_s_wcounter : forall (v : Z) (r : state), clv r -> clv (set_s_wcounter v r). Proof. intros v r; intros; match goal with H : clv r |- _ => destruct H end; constructor; simpl; auto. Qed.
#[export] Hint Resolve clv_set_s_wcounter : clv.
Lemma clv_set_s_start : forall (v : Z) (r : state), clv r -> clv (set_s_start v r). Proof. intros v r; intros; match goal with H : clv r |- _ => destruct H end; constructor; simpl; auto. Qed.
#[export] Hint Resolve clv_set_s_start : clv.
Lemma clv_set_s_odd : forall (v : list oddity) (r : state), clv r -> clv (set_s_odd v r). Proof. intros v r; intros; match goal with H : clv r |- _ => destruct H end; constructor; simpl; auto. Qed.
#[export] Hint Resolve clv_set_s_odd : clv.
