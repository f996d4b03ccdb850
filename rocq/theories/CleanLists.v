(** Generated by tools/gen_clv.py from Lists.v: its functions keep strings clean (C08). *)
From Coq Require Import List Ascii String ZArith NArith Bool Lia Arith.
From Verif Require Import Bytes Match Lists Hash ParseReq State Messages Monad Core Clean0 CleanRec Clean CleanTac.
Import ListNotations.
Local Open Scope m_scope.

Lemma clv_mlist : clv mlist.
Proof. intros. unfold mlist. cl_all. Qed.
#[export] Hint Resolve clv_mlist : clv.
Lemma clv_Lists_CheckDupeMask : forall (h : mlist) (mask : bytes), clv h -> clv mask -> clv (Lists_CheckDupeMask h mask).
Proof. intros. unfold Lists_CheckDupeMask. cl_all. Qed.
#[export] Hint Resolve clv_Lists_CheckDupeMask : clv.
Lemma clv_upd_first : forall (mask : bytes) (valid : Z) (reason : option bytes) (h : mlist), clv mask -> clv reason -> clv h -> clv (upd_first mask valid reason h).
Proof. intros mask valid reason h. revert mask valid reason. induction h; intros; cl_invs; cbn [upd_first]; cl_all. Qed.
#[export] Hint Resolve clv_upd_first : clv.
Lemma clv_Lists_Add : forall (h : mlist) (mask : bytes) (valid : Z) (reason : option bytes) (once : bool), clv h -> clv mask -> clv reason -> clv (Lists_Add h mask valid reason once).
Proof. intros. unfold Lists_Add. cl_all. Qed.
#[export] Hint Resolve clv_Lists_Add : clv.
Lemma clv_Lists_Del : forall (h : mlist) (mask : bytes), clv h -> clv mask -> clv (Lists_Del h mask).
Proof. intros h mask. revert mask. induction h; intros; cl_invs; cbn [Lists_Del]; cl_all. Qed.
#[export] Hint Resolve clv_Lists_Del : clv.
Lemma clv_Lists_Free : forall (h : mlist), clv h -> clv (Lists_Free h).
Proof. intros. unfold Lists_Free. cl_all. Qed.
#[export] Hint Resolve clv_Lists_Free : clv.
Lemma clv_Lists_MakeMask : forall (Pattern : bytes) (len : nat), clv Pattern -> clv (Lists_MakeMask Pattern len).
Proof. intros. unfold Lists_MakeMask. cl_all. Qed.
#[export] Hint Resolve clv_Lists_MakeMask : clv.
Lemma clv_Lists_CheckReason : forall (h : mlist) (cloaked : bytes) (real : bytes), clv h -> clv cloaked -> clv real -> clv (Lists_CheckReason h cloaked real).
Proof. intros h cloaked real. revert cloaked real. induction h; intros; cl_invs; cbn [Lists_CheckReason]; cl_all. Qed.
#[export] Hint Resolve clv_Lists_CheckReason : clv.
Lemma clv_Lists_Check : forall (h : mlist) (cloaked : bytes) (real : bytes), clv h -> clv cloaked -> clv real -> clv (Lists_Check h cloaked real).
Proof. intros. unfold Lists_Check. cl_all. Qed.
#[export] Hint Resolve clv_Lists_Check : clv.
Lemma clv_Lists_Expire : forall (now : Z) (h : mlist), clv h -> clv (Lists_Expire now h).
Proof. intros now h. revert now. induction h; intros; cl_invs; cbn [Lists_Expire]; cl_all. Qed.
#[export] Hint Resolve clv_Lists_Expire : clv.
