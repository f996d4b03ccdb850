(** Generated by tools/gen_clv.py from ParseReq.v: its functions keep strings clean (C08). *)
From Coq Require Import List Ascii String ZArith NArith Bool Lia Arith.
From Verif Require Import Bytes Match Lists Hash ParseReq State Messages Monad Core Clean0 CleanRec Clean CleanTac.
Import ListNotations.
Local Open Scope m_scope.

Lemma clv_arg : forall (r : request) (i : nat), clv r -> clv (arg r i).
Proof. intros. unfold arg. cl_all. Qed.
#[export] Hint Resolve clv_arg : clv.
Lemma clv_cut : forall (s : bytes), clv s -> clv (cut s).
Proof. intros. unfold cut. cl_all. Qed.
#[export] Hint Resolve clv_cut : clv.
Lemma clv_parse_args : forall (n : nat) (start : bytes), clv start -> clv (parse_args n start).
Proof. intros n start. revert start. induction n; intros; cl_invs; cbn [parse_args]; cl_all. Qed.
#[export] Hint Resolve clv_parse_args : clv.
Lemma clv_parse_command : forall (prefix : option bytes) (s : bytes), clv prefix -> clv s -> clv (parse_command prefix s).
Proof. intros. unfold parse_command. cl_all. Qed.
#[export] Hint Resolve clv_parse_command : clv.
Lemma clv_parse_line : forall (line : bytes), clv line -> clv (parse_line line).
Proof. intros. unfold parse_line. cl_all. Qed.
#[export] Hint Resolve clv_parse_line : clv.
Lemma clv_SOH : clv SOH.
Proof. intros. unfold SOH. cl_all. Qed.
#[export] Hint Resolve clv_SOH : clv.
