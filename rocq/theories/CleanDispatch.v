(** Generated by tools/gen_clv.py from Dispatch.v: its functions keep strings clean (C08). *)
From Coq Require Import List Ascii String ZArith NArith Bool Lia Arith.
From Verif Require Import Bytes Strl Match Lists Hash ParseReq State Messages Monad Core Write Info Chan Mode Msg Login Oper Server Dispatch Clean0 CleanRec Clean CleanTac CleanLists CleanParseReq CleanCore CleanWrite CleanInfo CleanChan CleanMode CleanMsg CleanLogin CleanOper CleanServer .
Import ListNotations.
Local Open Scope m_scope.

#[export] Instance Cl_command : Cl command := fun c => forall h req, clv req -> clv (cm_fun c h req).
Lemma clv_cm_fun : forall c h req, clv c -> clv req -> clv (cm_fun c h req). Proof. intros c h req H. apply H. Qed.
Lemma clv_mkCommand : forall n f t mi ma p, (forall h req, clv req -> clv (f h req)) -> clv (mkCommand n f t mi ma p).
Proof. intros n f t mi ma p H. exact H. Qed.
#[export] Hint Resolve clv_cm_fun : clv.
Lemma clv_My_Commands : clv My_Commands.
Proof. unfold My_Commands. repeat (apply clv_cons; [apply clv_mkCommand; intros; cl_all|]). apply clv_nil. Qed.
#[export] Hint Resolve clv_My_Commands : clv.
Lemma clv_Validate_Prefix : forall (i : connid) (req : request), clv req -> clv (Validate_Prefix i req).
Proof. intros. unfold Validate_Prefix. cl_all. Qed.
#[export] Hint Resolve clv_Validate_Prefix : clv.
Lemma clv_numeric_args : forall (l : list bytes) (str : bytes), clv l -> clv str -> clv (numeric_args l str).
Proof. intros l. induction l as [|a l IH]; intros str Hl Hs; cl_invs; cbn [numeric_args]; [cl_all|]. destruct l; [cl_all|]. apply IH; cl_all. Qed.
#[export] Hint Resolve clv_numeric_args : clv.
Lemma clv_Handle_Numeric : forall (client : handle) (req : request), clv req -> clv (Handle_Numeric client req).
Proof. intros. unfold Handle_Numeric. cl_all. Qed.
#[export] Hint Resolve clv_Handle_Numeric : clv.
Lemma clv_run_command : forall (client : handle) (t : ctype) (cmd : command) (req : request), clv cmd -> clv req -> clv (run_command client t cmd req).
Proof. intros. unfold run_command. cl_all. Qed.
#[export] Hint Resolve clv_run_command : clv.
Lemma clv_Handle_Request : forall (i : connid) (req : request), clv req -> clv (Handle_Request i req).
Proof. intros. unfold Handle_Request. cl_all. Qed.
#[export] Hint Resolve clv_Handle_Request : clv.
Lemma clv_Parse_Request : forall (i : connid) (text : bytes), clv text -> clv (Parse_Request i text).
Proof. intros. unfold Parse_Request. cl_all. Qed.
#[export] Hint Resolve clv_Parse_Request : clv.
