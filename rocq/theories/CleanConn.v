(** Generated by tools/gen_clv.py from Conn.v: its functions keep strings clean (C08). *)
From Coq Require Import List Ascii String ZArith NArith Bool Lia Arith.
From Verif Require Import Spec HandRead Bytes Strl Match Lists Hash ParseReq State Messages Monad Core Write Info Chan Mode Msg Login Oper Server Dispatch Conn Clean0 CleanRec Clean CleanTac CleanLists CleanParseReq CleanCore CleanWrite CleanInfo CleanChan CleanMode CleanMsg CleanLogin CleanOper CleanServer CleanDispatch .
Import ListNotations.
Local Open Scope m_scope.

#[export] Instance Cl_event : Cl event := fun e => match e with E_Accept _ ip _ => clv ip | E_Resolved _ h => clv h | E_NewServer _ _ ip => clv ip | _ => True end.
Lemma no_eol_clv : forall b, no_eol b -> clv b.
Proof.
  intros b H. apply okb_clv. unfold no_eol in H. rewrite forallb_forall in *. intros c Hc. specialize (H c Hc). unfold eol in H. unfold okc.
  destruct (Ascii.eqb c CR); [discriminate|]. exact H.
Qed.
Lemma clv_Account_Connection : clv Account_Connection.
Proof. intros. unfold Account_Connection. cl_all. Qed.
#[export] Hint Resolve clv_Account_Connection : clv.
Lemma clv_open_conn : forall (now : Z) (ip : bytes) (host : bytes) (client : handle) (connecting : bool), clv ip -> clv host -> clv (open_conn now ip host client connecting).
Proof. intros. unfold open_conn. cl_all. Qed.
#[export] Hint Resolve clv_open_conn : clv.
Lemma clv_Register_Connection : forall (i : connid) (c : conn), clv c -> clv (Register_Connection i c).
Proof. intros. unfold Register_Connection. cl_all. Qed.
#[export] Hint Resolve clv_Register_Connection : clv.
Lemma clv_Count_Connections : forall (ip : bytes), clv ip -> clv (Count_Connections ip).
Proof. intros. unfold Count_Connections. cl_all. Qed.
#[export] Hint Resolve clv_Count_Connections : clv.
Lemma clv_Conn_StartLogin : forall (i : connid), clv (Conn_StartLogin i).
Proof. intros. unfold Conn_StartLogin. cl_all. Qed.
#[export] Hint Resolve clv_Conn_StartLogin : clv.
Definition msg_ok (m : string) : bool := forallb (fun c => okc c && negb (Ascii.eqb c NUL)) (B m) && (List.length (B m) <=? 510).
Lemma clv_Simple_Message : forall i msg, msg_ok msg = true -> clv (Simple_Message i msg).
Proof.
  intros i msg H. unfold Simple_Message. apply clv_modify. intros s S. apply clv_set_s_out; [|exact S]. constructor; [|apply S].
  apply andb_true_iff in H. destruct H as [H L]. apply Nat.leb_le in L. cbn [snd]. rewrite firstn_all2 by lia. exists (B msg). rewrite forallb_forall in H.
  repeat split; auto; intro X; apply H in X; discriminate.
Qed.
#[export] Hint Extern 0 (@clv _ _ (Simple_Message _ _)) => (apply clv_Simple_Message; reflexivity) : clv.
Lemma clv_New_Connection : forall (i : connid) (ip : bytes) (v6 : bool), clv ip -> clv (New_Connection i ip v6).
Proof. intros. unfold New_Connection. cl_all. Qed.
#[export] Hint Resolve clv_New_Connection : clv.
Lemma clv_Resolver_Result : forall (i : connid) (name : bytes), clv name -> clv (Resolver_Result i name).
Proof. intros. unfold Resolver_Result. cl_all. Qed.
#[export] Hint Resolve clv_Resolver_Result : clv.
Lemma clv_Throttle_Connection : forall (i : connid) (h : handle), clv (Throttle_Connection i h).
Proof. intros. unfold Throttle_Connection. cl_all. Qed.
#[export] Hint Resolve clv_Throttle_Connection : clv.
Lemma clv_max_commands : forall (i : connid) (h : handle), clv (max_commands i h).
Proof. intros. unfold max_commands. cl_all. Qed.
#[export] Hint Resolve clv_max_commands : clv.
Lemma clv_handle_lines : forall (n : nat) (i : connid) (done : Z), clv (handle_lines n i done).
Proof. induction n; intros; cbn [handle_lines]; [cl_all|]. cl_bind; [cl_all|]. cl_bind; [cl_all|]. destruct (x0 <? co_delaytime x)%Z; [cl_all|].
  destruct (co_rbuf x) eqn:R; [cl_all|]. rewrite <- R. clear R. destruct (find_eol (co_rbuf x)) as [[p dl]|] eqn:E; [|cl_all].
  assert (K : clv (firstn p (co_rbuf x))). { apply no_eol_clv. apply find_eol_some in E. destruct E as (l1 & t1 & r1 & E1 & E2 & _ & E4 & _). rewrite E1. subst p. rewrite firstn_app, Nat.sub_diag, firstn_all. cbn [firstn]. rewrite app_nil_r. exact E4. }
  cbv zeta. cl_all. Qed.
#[export] Hint Resolve clv_handle_lines : clv.
Lemma clv_Handle_Buffer : forall (i : connid), clv (Handle_Buffer i).
Proof. intros. unfold Handle_Buffer. cl_all. Qed.
#[export] Hint Resolve clv_Handle_Buffer : clv.
Lemma clv_Read_Data : forall i data, clv (Read_Data i data).
Proof. intros. unfold Read_Data. cl_bind; [cl_all|]. cl_bind; [cl_all|]. destruct (_ <=? _); [cl_all|]. destruct data; [cl_all|]. cl_all. Qed.
#[export] Hint Resolve clv_Read_Data : clv.
Lemma clv_Check_Connection : forall (i : connid), clv (Check_Connection i).
Proof. intros. unfold Check_Connection. cl_all. Qed.
#[export] Hint Resolve clv_Check_Connection : clv.
Lemma clv_Check_Connections : clv Check_Connections.
Proof. intros. unfold Check_Connections. cl_all. Qed.
#[export] Hint Resolve clv_Check_Connections : clv.
Lemma clv_New_Server : forall (n : nat) (i : connid) (ip : bytes), clv ip -> clv (New_Server n i ip).
Proof. intros. unfold New_Server. cl_all. Qed.
#[export] Hint Resolve clv_New_Server : clv.
Lemma clv_Server_Connected : forall (i : connid) (ok : bool), clv (Server_Connected i ok).
Proof. intros. unfold Server_Connected. cl_all. Qed.
#[export] Hint Resolve clv_Server_Connected : clv.
Lemma clv_unused : forall (i : connid), clv (unused i).
Proof. intros. unfold unused. cl_all. Qed.
#[export] Hint Resolve clv_unused : clv.
Lemma clv_is_open : forall (i : connid), clv (is_open i).
Proof. intros. unfold is_open. cl_all. Qed.
#[export] Hint Resolve clv_is_open : clv.
Lemma clv_Main_Loop : clv Main_Loop.
Proof. intros. unfold Main_Loop. cl_all. Qed.
#[export] Hint Resolve clv_Main_Loop : clv.
Lemma clv_step : forall (e : event), clv e -> clv (step e).
Proof. intros e He. destruct e; cbn [step]; try (change (clv ip) in He); try (change (clv host) in He); cl_all. Qed.
#[export] Hint Resolve clv_step : clv.
Lemma clv_run : forall (l : list event), clv l -> clv (run l).
Proof. intros. unfold run. cl_all. Qed.
#[export] Hint Resolve clv_run : clv.
