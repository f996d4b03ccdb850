(** The reaction to an event is a sequence of actions. *)
From Coq Require Import List Ascii String ZArith NArith Bool Lia Arith.
From Coq Require Import Relations RelationClasses.
From Verif Require Import Bytes Match Lists Hash ParseReq State Messages Monad Core Write Info Chan Mode Msg Login Oper Server Dispatch Conn.
From Verif Require Import Rel RelWrite RelInfo RelBase RelChan RelSrv RelInit RelKey RelCmd.
Import ListNotations.
Local Open Scope m_scope.

(** a sequence of actions between live states *)
Inductive actions : state -> state -> Prop :=
| act_nil : forall s, actions s s
| act_cons : forall s s1 s', live s -> action s s1 -> actions s1 s' -> actions s s'.
Definition acts (s s' : state) : Prop := live s -> live s' /\ actions s s'.
Lemma actions_trans : forall a b, actions a b -> forall c, actions b c -> actions a c.
Proof. intros a b H. induction H; intros; auto. econstructor; eauto. Qed.
#[local] Instance acts_po : PreOrder acts.
Proof.
  split.
  - intros s L. split; auto. constructor.
  - intros a b c H1 H2 L. destruct (H1 L) as [L1 A1]. destruct (H2 L1) as [L2 A2]. split; auto. eapply actions_trans; eauto.
Qed.
Lemma action_acts : forall s s', action s s' -> acts s s'.
Proof. intros s s' A L. split; [eapply V_action; eauto|]. econstructor; eauto. constructor. Qed.
Lemma r_line : forall i t, rel acts (Parse_Request i t).
Proof. intros i t s b s' H. apply action_acts. econstructor; eauto. Qed.
Lemma r_close : forall i a b c, rel acts (Conn_Close i a b c).
Proof. intros i a b c s [] s' H. apply action_acts, A_chore. eapply A_close; eauto. Qed.
Lemma r_conn : forall i f, (forall c, cread c (f c)) -> rel acts (upd_con i f).
Proof. intros i f F s [] s' H. apply action_acts, A_chore. eapply (A_conn i f); eauto. intro c. destruct (F c). auto. Qed.
Lemma r_thr : forall i h, rel acts (Throttle_Connection i h).
Proof. intros i h s [] s' H. apply action_acts, A_chore. eapply A_throttle; eauto. Qed.
Lemma r_ping : forall i, rel acts (Conn_WriteStr i "PING :%s" [aID This_Server]).
Proof. intros i s b s' H. apply action_acts, A_chore. eapply A_ping; eauto. Qed.
Lemma r_expire : rel acts Class_Expire.
Proof. intros s [] s' H. apply action_acts, A_chore. eapply A_expire; eauto. Qed.
#[local] Hint Resolve r_line r_close r_thr r_ping r_expire : core.
Ltac rgo := repeat (first [ solve [auto] | apply r_conn; intros []; split; reflexivity
  | apply rel_bind; [|intro] | apply rel_ret | apply rel_gets | apply rel_cf | apply rel_now | apply rel_cli
  | apply rel_con | apply rel_assertM | apply rel_nonnull | apply rel_whenM
  | apply rel_mfor; intro | apply rel_mcount; intro
  | match goal with
    | |- rel _ (if ?b then _ else _) => destruct b
    | |- rel _ (match ?b with _ => _ end) => destruct b
    | |- rel _ (Conn_GetClient _) => unfold Conn_GetClient
    | |- rel _ (Client_Type _) => unfold Client_Type
    | |- rel _ (void _) => unfold void
    end ]).
Lemma r_max : forall i h, rel acts (max_commands i h).
Proof. intros. unfold max_commands, Count, Conn_LastPing, Clients. rgo. Qed.
Lemma r_lines : forall n i d, rel acts (handle_lines n i d).
Proof. induction n; intros i d; cbn [handle_lines]; rgo. Qed.
#[local] Hint Resolve r_max r_lines : core.
Lemma r_buffer : forall i, rel acts (Handle_Buffer i).
Proof. intros i. unfold Handle_Buffer. rgo. Qed.
#[local] Hint Resolve r_buffer : core.
Lemma r_read : forall i d, rel acts (Read_Data i d).
Proof.
  intros i d. unfold Read_Data. rgo. apply r_conn. intro c. destruct (negb (co_lastdata c =? _)%Z); split; destruct c; reflexivity.
Qed.
Lemma r_check : forall i, rel acts (Check_Connection i).
Proof. intros i. unfold Check_Connection, Conn_UpdatePing. rgo. Qed.
#[local] Hint Resolve r_read r_check : core.
Lemma r_loop : rel acts Main_Loop.
Proof. unfold Main_Loop, Check_Connections. rgo. Qed.
Theorem step_actions : forall e s s', live s -> (exists i d, e = E_Data i d) \/ e = E_Loop -> step e s = Ok tt s' -> actions s s' /\ live s'.
Proof.
  intros e s s' L E H. assert (R : rel acts (step e)). { destruct E as [(i & d & ->)| ->]; unfold step; [|exact r_loop]. rgo. }
  destruct (R _ _ _ H L). auto.
Qed.
