(** Who is to blame: if a fact about the state becomes true while the server handles an event, and
    neither chores nor events without lines make it true, then one line, executed for one client,
    makes it true. *)
From Coq Require Import List Ascii String ZArith NArith Bool Lia Arith.
From Coq Require Import Relations RelationClasses.
From Verif Require Import Bytes Match Lists Hash ParseReq State Messages Monad Core Write Info Chan Mode Msg Login Oper Server Dispatch Conn.
From Verif Require Import Rel RelWrite RelInfo RelBase RelChan RelSrv RelInit RelKey RelCmd RelComp WF Frame Tree Inv1 Inv2 Live Spec Observ HandOper.
Import ListNotations.
Local Open Scope m_scope.

Lemma action_grows : forall s s', live s -> action s s' -> incl (s_odd s) (s_odd s').
Proof. intros s s' L A. apply (action_rel (X := grow)) in A. destruct (A (live_wf _ L)); auto. Qed.
Lemma actions_grow : forall s s', actions s s' -> incl (s_odd s) (s_odd s').
Proof. intros s s' H. induction H; [apply incl_refl|]. eapply incl_tran; [eapply action_grows; eauto|auto]. Qed.
Lemma undisturbed_incl : forall s s', incl (s_odd s) (s_odd s') -> undisturbed s' -> undisturbed s.
Proof. intros s s' I [A B']. split; intro; [apply A|apply B']; auto. Qed.

Lemma first_flip : forall (Q : state -> Prop), (forall s, {Q s} + {~ Q s}) -> forall s s', actions s s' -> ~ Q s -> Q s' ->
  exists s1 s2, live s1 /\ actions s s1 /\ action s1 s2 /\ actions s2 s' /\ ~ Q s1 /\ Q s2.
Proof.
  intros Q D s s' A. induction A as [s|s s1 s' L A1 A IH]; intros N Y; [contradiction|]. destruct (D s1) as [E|E].
  - exists s, s1. repeat split; auto. constructor.
  - destruct (IH E Y) as (x & y & L1 & B1 & B2 & B3 & B4 & B5). exists x, y. repeat split; auto. econstructor; eauto.
Qed.
Lemma line_client : forall s i text b s', tree s -> Parse_Request i text s = Ok b s' -> s' = s \/ exists h c, client_of s i h c.
Proof.
  intros s i text b s' T H. unfold Parse_Request in H. cbv zeta in H. bd H as sc s1 H1. unfold cf in H1. rdgets H1.
  assert (K : forall cn, assoc i (s_conns s) = Some cn -> exists h c, client_of s i h c).
  { intros cn A. destruct (tr_c2h _ T _ _ A) as (h & c & A1 & A2 & A3). exists h, c. split; [exists cn|]; rewrite lookup_assoc; auto. }
  destruct (cf_scrubctcp (s_conf s) && ScrubCTCP (trim text)). { apply ret_ok in H. destruct H. auto. }
  destruct (parse_line (trim text)) as [req|].
  - right. bd H as v s1 H1. unfold Validate_Prefix in H1. bd H1 as o s2 H2. unfold Conn_GetClient in H2. bd H2 as cn s3 H3. apply con_ok in H3. destruct H3 as [-> [H4|[_ ->]]]; [eapply K; eauto|].
    apply ret_ok in H2. destruct H2 as [-> ->]. cbn in H1. discriminate H1.
  - unfold Conn_WriteStr in H. cbn [mseq] in H. bd H as l s1 H1. apply ret_ok in H1. destruct H1 as [_ ->]. bd H as cn s1 H1. apply con_ok in H1. destruct H1 as [-> [H4|[H4 ->]]]; [right; eapply K; eauto|left].
    cbn [co_open closed_conn] in H. bd H as o s1 H1. apply ret_ok in H1. destruct H1 as [-> ->]. bd H as u s1 H1. apply ret_ok in H. destruct H as [_ ->].
    apply upd_con_ok in H1. subst s1. rewrite aupd_fresh; [destruct s; reflexivity|]. intro I. apply in_map_iff in I. destruct I as ([i' cn] & E1 & I). cbn in E1. subst i'. clear - H4 I. induction (s_conns s) as [|[a x] l' IH]; [destruct I|]. cbn in H4. destruct (Nat.eqb_spec i a); [discriminate|]. destruct I as [I|I]; [congruence|auto].
Qed.

(** [executes s s' i text s1 s2]: on the way from [s] to [s'] the line [text] of connection [i] is
    executed in [s1], a state in which the server executes lines, and leads to [s2] *)
Theorem by_a_line : forall (Q : state -> Prop), (forall s, {Q s} + {~ Q s}) ->
  (forall s s', live s -> chore s s' -> ~ Q s -> ~ Q s') ->
  (forall e s s', live s -> silent e = true -> step e s = Ok tt s' -> ~ Q s -> ~ Q s') ->
  forall e s s', live s -> undisturbed s' -> step e s = Ok tt s' -> ~ Q s -> Q s' ->
  exists i h c text b s1 s2, live s1 /\ undisturbed s1 /\ actions s s1 /\ client_of s1 i h c /\ Parse_Request i text s1 = Ok b s2 /\ actions s2 s' /\ ~ Q s1 /\ Q s2.
Proof.
  intros Q D C1 C2 e s s' L U H N Y. destruct (silent e) eqn:SE. { exfalso. eapply C2; eauto. }
  assert (A : actions s s' /\ live s'). { eapply step_actions; [exact L| |exact H]. destruct e; try discriminate SE; [left|right]; eauto. }
  destruct A as [A L']. destruct (first_flip Q D _ _ A N Y) as (s1 & s2 & L1 & B1 & B2 & B3 & B4 & B5).
  assert (U1 : undisturbed s1). { eapply undisturbed_incl; [|exact U]. eapply incl_tran; [eapply action_grows; eauto|apply actions_grow; auto]. }
  destruct B2 as [i text b s1 s2 H2|s1 s2 H2]; [|exfalso; eapply C1; eauto].
  destruct (line_client _ _ _ _ _ (live_itree _ L1 U1) H2) as [-> |(h & c & C)]; [contradiction|].
  exists i, h, c, text, b, s1, s2. repeat (split; auto).
Qed.
