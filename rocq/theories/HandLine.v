(** A line of a client, taken apart: either it is answered without a command being executed, or it
    is a numeric of a server, or the handler of exactly one command of the table runs. *)
From Coq Require Import List Ascii String ZArith NArith Bool Lia Arith.
From Coq Require Import Relations RelationClasses.
From Verif Require Import Bytes Match Lists Hash ParseReq State Messages Monad Core Write Info Chan Mode Msg Login Oper Server Dispatch Conn.
From Verif Require Import Rel RelWrite RelInfo RelBase RelChan RelSrv RelInit RelKey RelCmd WF Frame Tree Inv1 Spec Observ Unch HandOper HandPrefix.
Import ListNotations.
Local Open Scope m_scope.

(** some lines are written, and the connection may be closed *)
Definition answered (i : connid) (s s' : state) : Prop :=
  exists s1, wr s s1 /\ (s' = s1 \/ exists log fwd inform, Conn_Close i log fwd inform s1 = Ok tt s').
Lemma answered_X : forall X (PO : PreOrder X) (WS : WrSub X) (PC : PS L_close X) i s s', answered i s s' -> X s s'.
Proof.
  intros X PO WS PC i s s' (s1 & W & H). transitivity s1; [eapply wr_incl; eauto|]. destruct H as [-> |(a & b & c & H)]; [reflexivity|].
  apply (ps (l := L_close)). eapply p_close; eauto.
Qed.
(** before the handler of a command runs *)
Definition prepared (s s1 : state) : Prop := exists s0, wr s s0 /\ s1 = set_s_wcounter 0 s0.
Lemma prepared_X : forall X (PO : PreOrder X) (WS : WrSub X) (PC : PS L_wc X) s s', prepared s s' -> X s s'.
Proof.
  intros X PO WS PC s s' (s1 & W & ->). transitivity s1; [eapply wr_incl; eauto|]. apply (ps (l := L_wc)). apply p_wc.
Qed.
Record command_run (s : state) (i : connid) (h : handle) (c : client) (text : bytes) (cmd : command) (req : request) (s1 : state) (b : bool) (s' : state) : Prop := mk_command_run {
  cr_parse : exists p, parse_line (trim text) = Some (mkReq p (rq_command req) (rq_args req));
  cr_in : In cmd My_Commands;
  cr_name : same_name (rq_command req) (B (cm_name cmd));
  cr_type : type_in (cl_type c) (cm_types cmd) = true;
  cr_min : cm_min cmd <= argc req; cr_max : forall m, cm_max cmd = Some m -> argc req <= m;
  cr_pre : cmd_pre h req s;
  cr_pre1 : cmd_pre h req s1;
  cr_prep : prepared s s1;
  cr_run : cm_fun cmd h req s1 = Ok b s' }.
Lemma unregistered_no_server : forall t, is_registered t = false -> t <> T_SERVER.
Proof. intros t H ->. discriminate H. Qed.
Lemma line_cases : forall s i h c text b s', client_of s i h c -> Parse_Request i text s = Ok b s' ->
  answered i s s' \/
  ((cl_type c = T_SERVER \/ cl_type c = T_UNKNOWNSERVER) /\ exists req, Handle_Numeric h req s = Ok b s') \/
  exists cmd req s1, command_run s i h c text cmd req s1 b s'.
Proof.
  intros s i h c text b s' C H. unfold Parse_Request in H. cbv zeta in H. bd H as sc s1 H1. unfold cf in H1. rdgets H1.
  assert (R : forall s, answered i s s). { intro x. exists x. split; auto. apply wr_refl. }
  assert (Wr : forall x y, wr x y -> answered i x y). { intros x y W. exists y. auto. }
  destruct (cf_scrubctcp (s_conf s) && ScrubCTCP (trim text)). { apply ret_ok in H. destruct H as [_ ->]. auto. }
  destruct (parse_line (trim text)) as [req|] eqn:P.
  2: { left. apply Wr. revert H. apply (fun X => X s b s'). change (rel wr (Conn_WriteStr i "ERROR :Prefix without command" [])). rel_auto. }
  bd H as v s1 H1. pose proof (Validate_Prefix_ok _ _ _ _ _ H1) as V. destruct v as [cl|req'].
  - left. apply ret_ok in H. destruct H as [_ ->]. clear V. unfold Validate_Prefix in H1.
    bd H1 as o s2 H2. destruct (client_of_get _ _ _ _ _ _ C H2) as [-> ->]. clear H2.
    bd H1 as h' s2 H2. apply nonnull_ok in H2. destruct H2 as [E ->]. injection E as <-. bd H1 as t s2 H2. destruct (client_of_type _ _ _ _ _ _ C H2) as [-> ->]. clear H2.
    bd H1 as cn s2 H2. apply con_ok in H2. destruct H2 as [-> _]. destruct (rq_prefix req) as [p|] eqn:Q.
    + destruct (negb (is_registered (cl_type c))). { apply ret_ok in H1. destruct H1; discriminate. }
      bd H1 as o s2 H2. pose proof (Client_Search_ok _ _ _ _ H2) as [-> _]. destruct o as [u|].
      * bd H1 as nh s2 H3. assert (s2 = s). { unfold Client_NextHop in H3. bd H3 as n sx Hx. rdgets Hx. eapply NextHop_ok; eauto. } subst s2.
        destruct (negb (heq nh h)); [|apply ret_ok in H1; destruct H1; discriminate].
        destruct (negb _) in H1; [|apply ret_ok in H1; destruct H1 as [_ ->]; auto].
        bd H1 as x s2 H4. apply ret_ok in H1. destruct H1 as [_ ->]. destruct x. exists s. split; [apply wr_refl|]. right. eauto.
      * destruct (negb _) in H1; [|apply ret_ok in H1; destruct H1 as [_ ->]; auto].
        bd H1 as ok s2 H3. bd H1 as x s3 H4. apply ret_ok in H1. destruct H1 as [_ ->]. apply Wr.
        apply (wr_trans s s2); [revert H3; apply (fun X => X s ok s2); change (rel wr (Conn_WriteStr i "ERROR :Invalid prefix ""%s""" [aS p])); rel_auto|].
        revert H4. apply (fun X => X s2 x s3). change (rel wr (IRC_SetPenalty h 2)). rel_auto.
    + destruct (_ && _) in H1; [|apply ret_ok in H1; destruct H1; discriminate].
      bd H1 as ok s2 H3. apply ret_ok in H1. destruct H1 as [_ ->]. apply Wr. revert H3. apply (fun X => X s ok s2). change (rel wr (Conn_WriteStr i "ERROR :Prefix missing" [])). rel_auto.
  - destruct V as (-> & h0 & G & Pre). destruct (client_of_get _ _ _ _ _ _ C G) as [E _]. injection E as ->.
    assert (PP : exists p, parse_line (trim text) = Some (mkReq p (rq_command req') (rq_args req'))).
    { rewrite P. clear - H1 C. unfold Validate_Prefix in H1. bd H1 as o s2 H2. bd H1 as h' s3 H3. bd H1 as t s4 H4. bd H1 as cn s5 H5. destruct (rq_prefix req) as [p|] eqn:Q.
      - destruct (negb (is_registered t)). { apply ret_ok in H1. destruct H1 as [H1 _]. injection H1 as ->. cbn. exists (rq_prefix req). destruct req; reflexivity. }
        bd H1 as o2 s6 H6. destruct o2.
        + bd H1 as nh s7 H7. destruct (negb _) in H1; [destruct (negb _) in H1; [bd H1 as x s8 H8|]; apply ret_ok in H1; destruct H1; discriminate|].
          apply ret_ok in H1. destruct H1 as [H1 _]. injection H1 as ->. exists (rq_prefix req). destruct req; reflexivity.
        + destruct (negb _) in H1; [bd H1 as x s8 H8; bd H1 as y s9 H9|]; apply ret_ok in H1; destruct H1; discriminate.
      - destruct (_ && _) in H1; [bd H1 as x s8 H8; apply ret_ok in H1; destruct H1; discriminate|].
        apply ret_ok in H1. destruct H1 as [H1 _]. injection H1 as ->. exists (rq_prefix req). destruct req; reflexivity. }
    clear H1 P req. rename req' into req. unfold Handle_Request in H. bd H as o s1 H1. rewrite G in H1. inversion H1; subst o s1. clear H1.
    bd H as h' s1 H1. apply ret_ok in H1. destruct H1 as [-> ->]. bd H as t s1 H1. destruct (client_of_type _ _ _ _ _ _ C H1) as [-> ->]. clear H1.
    destruct (_ && _) eqn:N in H.
    { right. left. split; [|eauto]. rewrite !andb_true_iff, orb_true_iff in N. destruct N as [[[N|N] _] _]; apply ctype_eqb_eq in N; auto. }
    destruct (find _ My_Commands) as [cmd|] eqn:F.
    2: { left. destruct (negb _) in H; [apply ret_ok in H; destruct H as [_ ->]; auto|]. destruct (negb _) in H; [|apply ret_ok in H; destruct H as [_ ->]; auto].
         apply Wr. revert H. apply (fun X => X s b s'). change (rel wr (IRC_WriteErrClient h ERR_UNKNOWNCOMMAND_MSG [aID h; aS (rq_command req)])). rel_auto. }
    apply find_some in F. destruct F as [F1 F2]. apply same_name_iff in F2. pose proof (cmd_penalty _ F1) as Hp. unfold run_command in H.
    destruct (type_in (cl_type c) (cm_types cmd)) eqn:T; cbn [negb] in H.
    2: { left. apply Wr. revert H. apply (fun X => X s b s'). change (rel wr (if ctype_eqb (cl_type c) T_USER && type_in T_SERVER (cm_types cmd)
      then IRC_WriteErrClient h ERR_NOTREGISTEREDSERVER_MSG [aID h] else IRC_WriteErrClient h ERR_NOTREGISTERED_MSG [aID h])). rel_auto. }
    bd H as u s1 H1. assert (W : wr s s1). { revert H1. apply (fun X => X s u s1). change (rel wr (whenM (negb (cm_penalty cmd =? 0)%Z) (IRC_SetPenalty h (cm_penalty cmd)))). rel_auto. }
    destruct (_ || _) eqn:A in H. { left. apply Wr. eapply wr_trans; eauto. revert H. apply need_more_wr. }
    bd H as u2 s2 H2. apply modify_ok in H2. subst s2. right. right. exists cmd, req, (set_s_wcounter 0 s1).
    apply orb_false_iff in A. destruct A as [A1 A2]. apply Nat.ltb_ge in A1.
    assert (PR : prepared s (set_s_wcounter 0 s1)) by (exists s1; auto).
    split; auto.
    + intros m E. rewrite E in A2. apply Nat.ltb_ge in A2. exact A2.
    + eapply prefix_ok_kstable; [|exact Pre]. eapply prepared_X; [exact _..|exact PR].
Qed.
(** a client that is not a server speaks for itself only *)
Lemma own_prefix : forall s h req i c, tree s -> client_of s i h c -> cl_type c <> T_SERVER -> cmd_pre h req s ->
  forall p, rq_prefix req = Some p -> Client_Search p s = Ok (Some h) s.
Proof.
  intros s h req i c TR C T [_ P] p E. unfold prefix_ok in P. rewrite E in P. destruct P as (x & P1 & P2). unfold Client_NextHop in P2. bd P2 as n s3 H4. rdgets H4.
  destruct (NextHop_behind _ TR _ _ _ _ P2) as (_ & _ & [-> |(d & D1 & D2)]); auto. exfalso. destruct C as [_ C]. rewrite lookup_assoc in C. congruence.
Qed.
