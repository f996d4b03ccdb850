(** Validation of the prefix of a command. *)
From Coq Require Import List Ascii String ZArith NArith Bool Lia Arith.
From Coq Require Import Relations RelationClasses.
From Verif Require Import Bytes Match Lists Hash ParseReq State Messages Monad Core Write Info Chan Mode Msg Login Oper Server Dispatch Conn.
From Verif Require Import Rel RelWrite RelInfo RelBase RelChan RelSrv RelInit RelKey RelCmd WF Frame Tree Inv1 Spec Observ Unch HandOper.
Import ListNotations.
Local Open Scope m_scope.

Lemma search_nick : forall p, search_id p = nick_part p.
Proof.
  intro p. unfold search_id, nick_part. replace (strlcpy CLIENT_ID_LEN p) with (firstn 63 p).
  2: { unfold strlcpy, CLIENT_ID_LEN. destruct (Nat.leb_spec 64 (List.length p)); auto. apply firstn_all2. lia. }
  generalize (firstn 63 p). clear p. intro p. induction p as [|a r IH]; [reflexivity|]. cbn [strchr before_bang]. destruct (Ascii.eqb a "!"); [reflexivity|].
  destruct (strchr "!" r) as [[x y]|]; congruence.
Qed.
Lemma has_id_called : forall s p u c, In u (s_clients s) -> assoc u (s_heap s) = Some c -> has_id (search_id p) c = true -> called s p u.
Proof.
  intros s p u c L A. unfold has_id. rewrite search_nick. intro H. apply andb_true_iff in H. destruct H as [_ H]. exists c. split; [split; auto; rewrite lookup_assoc; auto|]. apply same_name_iff. auto.
Qed.
Lemma called_has_id : forall s p u c, icli s -> assoc u (s_heap s) = Some c -> called s p u -> nick_part p <> [] -> has_id (search_id p) c = true.
Proof.
  intros s p u c I A (d & [_ K] & N) NE. unfold has_id. rewrite search_nick. rewrite lookup_assoc in K. assert (d = c) by congruence. subst d. apply same_name_iff in N. rewrite N, andb_true_r. apply N.eqb_eq.
  destruct (I _ _ A) as [_ [E|E] _ _ _]; [|rewrite E; apply Hash.Hash_case; auto].
  exfalso. apply NE. apply same_name_iff in N. unfold same_name in N. rewrite E in N. destruct (nick_part p); [auto|discriminate N].
Qed.
Lemma search_called : forall s p o s', icli s -> Client_Search p s = Ok o s' -> s' = s /\ match o with Some u => called s p u | None => forall u, called s p u -> nick_part p = [] end.
Proof.
  intros s p o s' I H. apply Client_Search_ok in H. destruct H as [-> H]. split; auto. destruct o as [u|].
  - destruct H as (L & c & A & E). eapply has_id_called; eauto.
  - intros u C. pose proof C as (d & [L K] & N). destruct (H _ L) as (c & A & E). destruct (nick_part p) as [|x r] eqn:Q; auto. pose proof (called_has_id s p u c I A C) as X. rewrite Q in X. rewrite X in E; discriminate.
Qed.
Lemma NextHop_behind : forall s, tree s -> forall n u h s', NextHop n u s = Ok h s' -> s' = s /\ behind s h u /\ (u = h \/ exists d, assoc h (s_heap s) = Some d /\ cl_type d = T_SERVER).
Proof.
  intros s T. induction n; intros u h s' H; cbn [NextHop] in H; [discriminate H|].
  bd H as c s1 H1. rdcli H1. destruct (cl_introducer c) as [p|] eqn:E; [|apply ret_ok in H; destruct H as [-> ->]; split; auto; split; [constructor|auto]].
  destruct (heq p u || heq p This_Server) eqn:Q; [apply ret_ok in H; destruct H as [-> ->]; split; auto; split; [constructor|auto]|].
  apply orb_false_iff in Q. destruct Q as [Q1 Q2]. apply Nat.eqb_neq in Q1, Q2. destruct (IHn _ _ _ H) as (-> & BH & TY). split; auto.
  match goal with A : assoc u (s_heap s) = Some c |- _ => rename A into Hu end.
  split; [econstructor; eauto; rewrite lookup_assoc; auto|]. destruct (cl_conn c) as [i|] eqn:Ci.
  - destruct (tr_local _ T _ _ _ Hu Ci) as [X|X]; rewrite E in X; congruence.
  - destruct (Nat.eq_dec u This_Server) as [->|N].
    + destruct (tr_me _ T) as (m & M1 & _ & _ & M2). assert (m = c) by congruence. subst. rewrite E in M2. congruence.
    + destruct (tr_remote _ T _ _ Hu Ci N) as (p' & cp & P1 & P2 & P3 & P4 & P5). assert (p' = p) by congruence. subst p'. destruct TY as [-> |TY]; [right; eauto|right; exact TY].
Qed.

(** what happens to a line of a client that is not a server *)
Theorem user_origin : forall s i h c text req b s', live s -> undisturbed s -> client_of s i h c -> cl_type c = T_USER ->
  parse_line (trim text) = Some req -> Parse_Request i text s = Ok b s' ->
  match rq_prefix req with
  | None => Handle_Request i req s = Ok b s' \/ (cf_scrubctcp (s_conf s) = true /\ s' = s)
  | Some p => (called s p h /\ Handle_Request i req s = Ok b s') \/
              ((exists u, called s p u /\ u <> h) /\ Conn_Close i None (Some (B "Spoofed prefix")) true s = Ok tt s') \/
              ((forall u, called s p u -> nick_part p = []) /\ unchanged s s') \/
              (cf_scrubctcp (s_conf s) = true /\ s' = s)
  end.
Proof.
  intros s i h c text req b s' L U C T P H. pose proof (live_icli _ L) as IC. pose proof (live_itree _ L U) as TR. unfold Parse_Request in H. cbv zeta in H. bd H as sc s1 H1. unfold cf in H1. rdgets H1.
  destruct (cf_scrubctcp (s_conf s) && ScrubCTCP (trim text)) eqn:SC.
  { apply ret_ok in H. destruct H as [_ ->]. apply andb_true_iff in SC. destruct SC as [SC _]. destruct (rq_prefix req); auto. }
  clear SC. rewrite P in H. bd H as v s1 H1. unfold Validate_Prefix in H1. bd H1 as o s2 H2. destruct (client_of_get _ _ _ _ _ _ C H2) as [-> ->]. clear H2.
  bd H1 as h' s2 H2. apply nonnull_ok in H2. destruct H2 as [E ->]. injection E as <-. bd H1 as t s2 H2. destruct (client_of_type _ _ _ _ _ _ C H2) as [-> ->]. clear H2. rewrite T in H1.
  bd H1 as cn s2 H2. apply con_ok in H2. destruct H2 as [-> _]. destruct (rq_prefix req) as [p|] eqn:Q.
  2: { cbn [ctype_eqb andb] in H1. apply ret_ok in H1. destruct H1 as [-> ->]. auto. }
  cbn [is_registered negb] in H1. bd H1 as o s2 H2. destruct (search_called _ _ _ _ IC H2) as [-> K]. destruct o as [u|].
  - bd H1 as nh s2 H3. unfold Client_NextHop in H3. bd H3 as n s3 H4. rdgets H4. destruct (NextHop_behind _ TR _ _ _ _ H3) as (-> & BH & TY).
    destruct (heq nh h) eqn:E; cbn [negb] in H1.
    + apply Nat.eqb_eq in E. subst nh. apply ret_ok in H1. destruct H1 as [-> ->]. left. split; auto. destruct TY as [-> |(d & D1 & D2)]; auto.
      destruct C as [_ C]. rewrite lookup_assoc in C. congruence.
    + cbn [ctype_eqb negb] in H1. bd H1 as x s2 H4. apply ret_ok in H1. destruct H1 as [-> ->]. cbn [negb] in H. apply ret_ok in H. destruct H as [_ ->]. right. left. split; [exists u; split; auto|destruct x; auto].
      intros ->. apply Nat.eqb_neq in E. apply E. destruct C as [(cn' & A1 & A2) C]. rewrite lookup_assoc in A1, C.
      destruct (tr_c2h _ TR _ _ A1) as (h2 & c2 & B1 & B2 & B3). assert (h2 = h) by congruence. subst h2.
      eapply (NextHop_local h c2 i); eauto.
  - right. right. left. split; auto. cbn [ctype_eqb negb] in H1. bd H1 as ok s2 H3. bd H1 as x s3 H4. apply ret_ok in H1. destruct H1 as [-> ->]. apply ret_ok in H. destruct H as [_ ->].
    transitivity s2; [revert H3; apply (fun X => X s ok s2); change (rel unchanged (Conn_WriteStr i "ERROR :Invalid prefix ""%s""" [aS p])); rel_auto|].
    revert H4. apply (fun X => X s2 x s3). change (rel unchanged (IRC_SetPenalty h 2)). rel_auto.
Qed.

(** before registration a prefix is ignored *)
Theorem unregistered_origin : forall s i h c text req b s', client_of s i h c -> ~ registered (cl_type c) ->
  parse_line (trim text) = Some req -> Parse_Request i text s = Ok b s' ->
  Handle_Request i (mkReq None (rq_command req) (rq_args req)) s = Ok b s' \/ (cf_scrubctcp (s_conf s) = true /\ s' = s).
Proof.
  intros s i h c text req b s' C T P H. unfold Parse_Request in H. cbv zeta in H. bd H as sc s1 H1. unfold cf in H1. rdgets H1.
  destruct (cf_scrubctcp (s_conf s) && ScrubCTCP (trim text)) eqn:SC.
  { apply ret_ok in H. destruct H as [_ ->]. apply andb_true_iff in SC. destruct SC as [SC _]. auto. }
  clear SC. left. rewrite P in H. bd H as v s1 H1. unfold Validate_Prefix in H1. bd H1 as o s2 H2. destruct (client_of_get _ _ _ _ _ _ C H2) as [-> ->]. clear H2.
  bd H1 as h' s2 H2. apply nonnull_ok in H2. destruct H2 as [E ->]. injection E as <-. bd H1 as t s2 H2. destruct (client_of_type _ _ _ _ _ _ C H2) as [-> ->]. clear H2.
  bd H1 as cn s2 H2. apply con_ok in H2. destruct H2 as [-> _].
  assert (R : is_registered (cl_type c) = false /\ ctype_eqb (cl_type c) T_SERVER = false) by (unfold registered in T; destruct (cl_type c); cbn; tauto). destruct R as [R1 R2]. rewrite R1, R2 in H1. cbn [negb andb] in H1.
  destruct req as [[p|] cmd args]; cbn [rq_prefix rq_command rq_args] in *; apply ret_ok in H1; destruct H1 as [-> ->]; exact H.
Qed.

(** what happens to a line of a linked server *)
Theorem server_origin : forall s i h c text req b s', live s -> undisturbed s -> client_of s i h c -> cl_type c = T_SERVER ->
  parse_line (trim text) = Some req -> Parse_Request i text s = Ok b s' ->
  match rq_prefix req with
  | None => Handle_Request i req s = Ok b s' \/ unchanged s s'
  | Some p => ((exists u, called s p u /\ behind s h u) /\ Handle_Request i req s = Ok b s') \/ s' = s
  end.
Proof.
  intros s i h c text req b s' L U C T P H. pose proof (live_icli _ L) as IC. pose proof (live_itree _ L U) as TR. unfold Parse_Request in H. cbv zeta in H. bd H as sc s1 H1. unfold cf in H1. rdgets H1.
  destruct (cf_scrubctcp (s_conf s) && ScrubCTCP (trim text)) eqn:SC.
  { apply ret_ok in H. destruct H as [_ ->]. destruct (rq_prefix req); auto. right. reflexivity. }
  clear SC. rewrite P in H. bd H as v s1 H1. unfold Validate_Prefix in H1. bd H1 as o s2 H2. destruct (client_of_get _ _ _ _ _ _ C H2) as [-> ->]. clear H2.
  bd H1 as h' s2 H2. apply nonnull_ok in H2. destruct H2 as [E ->]. injection E as <-. bd H1 as t s2 H2. destruct (client_of_type _ _ _ _ _ _ C H2) as [-> ->]. clear H2. rewrite T in H1.
  bd H1 as cn s2 H2. apply con_ok in H2. destruct H2 as [-> _]. destruct (rq_prefix req) as [p|] eqn:Q.
  2: { destruct (_ && _) in H1.
       - right. bd H1 as ok s2 H3. apply ret_ok in H1. destruct H1 as [-> ->]. apply ret_ok in H. destruct H as [_ ->].
         revert H3. apply (fun X => X s ok s2). change (rel unchanged (Conn_WriteStr i "ERROR :Prefix missing" [])). rel_auto.
       - left. apply ret_ok in H1. destruct H1 as [-> ->]. auto. }
  cbn [is_registered negb] in H1. bd H1 as o s2 H2. destruct (search_called _ _ _ _ IC H2) as [-> K]. destruct o as [u|].
  - bd H1 as nh s2 H3. unfold Client_NextHop in H3. bd H3 as n s3 H4. rdgets H4. destruct (NextHop_behind _ TR _ _ _ _ H3) as (-> & BH & TY).
    destruct (heq nh h) eqn:E; cbn [negb ctype_eqb] in H1.
    + apply Nat.eqb_eq in E. subst nh. apply ret_ok in H1. destruct H1 as [-> ->]. left. split; eauto.
    + apply ret_ok in H1. destruct H1 as [-> ->]. apply ret_ok in H. destruct H as [_ ->]. auto.
  - cbn [ctype_eqb negb] in H1. apply ret_ok in H1. destruct H1 as [-> ->]. apply ret_ok in H. destruct H as [_ ->]. auto.
Qed.
