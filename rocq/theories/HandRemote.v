(** C21, continued: operators of other servers when AllowRemoteOper is off. *)
From Coq Require Import List Ascii String ZArith NArith Bool Lia Arith.
From Coq Require Import Relations RelationClasses.
From Verif Require Import Bytes Match Lists Hash ParseReq State Messages Monad Core Write Info Chan Mode Msg Login Oper Server Dispatch Conn.
From Verif Require Import Rel RelWrite RelInfo RelBase RelChan RelSrv RelInit RelKey RelCmd Spec Observ Unch HandOper HandPrefix.
Import ListNotations.
Local Open Scope m_scope.

(** nobody who is called [p] is a server or connected to this server *)
Definition remote_users (s : state) (p : bytes) : Prop :=
  forall u d, In u (s_clients s) -> assoc u (s_heap s) = Some d -> has_id (search_id p) d = true ->
    cl_type d <> T_SERVER /\ cl_conn d = None.

Lemma remote_users_wr : forall s s' p, wr s s' -> remote_users s p -> remote_users s' p.
Proof.
  intros s s' p W R u d L A N. rewrite (w_clients _ _ (wr_same _ _ W)) in L.
  destruct (wr_cli_back _ _ _ _ W A) as (y & x & Hy & ->). exact (R u y L Hy N).
Qed.

Lemma refused_from : forall u req s o s' d, cf_allowremoteoper (s_conf s) = false ->
  assoc u (s_heap s) = Some d -> cl_type d <> T_SERVER -> cl_conn d = None ->
  Op_Check u req s = Ok o s' -> o = None /\ s' = s.
Proof.
  intros u req s o s' d A J T K H. unfold Op_Check in H. bd H as srv s1 H1. apply is_type_ok in H1. destruct H1 as (-> & x & Hx & ->).
  rewrite J in Hx. injection Hx as <-. assert (F : ctype_eqb (cl_type d) T_SERVER = false) by (destruct (cl_type d); try reflexivity; congruence).
  rewrite F in H. bd H as o1 s1 H2. assert (o1 = Some u /\ s1 = s) as [-> ->] by (destruct (rq_prefix req); apply ret_ok in H2; exact H2).
  bd H as cs s1 H1. apply is_type_ok in H1. destruct H1 as (-> & x & Hx & ->). cbn [andb] in H. bd H as op s1 H3. unfold Client_HasMode in H3. bd H3 as cc s2 H4. rdcli H4. rdret H3.
  destruct (negb _); [apply ret_ok in H; exact H|]. bd H as i s1 H1. apply Client_Conn_ok in H1. destruct H1 as (-> & y & Hy & ->). bd H as rem s1 H1. unfold cf in H1. apply gets_ok in H1. destruct H1 as [-> ->].
  assert (y = d) by congruence. subst y. rewrite K, A in H. cbn [is_some negb andb] in H. apply ret_ok in H. exact H.
Qed.

Lemma refused_prefix : forall h c req p s o s', cf_allowremoteoper (s_conf s) = false ->
  assoc h (s_heap s) = Some c -> cl_type c = T_SERVER -> rq_prefix req = Some p -> remote_users s p ->
  Op_Check h req s = Ok o s' -> o = None /\ s' = s.
Proof.
  intros h c req p s o s' A J T P R H. unfold Op_Check in H. bd H as srv s1 H1. apply is_type_ok in H1. destruct H1 as (-> & x & Hx & ->).
  rewrite J in Hx. injection Hx as <-. rewrite T, P in H. cbn [ctype_eqb] in H. bd H as o1 s1 H2. apply Client_Search_ok in H2. destruct H2 as [-> H2].
  destruct o1 as [u|]; [|apply ret_ok in H; exact H]. destruct H2 as (L & d & D & N). destruct (R u d L D N) as [T' K].
  bd H as cs s1 H1. apply is_type_ok in H1. destruct H1 as (-> & x & Hx & ->). assert (x = d) by congruence. subst x.
  replace (ctype_eqb (cl_type d) T_SERVER) with false in H by (destruct (cl_type d); try reflexivity; congruence). cbn [andb] in H.
  bd H as op s1 H3. unfold Client_HasMode in H3. bd H3 as cc s2 H4. rdcli H4. rdret H3.
  destruct (negb _); [apply ret_ok in H; exact H|]. bd H as i s1 H1. apply Client_Conn_ok in H1. destruct H1 as (-> & y & Hy & ->). bd H as rem s1 H1. unfold cf in H1. apply gets_ok in H1. destruct H1 as [-> ->].
  assert (y = d) by congruence. subst y. rewrite K, A in H. cbn [is_some negb andb] in H. apply ret_ok in H. exact H.
Qed.

Lemma squit_refused : forall h c req p s b s', cf_allowremoteoper (s_conf s) = false ->
  assoc h (s_heap s) = Some c -> cl_type c = T_SERVER -> rq_prefix req = Some p -> remote_users s p ->
  IRC_SQUIT h req s = Ok b s' -> wr s s'.
Proof.
  intros h c req p s b s' A J T P R H. unfold IRC_SQUIT in H. cbv zeta in H. bd H as c1 s1 H1. apply cli_ok in H1. destruct H1 as [H1 ->].
  assert (c1 = c) by congruence. subst c1. rewrite T, P in H. cbn [ctype_eqb negb andb] in H.
  bd H as r s1 H2. bd H2 as o s2 H3. apply Client_Search_ok in H3. destruct H3 as [-> H3]. bd H2 as from s2 H4. apply nonnull_ok in H4. destruct H4 as [-> ->].
  destruct H3 as (L & d & D & N). destruct (R _ _ L D N) as [T' K]. bd H2 as fs s2 H4. apply is_type_ok in H4. destruct H4 as (-> & x & Hx & ->). assert (x = d) by congruence. subst x.
  replace (ctype_eqb (cl_type d) T_SERVER) with false in H2 by (destruct (cl_type d); try reflexivity; congruence).
  bd H2 as ok s2 H4. bd H4 as oc s3 H5. destruct (refused_prefix _ _ _ _ _ _ _ A J T P R H5) as [-> ->]. apply ret_ok in H4. destruct H4 as [-> ->]. cbn [is_some] in H2.
  apply ret_ok in H2. destruct H2 as [-> ->]. revert H. apply (Op_NoPrivileges_rel (X := wr)).
Qed.

Lemma connect_refused : forall h c req p s b s', cf_allowremoteoper (s_conf s) = false ->
  assoc h (s_heap s) = Some c -> cl_type c = T_SERVER -> rq_prefix req = Some p -> remote_users s p ->
  IRC_CONNECT h req s = Ok b s' -> wr s s'.
Proof.
  intros h c req p s b s' A J T P R H. unfold IRC_CONNECT in H. cbv zeta in H.
  destruct (negb _) in H; [revert H; apply need_more_wr|]. destruct (_ && _) in H; [revert H; apply need_more_wr|].
  bd H as c1 s1 H1. apply cli_ok in H1. destruct H1 as [H1 ->]. assert (c1 = c) by congruence. subst c1. rewrite T in H. cbn [ctype_eqb negb andb] in H.
  bd H as r s1 H2. unfold connect_target in H2.
  destruct ((argc req =? 3) || (argc req =? 6)).
  2: { apply ret_ok in H2. destruct H2 as [-> ->]. rewrite (proj2 (Nat.eqb_eq _ _) eq_refl : heq This_Server This_Server = true) in H. cbn [negb] in H.
       bd H as o s1 H4. destruct (refused_prefix _ _ _ _ _ _ _ A J T P R H4) as [-> ->]. revert H. apply (Op_NoPrivileges_rel (X := wr)). }
  bd H2 as srv s2 H3. apply is_type_ok in H3. destruct H3 as (-> & x & Hx & ->). assert (x = c) by congruence. subst x. rewrite T, P in H2. cbn [ctype_eqb] in H2.
  bd H2 as of s2 H3. apply Client_Search_ok in H3. destruct H3 as [-> H3]. destruct of as [from|].
  2: { bd H2 as b1 s2 H4. apply ret_ok in H2. destruct H2 as [-> ->]. apply ret_ok in H. destruct H as [-> ->]. assert (Q : rel wr (no_sender h p)) by (unfold no_sender; rel_auto). exact (Q _ _ _ H4). }
  destruct H3 as (L & d & D & N). destruct (R _ _ L D N) as [T' K]. bd H2 as ot s2 H3. apply Client_Search_ok in H3. destruct H3 as [-> H3].
  bd H2 as ok s2 H4. assert (s2 = s) by (destruct ot; [apply is_type_ok in H4; tauto|apply ret_ok in H4; tauto]). subst s2. clear H4.
  assert (Z : (exists t, r = inr (from, t) /\ s1 = s) \/ exists b1, r = inl b1 /\ wr s s1).
  { assert (Q : forall b1 s3, IRC_WriteErrClient from ERR_NOSUCHSERVER_MSG [aID from; aS (arg req 0)] s = Ok b1 s3 -> wr s s3).
    { intros b1 s3. apply (fun X => X s b1 s3). change (rel wr (IRC_WriteErrClient from ERR_NOSUCHSERVER_MSG [aID from; aS (arg req 0)])). rel_auto. }
    destruct ok; [destruct ot as [t|]|].
    - apply ret_ok in H2. destruct H2 as [-> ->]. left. eauto.
    - bd H2 as b1 s2 H4. apply ret_ok in H2. destruct H2 as [-> ->]. right. exists b1. split; eauto.
    - bd H2 as b1 s2 H4. apply ret_ok in H2. destruct H2 as [-> ->]. right. exists b1. split; eauto. }
  destruct Z as [(t & -> & ->)|(b1 & -> & W)].
  2: { apply ret_ok in H. destruct H as [_ ->]. exact W. }
  destruct (negb (heq t This_Server)) in H.
  { match type of H with ?m _ = _ => assert (Q : rel wr m) by (destruct (argc req =? 3); rel_auto); exact (Q _ _ _ H) end. }
  bd H as o s1 H4. destruct (refused_from _ _ _ _ _ _ A D T' K H4) as [-> ->]. revert H. apply (Op_NoPrivileges_rel (X := wr)).
Qed.

Theorem remote_refused : forall s i h c req b s' p n, client_of s i h c -> cl_type c = T_SERVER ->
  cf_allowremoteoper (s_conf s) = false -> rq_prefix req = Some p ->
  (forall u d, called s p u -> lookup u (s_heap s) = Some d -> cl_type d <> T_SERVER /\ ~ is_local d) ->
  n = "SQUIT"%string \/ n = "CONNECT"%string ->
  same_name (rq_command req) (B n) -> Handle_Request i req s = Ok b s' -> unchanged s s'.
Proof.
  intros s i h c req b s' p n C T A P R I E H.
  assert (RU : remote_users s p).
  { intros u d L D N. destruct (R u d) as [R1 R2]; [eapply has_id_called; eauto|rewrite lookup_assoc; auto|]. split; auto. destruct (cl_conn d) eqn:Q; auto. exfalso. apply R2. exists c0. exact Q. }
  assert (exists cmd, find (fun c => String.eqb (cm_name c) n) My_Commands = Some cmd /\ type_in T_SERVER (cm_types cmd) = true /\
    forall x b1 x', cf_allowremoteoper (s_conf x) = false -> remote_users x p -> (exists d, assoc h (s_heap x) = Some d /\ cl_type d = T_SERVER) -> cm_fun cmd h req x = Ok b1 x' -> wr x x') as (cmd & F & TI & G).
  { destruct I as [-> | ->]; eexists; (split; [reflexivity|]); (split; [reflexivity|]); cbn [cm_fun]; intros x b1 x' Ax Rx (d & Dx & Tx) Hx.
    - eapply squit_refused; eauto.
    - eapply connect_refused; eauto. }
  eapply Handle_Request_cmd in H; eauto. destruct C as [_ C]. rewrite lookup_assoc in C.
  apply find_some in F. destruct F as [F _]. pose proof (cmd_penalty _ F) as Hp. unfold run_command in H. rewrite T, TI in H. cbn [negb] in H.
  bd H as u s1 H1. assert (W : wr s s1). { revert H1. apply (fun X => X s u s1). change (rel wr (whenM (negb (cm_penalty cmd =? 0)%Z) (IRC_SetPenalty h (cm_penalty cmd)))). rel_auto. }
  transitivity s1; [apply wr_unchanged; auto|].
  destruct (_ || _) in H; [apply wr_unchanged; match type of H with ?m _ = _ => assert (Q : rel wr m) by rel_auto; exact (Q _ _ _ H) end|].
  bd H as u2 s2 H2. apply modify_ok in H2. subst s2. transitivity (set_s_wcounter 0 s1); [apply ps; constructor|]. apply wr_unchanged.
  destruct (wr_cli _ _ _ _ W C) as [y Hy]. eapply G; [| | |exact H].
  - cbn [s_conf set_s_wcounter]. rewrite (w_conf _ _ (wr_same _ _ W)). exact A.
  - exact (remote_users_wr _ _ _ W RU).
  - eexists. split; [exact Hy|]. exact T.
Qed.
