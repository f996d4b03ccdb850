(** The names of new channels (C10). *)
From Coq Require Import List Ascii String ZArith NArith Bool Lia Arith.
From Coq Require Import Relations RelationClasses.
From Verif Require Import Bytes Strl Match Lists ListsProofs Hash ParseReq State Messages Monad Core Write Info Chan Mode Msg Login Oper Server Dispatch Conn.
From Verif Require Import Rel RelWrite RelInfo RelBase RelChan RelSrv RelInit RelKey RelCmd RelComp WF RelGone Frame Tree Inv1 Inv2 Inv4 Live Spec Observ Unch HandOper HandPrefix HandLine Frames Attrib HandGain HandUser HandChan HandJoin.
Import ListNotations.
Local Open Scope m_scope.

(** every channel of [s] is one of [s0], or its name is in [P] *)
Definition byN (P : bytes -> Prop) (s0 s : state) : Prop :=
  s_conf s = s_conf s0 /\ forall ch k, assoc ch (s_chans s) = Some k -> assoc ch (s_chans s0) <> None \/ P (ch_name k).
Section N.
Context {P : bytes -> Prop} {s0 : state}.
Lemma byN_f : forall s s', s_conf s' = s_conf s -> s_chans s' = s_chans s -> byN P s0 s -> byN P s0 s'.
Proof. intros s s' E0 E [H0 H]. split; [congruence|]. intros ch k A. rewrite E in A. eauto. Qed.
Lemma byN_set : forall s s' h f, s_conf s' = s_conf s -> s_chans s' = aupd h f (s_chans s) -> (forall c, assoc h (s_chans s) = Some c -> ch_name (f c) = ch_name c) -> byN P s0 s -> byN P s0 s'.
Proof.
  intros s s' h f E0 E F [H0 H]. split; [congruence|]. intros ch k A. rewrite E, assoc_aupd in A. destruct (Nat.eqb_spec h ch) as [<- |]; [|eauto].
  destruct (assoc h (s_chans s)) as [c|] eqn:A0; [|discriminate]. cbn in A. injection A as <-. rewrite (F _ eq_refl). eauto.
Qed.
Lemma kstep_name : forall l c c', kstep l c c' -> ch_name c' = ch_name c.
Proof.
  intros l c c' H. destruct H; try reflexivity.
  all: match goal with J : ctopic _ _ |- _ => destruct J | J : lop_chan _ _ |- _ => destruct J | J : chk_chan _ _ |- _ => destruct J | J : use_chan _ _ |- _ => destruct J | J : inv_chan _ _ |- _ => destruct J end; congruence || reflexivity.
Qed.
Definition makes (l : lab) : bool := match l with L_create | L_create_any | L_create_pre => true | _ => compo l end.
Lemma byN_step : forall l, makes l = false -> forall s s', wf s -> pstep l s s' -> byN P s0 s -> byN P s0 s'.
Proof.
  intros l T s s' W H. assert (CO : compo l = false) by (destruct l; try reflexivity; discriminate T).
  pose proof (conf_step _ _ _ CO W H) as FC. destruct (tchan l) eqn:TH; [|apply byN_f; [exact FC|]; eapply frame_chan; eauto; intros ->; discriminate CO].
  destruct l; try discriminate T; try discriminate TH; try (inversion H; subst; eapply byN_set; [exact FC|unfold set_chan, if_odd; ifs; reflexivity|intros c0 A0; try (match goal with J : assoc _ _ = Some ?c |- _ => rewrite J in A0; injection A0 as <- end); (eapply kstep_name; econstructor; eauto; fail)]).
  inversion H; subst. intros [HA HB]. split; [exact HA|]. intros j c' A'. cbn [s_chans set_s_chans] in A'. rewrite assoc_adel in A'. destruct (Nat.eqb j ch); [discriminate|eauto].
Qed.
Lemma byN_refl : byN P s0 s0.
Proof. split; auto. intros ch k A. left. congruence. Qed.
End N.
#[export] Instance byN_wrsub : forall P s0, WrSub (also wf (byN P s0)).
Proof. intros P s0. apply also_wr; [exact _|]. intros s s' H _ E. eapply byN_f; [| |exact E]; [apply fconf_wr, rt_step; auto|]. apply fchan_wr, rt_step; auto. Qed.
Lemma byN_ps : forall P s0 l, makes l = false -> PS l (pres wf) -> PS l (also wf (byN P s0)).
Proof. intros P s0 l T Q s s' H W. split; [exact (Q s s' H W)|]. intro E. eapply byN_step; eauto. Qed.
#[export] Hint Extern 1 (PS _ (also wf (byN _ _))) => (apply byN_ps; [reflexivity|exact _]) : typeclass_instances.
Lemma uothers_names : forall P s0, uothers (also wf (byN P s0)) ["JOIN"]%string.
Proof. intros. uothers_tac. Qed.

(** ---- JOIN ---- *)
(** the names of [l] that may be used for new channels *)
Definition fresh_name (s0 : state) (l : list bytes) (n : bytes) : Prop :=
  In n l /\ valid_chan n = true /\ strchr0 (hd0 n) (cf_chantypes (s_conf s0)) = true.
Lemma join_one_names : forall h l name key s0 s x s' c, In name l -> wf s -> ichan s -> byN (fresh_name s0 l) s0 s -> assoc h (s_heap s) = Some c -> fits c -> cl_id c <> [] -> (forall t, key = Some t -> t <> []) ->
  join_one h h name key s = Ok x s' -> byN (fresh_name s0 l) s0 s'.
Proof.
  intros h l name key s0 s x s' c I W IC BN A F NI KN H.
  assert (E : forall s1 s2, also wf (byN (fresh_name s0 l) s0) s1 s2 -> wf s1 /\ byN (fresh_name s0 l) s0 s1 -> wf s2 /\ byN (fresh_name s0 l) s0 s2) by (intros s1 s2 Q [Q1 Q2]; destruct (Q Q1); auto).
  unfold join_one in H. bd H as srv s1 H1. apply is_type_ok in H1. destruct H1 as (-> & c1 & A1 & ->). rewrite A in A1. injection A1 as <-. rewrite (fi_type _ F) in H. cbn [ctype_eqb] in H.
  bd H as o s1 H1. assert (s1 = s) as -> by (unfold Channel_Search, gets in H1; congruence).
  bd H as r s2 H2. assert (R2 : rel (also wf (byN (fresh_name s0 l) s0)) (join_check h h name o key None)) by rel_auto. pose proof (R2 _ _ _ H2) as Q2. specialize (E _ _ Q2 (conj W BN)) as B2. destruct r as [y|f]; [apply ret_ok in H; destruct H as [_ ->]; apply B2|].
  assert (TY : o = None -> strchr0 (hd0 name) (cf_chantypes (s_conf s0)) = true).
  { intros ->. clear - BN A F H2. unfold join_check in H2. bd H2 as ty s3 H3. apply Client_Type_ok in H3. destruct H3 as (-> & c1 & A3 & ->). rewrite A in A3. injection A3 as <-. rewrite (fi_type _ F) in H2. cbn [ctype_eqb] in H2. cbv zeta in H2.
    bd H2 as pre s3 H3. bd H3 as types s4 H4. unfold cf in H4. rdgets H4. rewrite (proj1 BN) in H3. destruct (strchr0 (hd0 name) (cf_chantypes (s_conf s0))); auto. cbn [negb] in H3. bd H3 as u s5 H5. apply ret_ok in H3. destruct H3 as [-> ->]. apply ret_ok in H2. destruct H2 as [H2 _]. discriminate H2. }
  destruct (join_check_ok _ _ _ _ _ _ _ _ _ W IC A F NI KN H1 H2) as [QT _].
  bd H as ok s3 H3. assert (B3 : wf s3 /\ byN (fresh_name s0 l) s0 s3).
  { unfold Channel_Join in H3. destruct (valid_chan name) eqn:V; cbn [negb] in H3.
    2: { bd H3 as u s4 H4. assert (W4 : wr s2 s4) by xlast H4. apply ret_ok in H3. destruct H3 as [_ ->]. eapply E; [|exact B2]. eapply wr_incl; [exact _|exact _|exact W4]. }
    bd H3 as o2 s4 H4. rewrite (search_quiet _ _ _ QT), H1 in H4. injection H4 as <- <-. destruct o as [ch|].
    - bd H3 as b s4 H5. pose proof H5 as H5'. apply IsMemberOf_on in H5. destruct H5 as [-> _]. destruct b; [apply ret_ok in H3; destruct H3 as [_ ->]; exact B2|].
      bd H3 as u s4 H6. apply ret_ok in H3. destruct H3 as [_ ->]. eapply E; [|exact B2]. destruct u. apply (ps (l := L_addmb)). eapply p_addmb; [|exact H6].
      unfold Channel_IsMemberOf in H5'. bd H5' as om s5 H7. apply Get_Cl2Chan_ok in H7. destruct H7 as [-> ->]. apply ret_ok in H5'. destruct H5' as [H5' _]. destruct (find (is_mb ch h) (s_members s2)); [discriminate H5'|reflexivity].
    - bd H3 as ch s4 H4. bd H3 as u s5 H5. apply ret_ok in H3. destruct H3 as [_ ->]. destruct u.
      assert (P2 : pstep L_create s2 s5) by (eapply p_create; [rewrite (search_quiet _ _ _ QT), H1; reflexivity|exact V|exact H4|exact H5]).
      split; [exact (ps (l := L_create) (X := pres wf) _ _ P2 (proj1 B2))|]. apply Channel_Create_ok in H4. destruct H4 as [-> E4]. apply Add_Client_ok in H5. destruct H5 as (c5 & k5 & A5 & AK5 & E5).
      assert (EC : s_chans s5 = (s_chnext s2, new_channel name (s_now s2)) :: s_chans s2 /\ s_conf s5 = s_conf s2) by (rewrite E5, E4; unfold if_odd; ifs; auto). destruct EC as [EC ECo].
      destruct B2 as [_ [B0 B2]]. split; [congruence|]. intros j k AJ. rewrite EC in AJ. cbn [assoc] in AJ. destruct (Nat.eqb j (s_chnext s2)); [|eauto]. injection AJ as <-. right.
      assert (VN : ch_name (new_channel name (s_now s2)) = name). { cbn [ch_name new_channel]. apply strlcpy_short. unfold valid_chan in V. rewrite !andb_true_iff in V. destruct V as [[_ V] _]. apply Nat.ltb_lt in V. exact V. }
      rewrite VN. split; auto. }
  match type of H with ?m _ = _ => assert (R3 : rel (also wf (byN (fresh_name s0 l) s0)) m) by rel_auto; exact (proj2 (E _ _ (R3 _ _ _ H) B3)) end.
Qed.
Lemma join_loop_names : forall h l s c chans keys s1 b s' c1, incl chans l -> wf s1 -> ichan s1 -> byN (fresh_name s l) s s1 -> assoc h (s_heap s1) = Some c1 -> looks s c s1 c1 -> fits c -> cl_id c <> [] -> (forall t, In t keys -> t <> []) ->
  join_loop h h chans keys s1 = Ok b s' -> byN (fresh_name s l) s s'.
Proof.
  intros h l s c chans. induction chans as [|name chans IH]; intros keys s1 b s' c1 IN W IC BN A L F NI KN H; cbn [join_loop] in H.
  - apply ret_ok in H. destruct H as [_ ->]. exact BN.
  - bd H as x s2 H1. destruct (looks_modes _ _ _ _ L) as (M1 & M2 & M3 & M4). destruct (join_one_good _ _ _ _ _ _ H1 W) as [W2 IC2]. specialize (IC2 IC).
    assert (KN1 : forall t, hd_error keys = Some t -> t <> []). { intros t E. apply KN. destruct keys; cbn in E; [discriminate|]. injection E as <-. left; auto. }
    assert (NI1 : cl_id c1 <> []) by congruence. pose proof (fits_looks _ _ _ _ L F) as F1.
    pose proof (join_one_ok _ _ _ _ _ _ _ W IC A F1 NI1 KN1 H1) as R. pose proof (fw_round _ _ _ _ _ _ _ (fw_refl h s1) R) as FW12.
    destruct (fw_cli _ _ _ FW12 _ _ A) as (c2 & A2 & L2). pose proof (looks_trans _ _ _ _ _ _ L L2) as L02.
    assert (BN2 : byN (fresh_name s l) s s2) by (refine (join_one_names h l name _ s s1 x s2 c1 _ W IC BN A F1 NI1 KN1 H1); apply IN; left; auto).
    destruct x as [bb|]; [apply ret_ok in H; destruct H as [_ ->]; exact BN2|].
    eapply IH; [intros y Y; apply IN; right; exact Y|exact W2|exact IC2|exact BN2|exact A2|exact L02|exact F|exact NI| |exact H]. intros t I. apply KN. destruct keys; [destruct I|right; auto].
Qed.
Lemma IRC_JOIN_names : forall h req s b s' c, wf s -> ichan s -> assoc h (s_heap s) = Some c -> fits c -> cl_id c <> [] -> IRC_JOIN h req s = Ok b s' ->
  byN (fresh_name s (strtok "," (arg req 0))) s s'.
Proof.
  intros h req s b s' c W IC A F NI H. unfold IRC_JOIN, with_sender in H. bd H as srv s1 H1. apply is_type_ok in H1. destruct H1 as (-> & c1 & A1 & ->). rewrite A in A1. injection A1 as <-. rewrite (fi_type _ F) in H. cbn [ctype_eqb] in H.
  destruct (_ && _) in H.
  - assert (R : rel (also wf (byN (fresh_name s (strtok "," (arg req 0))) s)) (part_from_all_channels h h)) by rel_auto. apply R in H. exact (proj2 (H W) byN_refl).
  - destruct (strtok "," (arg req 0)) as [|n0 chans] eqn:E.
    + assert (W1 : wr s s') by xlast H. eapply byN_f; [| |apply byN_refl]; [apply fconf_wr; exact W1|apply fchan_wr; exact W1].
    + eapply (join_loop_names h (n0 :: chans) s c (n0 :: chans)) in H; [exact H|apply incl_refl|exact W|exact IC|apply byN_refl|exact A|apply looks_refl|exact F|exact NI|].
      intros t It. destruct (1 <? argc req); [|destruct It]. eapply strtok_ne; exact It.
Qed.
(** ---- characters of arguments ---- *)
Lemma drop_while_in : forall p (l : bytes) x, In x (drop_while p l) -> In x l.
Proof. induction l as [|a l IH]; intros x I; cbn in I; auto. destruct (p a); [right; auto|exact I]. Qed.
Lemma cut_in : forall t a o x, cut t = (a, o) -> (In x a -> In x t) /\ (forall r, o = Some r -> In x r -> In x t).
Proof.
  intros t a o x H. unfold cut in H. pose proof (strchr_spec SP t) as E. destruct (strchr SP t) as [[u v]|]; injection H as <- <-.
  - destruct E as [-> _]. split; [intro I; apply in_app_iff; auto|]. intros r R I. injection R as <-. apply drop_while_in in I. apply in_app_iff. auto.
  - split; auto. intros r R. discriminate R.
Qed.
Lemma parse_args_in : forall n t a x, In a (parse_args n t) -> In x a -> In x t.
Proof.
  induction n as [|n IH]; intros t a x I X; [destruct I|]. cbn [parse_args] in I. destruct t as [|c r]; [destruct I as [<- |[]]; destruct X|].
  destruct (Ascii.eqb c ":"); [destruct I as [<- |[]]; right; auto|]. destruct (cut (c :: r)) as [u o] eqn:E. destruct (cut_in _ _ _ x E) as [C1 C2]. destruct I as [<- |I]; auto. destruct o as [v|]; [|destruct I]. eapply C2; eauto.
Qed.
Lemma parse_line_in : forall t rq a x, parse_line t = Some rq -> In a (rq_args rq) -> In x a -> In x t.
Proof.
  assert (PC : forall p t a x, In a (rq_args (parse_command p t)) -> In x a -> In x t).
  { intros p t a x I X. unfold parse_command in I. destruct (cut t) as [u o] eqn:E. cbn [rq_args] in I. destruct o as [v|]; [|destruct I]. destruct (cut_in _ _ _ x E) as [_ C2]. apply (C2 v eq_refl). eapply parse_args_in; eauto. }
  intros t rq a x H I X. unfold parse_line in H. destruct t as [|c r]; [injection H as <-; eapply PC; eauto|]. destruct (Ascii.eqb c ":"); [|injection H as <-; eapply PC; eauto].
  destruct (cut (c :: r)) as [u o] eqn:E. destruct o as [v|]; [|discriminate H]. injection H as <-. destruct (cut_in _ _ _ x E) as [_ C2]. apply (C2 v eq_refl). eapply PC; eauto.
Qed.
Lemma strtok_in : forall d t cur a x, In a (strtok_aux d t cur) -> In x a -> In x t \/ In x cur.
Proof.
  induction t as [|c t IH]; intros cur a x I X; cbn [strtok_aux] in I.
  - destruct cur as [|y cur]; [destruct I|]. destruct I as [<- |[]]. right. apply in_rev. exact X.
  - destruct (Ascii.eqb c d).
    + destruct cur as [|y cur]; [destruct (IH _ _ _ I X) as [J|[]]; left; right; auto|]. destruct I as [<- |I]; [right; apply in_rev; exact X|]. destruct (IH _ _ _ I X) as [J|[]]; left; right; auto.
    + destruct (IH _ _ _ I X) as [J|[J|J]]; [left; right; auto|subst; left; left; auto|right; auto].
Qed.
Lemma trim_in : forall t x, In x (trim t) -> In x t.
Proof. intros t x I. unfold trim in I. apply in_rev in I. apply drop_while_in in I. apply in_rev in I. apply drop_while_in in I. exact I. Qed.


(** [IRC_JOIN] of a registered user *)
Lemma join_names : forall s i h c text b s', live s -> undisturbed s -> client_of s i h c -> cl_type c = T_USER -> ~ In NUL text -> Parse_Request i text s = Ok b s' ->
  forall ch k', exists_chan s' ch k' -> (exists k, exists_chan s ch k) \/
  exists args name x r, says text "JOIN" args /\ In name (strtok "," (nth 0 args [])) /\ ch_name k' = name /\ name = x :: r /\ In x (cf_chantypes (s_conf s)) /\ legal_chan name.
Proof.
  intros s i h c text b s' L U C T NT H ch k' EK. pose proof (live_wf _ L) as W. unfold exists_chan in *. rewrite lookup_assoc in EK.
  assert (OLD : assoc ch (s_chans s) <> None -> exists k, lookup ch (s_chans s) = Some k) by (intro Z; rewrite lookup_assoc; destruct (assoc ch (s_chans s)) as [k|]; [eauto|congruence]).
  destruct (user_line _ _ _ _ _ _ _ _ _ _ _ _ _ (uothers_names (fun _ => False) s) C T H) as [X|(cmd & req & s1 & R & E & X)].
  - left. destruct (X W) as [_ X1]. destruct (X1 byN_refl) as [_ X2]. destruct (X2 _ _ EK) as [Z|[]]. auto.
  - cbn [existsb] in E. rewrite orb_false_r in E. apply String.eqb_eq in E. pose proof (cr_run _ _ _ _ _ _ _ _ _ _ R) as RUN. pose proof (cmd_JOIN _ (cr_in _ _ _ _ _ _ _ _ _ _ R) E) as EC.
    rewrite EC in RUN. cbn [cm_fun] in RUN. pose proof (prepared_quiet _ _ (cr_prep _ _ _ _ _ _ _ _ _ _ R)) as Q. destruct (prepared_X (also wf ichan) _ _ _ _ _ (cr_prep _ _ _ _ _ _ _ _ _ _ R) W) as [W1 IC1]. specialize (IC1 (live_ichan _ L)).
    destruct (user_fits _ _ _ _ L U C T) as [FI NI]. pose proof C as [_ C2]. rewrite lookup_assoc in C2. destruct (qu_cli _ _ Q _ _ C2) as (c1 & A1 & L1).
    destruct (looks_modes _ _ _ _ L1) as (_ & L2 & _). assert (NI1 : cl_id c1 <> []) by congruence.
    pose proof (IRC_JOIN_names _ _ _ _ _ _ W1 IC1 A1 (fits_looks _ _ _ _ L1 FI) NI1 RUN) as [BC BN]. destruct (BN _ _ EK) as [Z|(Z1 & Z2 & Z3)].
    + left. apply OLD. pose proof (kept_assoc _ _ (qu_chan _ _ Q) ch) as K. destruct (assoc ch (s_chans s1)); [|congruence]. destruct (assoc ch (s_chans s)); [discriminate|contradiction].
    + right. destruct (cr_parse _ _ _ _ _ _ _ _ _ _ R) as (p & PL). pose proof (cr_name _ _ _ _ _ _ _ _ _ _ R) as NM. rewrite E in NM.
      assert (NE : ch_name k' <> []) by (eapply strtok_ne; exact Z1). destruct (ch_name k') as [|x r] eqn:EN; [congruence|].
      assert (NX : x <> NUL).
      { intros ->. destruct (strtok_in _ _ _ _ NUL Z1 ltac:(left; reflexivity)) as [J|[]]. apply NT. apply trim_in. unfold arg in J.
        destruct (nth_in_or_default 0 (rq_args req) []) as [I|I]; [|rewrite I in J; destruct J]. eapply parse_line_in; [exact PL| |exact J]. exact I. }
      exists (rq_args req), (x :: r), x, r. split; [exists p, (rq_command req); split; auto|]. split; [exact Z1|]. split; auto. split; auto.
      unfold valid_chan in Z2. rewrite !andb_true_iff in Z2. destruct Z2 as [[V1 V2] V3]. cbn [hd0] in *. unfold strchr0 in Z3, V1.
      assert (EX : Ascii.eqb x NUL = false) by (apply Ascii.eqb_neq; exact NX). rewrite EX in Z3, V1. cbn [orb] in Z3, V1. split.
      { apply memb_In in Z3. rewrite (qu_conf _ _ Q) in Z3. exact Z3. }
      split; [|split].
      * intros c0 r0 E0. injection E0 as <- <-. apply memb_In. exact V1.
      * apply Nat.ltb_lt in V2. exact V2.
      * intros y Iy J. rewrite forallb_forall in V3. specialize (V3 _ Iy). apply memb_In in J. rewrite J in V3. discriminate V3.
Qed.
