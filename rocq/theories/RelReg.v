(** The exact effect of a peer registering as a server (irc-server.c:64-190). *)
From Coq Require Import List Ascii String ZArith NArith Bool Lia.
From Coq Require Import Relations RelationClasses.
From Verif Require Import Bytes Strl Match Lists Hash ParseReq State Messages Monad Core Write Info Chan Mode Msg Login Oper Server Dispatch Conn Rel RelWrite RelInfo RelBase RelChan RelSrv RelInit RelKey RelCmd RelComp WF RelGone Frame Tree.
Import ListNotations.
Local Open Scope m_scope.

(** only the client [h] may be changed *)
Record rest (h : handle) (s s' : state) : Prop := mk_rest {
  rs_keys : map fst (s_heap s') = map fst (s_heap s); rs_clients : s_clients s' = s_clients s; rs_next : s_next s' = s_next s;
  rs_cli : forall x, x <> h -> orel cl_same (assoc x (s_heap s)) (assoc x (s_heap s'));
  rs_conn : fconn s s'; rs_chan : fchan s s'; rs_mb : fmb s s'; rs_odd : fodd s s'; rs_conf : fconf s s' }.
#[export] Instance rest_po : forall h, PreOrder (rest h).
Proof.
  intro h. split.
  - intro s. split; auto; try reflexivity. intros. apply orel_refl, cl_same_refl.
  - intros a b c [] []. split; try congruence; try (etransitivity; eassumption). intros x Hx. eapply orel_trans; eauto. apply cl_same_trans.
Qed.
Lemma rest_wr : forall h s s', wr s s' -> rest h s s'.
Proof. intros h s s' W. destruct (fheap_wr _ _ W). split; auto; [apply fconn_wr|apply fchan_wr|apply fmb_wr|apply fodd_wr|apply fconf_wr]; auto. Qed.
Lemma rest_set : forall h f s, rest h s (set_cli h f s).
Proof.
  intros h f s. split; try reflexivity.
  - unfold set_cli. cbn [s_heap set_s_heap]. apply aupd_keys.
  - intros x Hx. unfold set_cli. cbn [s_heap set_s_heap]. rewrite assoc_aupd. destruct (Nat.eqb_spec h x); [congruence|]. apply orel_refl, cl_same_refl.
  - fr_triv.
  - split; reflexivity.
Qed.
Lemma rest_con : forall h i f s, (forall c, co_key c (f c)) -> rest h s (set_con i f s).
Proof. intros h i f s H. split; try reflexivity. { intros. apply orel_refl, cl_same_refl. } { apply set_con_fconn. auto. } split; reflexivity. Qed.

Record registered (h : handle) (c c' : client) (id : bytes) : Prop := mk_registered {
  rg_time : cl_starttime c' = cl_starttime c; rg_id : cl_id c' = strlcpy CLIENT_ID_LEN id; rg_hash : cl_hash c' = Hash (cl_id c');
  rg_type : cl_type c' = T_UNKNOWNSERVER; rg_conn : cl_conn c' = cl_conn c; rg_top : cl_topserver c' = cl_topserver c;
  rg_modes : cl_modes c' = cl_modes c; rg_mytoken : cl_mytoken c' = cl_mytoken c;
  rg_intro : cl_introducer c' = cl_introducer c \/ cl_introducer c' = Some h;
  rg_tok : (cl_token c = (-2)%Z /\ cl_introducer c' = cl_introducer c) \/ cl_introducer c' = Some h;
  rg_sizes : csizes c -> csizes c' }.

(** sizes through the write layer *)
Definition keepsz (s s' : state) : Prop := forall h, orel (fun c c' => csizes c -> csizes c') (assoc h (s_heap s)) (assoc h (s_heap s')).
#[export] Instance keepsz_po : PreOrder keepsz.
Proof. split; [intros s h; apply orel_refl; intros c H; auto|]. intros a b c H1 H2 h. eapply orel_trans; [|apply H1|apply H2]. intros x y z A B. auto. Qed.
#[export] Instance keepsz_wr : WrSub keepsz.
Proof.
  intros s s' H h. destruct H; try (apply orel_refl; intros y Hy; exact Hy). unfold set_cli. cbn [s_heap set_s_heap]. rewrite assoc_aupd. destruct (Nat.eqb_spec h0 h); [|apply orel_refl; intros y Hy; exact Hy].
  subst. rewrite H. cbn. intros []. split; auto.
Qed.
Lemma wr_sizes : forall s s' h c c', wr s s' -> assoc h (s_heap s) = Some c -> assoc h (s_heap s') = Some c' -> csizes c -> csizes c'.
Proof. intros s s' h c c' W H H'. assert (K : keepsz s s') by (apply wr_incl; auto; exact _). specialize (K h). rewrite H, H' in K. exact K. Qed.
(** the heap only lost clients *)
Record lost (h : handle) (s s' : state) : Prop := mk_lost {
  ls_cli : forall x c', assoc x (s_heap s') = Some c' -> x <> h /\ exists c, assoc x (s_heap s) = Some c /\ cl_same c c';
  ls_clients : forall x, In x (s_clients s') -> In x (s_clients s); ls_conf : fconf s s'; ls_odd : incl (s_odd s) (s_odd s') }.

Lemma register_ok : forall s s', pstep L_register s s' -> wf2 s -> tree s ->
  exists h c i id, assoc h (s_heap s) = Some c /\ cl_conn c = Some i /\ (cl_type c = T_GOTPASS \/ cl_type c = T_GOTPASS_2813) /\
    id_free h (strlcpy CLIENT_ID_LEN id) s /\
    (lost h s s' \/ (rest h s s' /\ exists c', assoc h (s_heap s') = Some c' /\ registered h c c' id)).
Proof.
  intros s s' H [W O] T. inversion H; subst. rename H0 into Hc, H1 into Hi, H2 into At, H3 into Ty, H4 into F, H5 into R. clear H.
  exists h, c, i, (arg req 0). split; auto. split; auto. split; auto. split; auto.
  unfold server_become in R. bd R as u1 s1 H1. unfold Client_SetID in H1. bd H1 as u s0 H0. unfold cf in H0. rdgets H0. apply upd_cli_ok in H1. destruct H1 as (c0 & Hc0 & ->).
  assert (c0 = c) by congruence. subst c0. clear Hc0.
  set (u1' := cf_cloakusertonick (s_conf s)) in *. change (set_s_heap (aupd h (set_id u1' (arg req 0)) (s_heap s)) s) with (set_cli h (set_id u1' (arg req 0)) s) in R.
  (* the fields that matter *)
  pose (Q := fun c' => cl_starttime c' = cl_starttime c /\ cl_id c' = strlcpy CLIENT_ID_LEN (arg req 0) /\ cl_hash c' = Hash (cl_id c') /\ cl_type c' = cl_type c /\
     cl_conn c' = cl_conn c /\ cl_topserver c' = cl_topserver c /\ cl_modes c' = cl_modes c /\ cl_mytoken c' = cl_mytoken c /\ (csizes c -> csizes c')).
  pose (Q1 := fun c' => Q c' /\ cl_introducer c' = cl_introducer c /\ cl_token c' = cl_token c).
  assert (QS : forall a b0, cl_same a b0 -> Q a -> osize CLIENT_HOST_LEN (cl_cloaked b0) -> Q b0).
  { intros a b0 [y ->] (X1&X2&X3&X4&X5&X6&X7&X8&X9) Hy. unfold Q. cbn in *. repeat (split; [assumption|]). intro Z. destruct (X9 Z). split; auto. }
  assert (S1 : exists c1, assoc h (s_heap (set_cli h (set_id u1' (arg req 0)) s)) = Some c1 /\ Q1 c1).
  { eexists. split. { unfold set_cli. cbn [s_heap set_s_heap]. rewrite assoc_aupd, Nat.eqb_refl, Hc. reflexivity. }
    unfold Q1, Q. split; [repeat split|split]; try (unfold set_id; destruct u1'; reflexivity); apply (cs_set_id u1' (arg req 0) c); auto. }
  assert (R1 := rest_set h (set_id u1' (arg req 0)) s). set (s1 := set_cli h _ s) in *. clearbody s1.
  assert (ST : forall f t a t' (P P' : client -> Prop), upd_cli h f t = Ok a t' -> (forall x, P x -> P' (f x)) -> (exists cx, assoc h (s_heap t) = Some cx /\ P cx) ->
     rest h t t' /\ exists cx, assoc h (s_heap t') = Some cx /\ P' cx).
  { intros f t a t' P P' Hu HP (cx & Hx & Px). apply upd_cli_ok in Hu. destruct Hu as (cy & Hy & ->). split; [apply rest_set|].
    exists (f cx). split; auto. cbn [s_heap set_s_heap]. rewrite assoc_aupd, Nat.eqb_refl, Hx. reflexivity. }
  bd R as u2 s2 H2. apply (ST _ _ _ _ Q1 Q1) in H2; auto. 2: { intros x [X Y]. split; auto. destruct X as (X1&X2&X3&X4&X5&X6&X7&X8&X9). unfold Q. cbn. repeat (split; [assumption|]). intro Z. destruct (X9 Z). split; auto. }
  destruct H2 as [R2 S2]. bd R as u3 s3 H3. unfold Client_SetInfo in H3. bd H3 as uu t0 T0. unfold cf in T0. rdgets T0. apply (ST _ _ _ _ Q1 Q1) in H3; auto.
  2: { intros x [X Y]. split; auto. destruct X as (X1&X2&X3&X4&X5&X6&X7&X8&X9). unfold Q. cbn. repeat (split; [assumption|]). intro Z. apply cs_set_info. auto. }
  destruct H3 as [R3 S3]. assert (RR : rest h s s3) by (transitivity s1; [auto|transitivity s2; auto]). clear R1 R2 R3 S1 S2 s1 s2.
  bd R as tok s4 H4. unfold Client_Token in H4. bd H4 as ct t0 T0. rdcli T0. apply ret_ok in H4. destruct H4 as [-> ->]. destruct S3 as (c3 & Hc3 & Q3). assert (ct = c3) by congruence. subst ct.
  bd R as ok s5 H5.
  assert (Fin : forall s5, rest h s3 s5 -> (exists c5, assoc h (s_heap s5) = Some c5 /\ Q c5 /\ ((cl_token c = (-2)%Z /\ cl_introducer c5 = cl_introducer c) \/ cl_introducer c5 = Some h)) ->
     (gp <- is_type h T_GOTPASS ;; whenM gp (upd_con i (set_co_rfc1459 true)) ;;; Client_SetType h T_UNKNOWNSERVER ;;; ret true) s5 = Ok b s' ->
     rest h s s' /\ exists c', assoc h (s_heap s') = Some c' /\ registered h c c' (arg req 0)).
  { clear H5 R s5. intros s5 R5 (c5 & Hc5 & Q5 & I5) R. bd R as gp s6 H6. apply is_type_ok in H6. destruct H6 as (-> & _). bd R as u7 s7 H7.
    assert (S7 : s7 = s5 \/ s7 = set_con i (set_co_rfc1459 true) s5). { unfold whenM in H7. destruct gp; [apply upd_con_ok in H7; auto|]. apply ret_ok in H7. destruct H7; auto. }
    assert (R7 : rest h s5 s7 /\ s_heap s7 = s_heap s5). { destruct S7 as [-> | ->]; split; try reflexivity. apply rest_con. intro x. repeat split. } destruct R7 as [R7 E7]. clear S7 H7.
    bd R as u8 s8 H8. apply ret_ok in R. destruct R as [_ ->]. destruct u8. apply Client_SetType_ok in H8. destruct H8 as (c8 & tk & a8 & b8 & Hc8 & -> & _). rewrite E7 in Hc8. assert (c8 = c5) by congruence. subst c8.
    destruct Q5 as (X1&X2&X3&X4&X5&X6&X7&X8&X9).
    assert (Eo : retype_odd c5 T_UNKNOWNSERVER = false) by (unfold retype_odd; rewrite X4; destruct Ty as [-> | ->]; reflexivity). rewrite Eo. cbn [if_odd]. split.
    - transitivity s3; auto. transitivity s5; auto. transitivity s7; auto. destruct (rest_set h (typed T_UNKNOWNSERVER tk) s7). split; auto. destruct rs_conn0. split; auto. destruct rs_chan0. split; auto.
    - exists (typed T_UNKNOWNSERVER tk c5). split. { unfold set_cli. cbn [s_heap set_s_heap set_s_maxusers set_s_mymaxusers]. rewrite assoc_aupd, Nat.eqb_refl, E7, Hc5. reflexivity. }
      unfold typed. cbn. split; cbn; auto; [destruct I5 as [[]|]; auto|]. intro Z. destruct (X9 Z). split; auto. }
  destruct (cl_token c3 =? -2)%Z eqn:Et; cbn [negb] in H5.
  - bd H5 as v t1 H1. apply (ST _ _ _ _ Q1 (fun x => Q x /\ cl_introducer x = cl_introducer c)) in H1; [|intros x (X & Y & _)|eauto].
    2: { split; auto. destruct X as (X1&X2&X3&X4&X5&X6&X7&X8&X9). unfold Q. cbn. repeat (split; [assumption|]). intro Z. destruct (X9 Z). split; auto. }
    destruct H1 as [R1 (c1 & Hc1 & Q1' & I1)]. apply ret_ok in H5. destruct H5 as [-> ->]. right. apply (Fin t1); auto. exists c1. split; auto. split; auto. left. split; auto.
    destruct Q3 as (_ & _ & E). rewrite <- E. apply Z.eqb_eq. auto.
  - bd H5 as oc t1 H1. same H1. bd H5 as na t1 H1. same H1. bd H5 as inf t1 H1. same H1. bd H5 as ok2 t1 H1. assert (Wr : wr s3 t1) by xlast H1. clear H1.
    assert (S1 : exists cx, assoc h (s_heap t1) = Some cx /\ Q cx /\ cl_introducer cx = cl_introducer c).
    { destruct Q3 as (A & B & _). destruct (wr_cli _ _ _ _ Wr Hc3) as [y Hy]. eexists. split; [exact Hy|]. split; [|exact B].
      destruct A as (X1&X2&X3&X4&X5&X6&X7&X8&X9). unfold Q. cbn. repeat (split; [assumption|]). intro Z. specialize (X9 Z). eapply (wr_sizes _ _ _ _ _ Wr Hc3 Hy); auto. }
    destruct ok2; cbn [negb] in H5.
    + bd H5 as v t2 H2. apply (ST _ _ _ _ (fun x => Q x /\ cl_introducer x = cl_introducer c) (fun x => Q x /\ cl_introducer x = Some h)) in H2; auto.
      2: { intros x (X & Y). split; auto. destruct X as (X1&X2&X3&X4&X5&X6&X7&X8&X9). unfold Q. cbn. repeat (split; [assumption|]). intro Z. destruct (X9 Z). split; auto. }
      destruct H2 as [R2 S2]. bd H5 as v2 t3 H3. apply (ST _ _ _ _ (fun x => Q x /\ cl_introducer x = Some h) (fun x => Q x /\ cl_introducer x = Some h)) in H3; auto.
      2: { intros x (X & Y). split; auto. destruct X as (X1&X2&X3&X4&X5&X6&X7&X8&X9). unfold Q. cbn. repeat (split; [assumption|]). intro Z. destruct (X9 Z). split; auto. }
      destruct H3 as [R3 (c4 & Hc4 & Q4 & I4)]. apply ret_ok in H5. destruct H5 as [-> ->]. right. apply (Fin t3); auto.
      * transitivity t1; [apply rest_wr; auto|]. transitivity t2; auto.
      * exists c4. auto.
    + left. bd H5 as v t2 H2. apply ret_ok in H5. destruct H5 as [-> ->]. cbn [negb] in R. apply ret_ok in R. destruct R as [_ ->].
      assert (R1 : rest h s t1) by (transitivity s3; [auto|apply rest_wr; auto]).
      assert (W1 : wf t1). { destruct R1. assert (E : shape_of t1 = shape_of s). { apply shape_eq; auto; [|apply rs_chan0|..]. - destruct rs_chan0. rewrite fk_chans; auto. - rewrite rs_mb0; auto. - apply rs_conn0. } unfold wf. rewrite E. auto. }
      apply Conn_Close_ok in H2; auto. destruct (tr_h2c _ T _ _ _ Hc Hi) as (cn & Hcn & Ecn).
      destruct H2 as (cn1 & Hcn1 & HH). pose proof (fc_con _ _ (rs_conn _ _ _ R1) i) as K. rewrite Hcn, Hcn1 in K. destruct K as (K1 & K2 & K3 & _). destruct O as [O _]. destruct (O _ _ Hcn) as [O1 O2].
      destruct HH as [[X _]|(_ & _ & _ & D & sv0 & G & _ & HD)]; [congruence|]. rewrite K3, Ecn in HD. destruct HD as (P & Hh & _).
      assert (Ih : In h D). { apply Hh. rewrite (rs_clients _ _ _ R1). eapply tr_listed; eauto. }
      split.
      * intros x c' Hx. assert (N : ~ In x D) by (intro I; rewrite (gone_dead _ _ _ _ G I) in Hx; discriminate). assert (Nx : x <> h) by congruence. split; auto.
        pose proof (gone_keep _ _ _ _ G N) as K. change (s_heap (dropc i sv0 t1)) with (s_heap t1) in K. rewrite Hx in K.
        pose proof (rs_cli _ _ _ R1 x Nx) as K'. destruct (assoc x (s_heap t1)) as [c1|]; [|destruct K]. destruct (assoc x (s_heap s)) as [c2|]; [|destruct K']. exists c2. split; auto. eapply cl_same_trans; eauto.
      * intros x Hx. apply (gone_In _ _ _ _ G) in Hx. destruct Hx as [Hx _]. change (In x (s_clients t1)) in Hx. rewrite (rs_clients _ _ _ R1) in Hx. auto.
      * unfold fconf. rewrite (g_conf _ _ _ _ _ G). change (s_conf t1 = s_conf s). apply (rs_conf _ _ _ R1).
      * intros o Ho. apply (g_odd _ _ _ _ _ G). change (In o (s_odd t1)). rewrite (rs_odd _ _ _ R1). auto.
Qed.
